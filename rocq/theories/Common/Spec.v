(** Vocabulary for C23 and C24. *)
From Coq Require Import Ascii.
From Verif.Base Require Import Py PyStr.
From Verif.Common Require Import Model.
Local Open Scope string_scope.
Local Open Scope list_scope.

(** [c] does not occur in [s] *)
Definition free (c : ascii) (s : string) : Prop := all_chars (fun x => negb (Ascii.eqb x c)) s = true.

(** a path whose parts contain no separator and whose revision, if given, is not empty *)
Definition plain_path (p : model_path) : Prop :=
  free "@" (mp_path p) /\ free "+" (mp_path p) /\
  match mp_revision p with Some r => r <> "" /\ free "@" r /\ free "+" r | None => True end.
Definition plain_ref (r : model_ref) : Prop :=
  plain_path (mr_model r) /\ match mr_lora r with Some l => plain_path l | None => True end /\ mr_arch r = None.

(** the path has an explicitly empty revision, "model@" *)
Definition empty_revision (p : model_path) : Prop := mp_revision p = Some "".

(** decimal digits, possibly with single underscores between digits *)
Inductive grouped : string -> Prop :=
| gr_one c : is_digit c = true -> grouped (String c "")
| gr_digit c s : is_digit c = true -> grouped s -> grouped (String c s)
| gr_under c s : is_digit c = true -> grouped s -> grouped (String c (String "_" s)).
Fixpoint no_underscore (s : string) : string :=
  match s with EmptyString => "" | String c r => if Ascii.eqb c "_" then no_underscore r else String c (no_underscore r) end.

(** what [int] accepts: blanks, an optional sign, digits, blanks *)
Definition int_literal (s : string) (z : Z) : Prop :=
  exists b1 sign body b2, s = (b1 ++ sign ++ body ++ b2)%string /\
    all_chars is_space b1 = true /\ all_chars is_space b2 = true /\ grouped body /\
    ((sign = "" \/ sign = "+") /\ z = digits_value 0 (no_underscore body) \/
     sign = "-" /\ z = (- digits_value 0 (no_underscore body))%Z).

(** the multiplier of a suffix letter *)
Definition suffix (c : ascii) (m : Z) : Prop :=
  In (c, m) [("k", 10 ^ 3); ("K", 10 ^ 3); ("m", 10 ^ 6); ("M", 10 ^ 6); ("b", 10 ^ 9); ("B", 10 ^ 9)]%char%Z.
