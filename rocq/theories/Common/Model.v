(** Model of mergekit/common.py: model references (61-225) and parse_kmb (246-258).

    Strings are ASCII; the non-ASCII cases of [str.isnumeric], [str.lower] and [int] are not modelled. *)
From Coq Require Import Ascii.
From Verif.Base Require Import Py PyStr.
Local Open Scope string_scope.
Local Open Scope list_scope.

(** [s.split(c)] and [s.count(c)] for a one-character [c] *)
Fixpoint split (c : ascii) (s : string) : list string :=
  match s with
  | EmptyString => [""]
  | String x r => if Ascii.eqb x c then "" :: split c r
                  else match split c r with p :: ps => String x p :: ps | [] => [String x ""] end
  end.
Fixpoint count (c : ascii) (s : string) : nat :=
  match s with EmptyString => 0 | String x r => (if Ascii.eqb x c then 1 else 0) + count c r end.

(** ** ModelPath (61-88) *)
Record model_path := { mp_path : string; mp_revision : option string }.
(** validate_string (65-77) *)
Definition parse_path (s : string) : result model_path :=
  if Nat.ltb 1 (count "@" s) then Err RuntimeError
  else if Nat.eqb (count "@" s) 1
       then match split "@" s with
            | [p; r] => Ok {| mp_path := p; mp_revision := Some r |}
            | _ => Err ValueError
            end
       else Ok {| mp_path := s; mp_revision := None |}.
(** __str__ (79-82) *)
Definition str_path (p : model_path) : string :=
  match mp_revision p with
  | Some r => if eqb r "" then mp_path p else (mp_path p ++ "@" ++ r)%string
  | None => mp_path p
  end.

(** ** ModelReference (91-225) *)
Record model_ref := { mr_model : model_path; mr_lora : option model_path; mr_arch : option string }.
(** validate_string (193-202), followed by the validation of the parts; [parse] (217-220) is the same *)
Definition parse_ref (s : string) : result model_ref :=
  match split "+" s with
  | [m] => let! m := parse_path m in Ok {| mr_model := m; mr_lora := None; mr_arch := None |}
  | [m; l] => let! m := parse_path m in
              let! l := parse_path l in Ok {| mr_model := m; mr_lora := Some l; mr_arch := None |}
  | _ => Err RuntimeError
  end.
(** __str__ (222-225) *)
Definition str_ref (r : model_ref) : string :=
  match mr_lora r with
  | Some l => (str_path (mr_model r) ++ "+" ++ str_path l)%string
  | None => str_path (mr_model r)
  end.

(** serialize (204-215): what is dumped into YAML/JSON. [return self] dumps the fields. *)
Inductive dumped := DString (s : string) | DFields (r : model_ref).
Fixpoint has_char (c : ascii) (s : string) : bool :=
  match s with EmptyString => false | String x r => Ascii.eqb x c || has_char c r end.
Definition serialize (r : model_ref) : dumped :=
  match mr_arch r with
  | Some _ => DFields r
  | None => let s := str_ref r in if has_char """" s || has_char " " s then DFields r else DString s
  end.
(** validation of a dumped reference *)
Definition revalidate (d : dumped) : result model_ref :=
  match d with DString s => parse_ref s | DFields r => Ok r end.

(** ** Python's [int(s)] on ASCII strings *)
Definition is_space (c : ascii) : bool :=
  let n := nat_of_ascii c in ((9 <=? n) && (n <=? 13) || (28 <=? n) && (n <=? 32))%nat.
Fixpoint lstrip (s : string) : string :=
  match s with EmptyString => "" | String c r => if is_space c then lstrip r else s end.
Fixpoint rstrip (s : string) : string :=
  match s with
  | EmptyString => ""
  | String c r => match rstrip r with
                  | EmptyString => if is_space c then "" else String c ""
                  | r' => String c r'
                  end
  end.
Definition digit_val (c : ascii) : Z := Z.of_nat (nat_of_ascii c) - 48.
(** digits, with single underscores between them; called after a digit has been read *)
Fixpoint int_tail (acc : Z) (s : string) : option Z :=
  match s with
  | EmptyString => Some acc
  | String c r =>
      if is_digit c then int_tail (acc * 10 + digit_val c) r
      else if Ascii.eqb c "_"
           then match r with
                | String c2 r2 => if is_digit c2 then int_tail (acc * 10 + digit_val c2) r2 else None
                | EmptyString => None
                end
           else None
  end.
Definition int_body (s : string) : option Z :=
  match s with String c r => if is_digit c then int_tail (digit_val c) r else None | EmptyString => None end.
Definition py_int (s : string) : result Z :=
  let s := rstrip (lstrip s) in
  let v := match s with
           | String "-" r => option_map Z.opp (int_body r)
           | String "+" r => int_body r
           | _ => int_body s
           end in
  match v with Some z => Ok z | None => Err ValueError end.

(** ** parse_kmb (246-258), on strings *)
Definition isnumeric (s : string) : bool := negb (eqb s "") && all_chars is_digit s.
Fixpoint split_last (s : string) : option (string * ascii) :=
  match s with
  | EmptyString => None
  | String c r => match split_last r with Some (i, l) => Some (String c i, l) | None => Some ("", c) end
  end.
Definition lower (c : ascii) : ascii :=
  let n := nat_of_ascii c in if ((65 <=? n) && (n <=? 90))%nat then ascii_of_nat (n + 32) else c.
Definition parse_kmb (s : string) : result Z :=
  if isnumeric s then py_int s
  else match split_last s with
       | None => Err IndexError
       | Some (i, l) =>
           if Ascii.eqb (lower l) "k" then let! z := py_int i in Ok (z * 1000)%Z
           else if Ascii.eqb (lower l) "m" then let! z := py_int i in Ok (z * 1000 * 1000)%Z
           else if Ascii.eqb (lower l) "b" then let! z := py_int i in Ok (z * 1000 * 1000 * 1000)%Z
           else Err ValueError
       end.
