(** Vocabulary for C47. *)
From Verif.Base Require Import Py.
From Verif.TokenSurgeon Require Import Model.
Local Open Scope string_scope.
Local Open Scope list_scope.

(** a vocabulary gives each token one id and each id one token *)
Definition is_vocab {K} (v : dict K nat) : Prop := NoDup (dkeys v) /\ NoDup (dvals v).

(** a token known to a model: it has an id, and the matrix has a row for it *)
Definition known {V} (m : list V) (v : dict ntok nat) (t : ntok) (i : nat) : Prop := In (t, i) v /\ i < length m.

(** the value of a hexadecimal digit 0-9, A-F *)
Definition hex_digit (n : N) : N := nth (N.to_nat n) (u "0123456789ABCDEF") 0%N.

(** byte [c] is written as the character itself or as <0xHH>, two upper-case hexadecimal digits *)
Definition byte_pair (c : N) (a b : ntok) : Prop :=
  (c < 256)%N /\ a = TPlain [c] /\ b = TPlain (u "<0x" ++ [hex_digit (c / 16); hex_digit (c mod 16)] ++ u ">").

(** [p] is a proper prefix of [t]'s text of the same kind, not all white space *)
Definition proper_prefix (p t : ntok) : Prop :=
  exists (mk : text -> ntok) a b, (mk = TPlain \/ mk = TStart) /\ t = mk (a ++ b) /\ p = mk a /\ b <> [] /\
    existsb (fun c => negb (is_space c)) a = true.
(** [p] is the longest such prefix that the vocabulary knows *)
Definition longest_known {V} (m : list V) (v : dict ntok nat) (t p : ntok) : Prop :=
  proper_prefix p t /\ (exists i, known m v p i) /\
  forall p', proper_prefix p' t -> (exists i, known m v p' i) -> length (unnormalize p') <= length (unnormalize p).

(** the token has neither the length of a character nor that of a byte token *)
Definition no_byte_form (t : ntok) : Prop := match t with TPlain s => length s <> 1 /\ length s <> 6 | _ => True end.
