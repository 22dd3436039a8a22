(** Vocabulary for C21 and C22. *)
From Coq Require Import Permutation.
From Verif.Base Require Import Py.
From Verif.Lazy Require Import Model.
Local Open Scope string_scope.
Local Open Scope list_scope.

Section Spec.
Context {B : Type}.

(** bytes [off, off + len) of [l], as far as they exist *)
Definition slice (off len : nat) (l : list B) : list B := firstn len (skipn off l).

(** [d] is the data of storage [n] in the archive: torch names the top-level directory "archive" or like the file *)
Definition holds (a : archive B) (n : string) (d : list B) : Prop :=
  dget (a_members a) ("archive/data/" ++ n)%string = Some d \/
  (dget (a_members a) ("archive/data/" ++ n)%string = None /\ dget (a_members a) (a_name a ++ "/data/" ++ n)%string = Some d).

(** every request names a storage that exists *)
Definition valid (a : archive B) (history : list request) : Prop :=
  forall n off len, In (n, off, len) history -> exists d, holds a n d.

Definition prod (s : list nat) : nat := fold_right Nat.mul 1 s.
Definition in_range (idx shape : list nat) : Prop := Forall2 lt idx shape.
(** row-major strides *)
Fixpoint row_major (shape : list nat) : list nat := match shape with [] => [] | _ :: s => prod s :: row_major s end.
(** row-major up to the order of the dimensions: contiguous tensors and their transposes *)
Definition dense (shape stride : list nat) : Prop :=
  length shape = length stride /\
  exists l, Permutation (combine shape stride) l /\ map snd l = row_major (map fst l).
End Spec.
