(** Vocabulary for C25-C28. *)
From Coq Require Import Reals Permutation List.
From Flocq Require Import Core.
From Verif.Base Require Import RList.
Import ListNotations.
Local Open Scope list_scope.
Local Open Scope R_scope.

(** [p] lists the positions of [w] from the largest value to the smallest, or
    the other way round; equal values may come in any order *)
Definition descending (w : list R) (p : list nat) : Prop :=
  Permutation p (seq 0 (length w)) /\
  forall i j, (i < j < length w)%nat -> nth (nth j p 0%nat) w 0 <= nth (nth i p 0%nat) w 0.
Definition ascending (w : list R) (p : list nat) : Prop :=
  Permutation p (seq 0 (length w)) /\
  forall i j, (i < j < length w)%nat -> nth (nth i p 0%nat) w 0 <= nth (nth j p 0%nat) w 0.

(** values representable in single and double precision *)
Definition is_float32 (x : R) : Prop := generic_format radix2 (FLT_exp (-149) 24) x.
Definition is_float64 (x : R) : Prop := generic_format radix2 (FLT_exp (-1074) 53) x.

(** [y] is [x] with the positions outside [keep] set to zero and the others multiplied by [s] *)
Definition selects (x : list R) (keep : list nat) (s : R) (y : list R) : Prop :=
  length y = length x /\ NoDup keep /\ (forall i, In i keep -> (i < length x)%nat) /\
  forall i, (i < length x)%nat ->
    (In i keep -> nth i y 0 = s * nth i x 0) /\ (~ In i keep -> nth i y 0 = 0).

(** expectation of [f] over independent draws with the given success probabilities *)
Fixpoint expect (ps : list R) (f : list bool -> R) : R :=
  match ps with
  | [] => f []
  | p :: ps => p * expect ps (fun l => f (true :: l)) + (1 - p) * expect ps (fun l => f (false :: l))
  end.
Definition kept (l : list bool) : R := INR (length (filter (fun b => b) l)).
