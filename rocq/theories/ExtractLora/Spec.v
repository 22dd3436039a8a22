(** Vocabulary for C46 and C50. *)
From Coq Require Import Reals.
From Verif.Base Require Import LinAlg Py.
From Verif.ExtractLora Require Import Model.
Local Open Scope R_scope.

(** the contract of [torch.linalg.svd(m, full_matrices=False)] in exact arithmetic: m = u diag(s) vh, orthonormal
    columns of u and rows of vh, s non-negative and decreasing *)
Definition is_svd (m : mat) (usv : mat * (nat -> R) * mat) : Prop :=
  let '(u, s, vh) := usv in
  let k := Nat.min (rows m) (cols m) in
  rows u = rows m /\ cols u = k /\ rows vh = k /\ cols vh = cols m /\
  (forall i j, (i < rows m)%nat -> (j < cols m)%nat -> at_ m i j = Sum k (fun l => at_ u i l * s l * at_ vh l j)) /\
  orthonormal (rows m) k (fun l i => at_ u i l) /\
  orthonormal (cols m) k (fun l j => at_ vh l j) /\
  (forall l, (l < k)%nat -> 0 <= s l) /\
  (forall a b, (a <= b)%nat -> (b < k)%nat -> s b <= s a).

(** [p] is the truncation of m = u diag(s) vh to its [r] leading singular triples *)
Definition truncation (usv : mat * (nat -> R) * mat) (r : nat) (p m : mat) : Prop :=
  let '(u, s, vh) := usv in
  rows p = rows m /\ cols p = cols m /\
  forall i j, (i < rows m)%nat -> (j < cols m)%nat -> at_ p i j = Sum r (fun l => at_ u i l * s l * at_ vh l j).

(** squared Frobenius distance *)
Definition dist2 (a b : mat) : R := Sum (rows a) (fun i => Sum (cols a) (fun j => (at_ a i j - at_ b i j) * (at_ a i j - at_ b i j))).

(** what PEFT uses for a module: the pattern's entry for its name, otherwise the global value *)
Definition peft_rank (c : adapter_config) (module : string) : nat :=
  match dget (ac_rank_pattern c) module with Some r => r | None => ac_r c end.
Definition peft_alpha (c : adapter_config) (module : string) : nat :=
  match dget (ac_alpha_pattern c) module with Some r => r | None => ac_alpha c end.
