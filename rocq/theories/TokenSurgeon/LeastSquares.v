(** What [torch.linalg.lstsq] is assumed to do, and a function that does it. *)
From Coq Require Import Reals Lra Lia.
From Verif.Base Require Import LinAlg RList Py.
From Verif.TokenSurgeon Require Import Approx OmpProofs.
Local Open Scope list_scope.
Local Open Scope R_scope.

(** [b] minus the combination of k columns *)
Definition left_over (k : nat) (a : nat -> row) (c : nat -> R) (b : row) : row := fun i => b i - Sum k (fun j => c j * a j i).
(** [torch.linalg.lstsq]: for columns [a 0 .. a (k-1)] of height D, coefficients of smallest error *)
Definition is_lstsq (lstsq : nat -> nat -> (nat -> row) -> row -> (nat -> R)) : Prop :=
  forall D k a b d, nrm D (left_over k a (lstsq D k a b) b) <= nrm D (left_over k a d b).

Lemma nrm_le_sq D x y : nrm D x <= nrm D y <-> ip D x x <= ip D y y.
Proof.
  unfold nrm. split; intros H.
  - apply sqrt_le_0; [apply ip_nonneg..|exact H].
  - now apply sqrt_le_1_alt.
Qed.
Lemma ip_plus_l n x y z : ip n (fun i => x i + y i) z = ip n x z + ip n y z.
Proof. unfold ip. rewrite <- Sum_plus. apply Sum_ext. intros. ring. Qed.
Lemma ip_scal_r n c x z : ip n z (fun i => c * x i) = c * ip n z x.
Proof. rewrite ip_comm, ip_scal_l, ip_comm. reflexivity. Qed.

(** a left-over orthogonal to every column is the smallest; any other one is longer by the difference *)
Lemma pythagoras D k a b c d : (forall j, (j < k)%nat -> ip D (left_over k a c b) (a j) = 0) ->
  ip D (left_over k a d b) (left_over k a d b) =
  ip D (left_over k a c b) (left_over k a c b) + ip D (fun i => Sum k (fun j => (c j - d j) * a j i)) (fun i => Sum k (fun j => (c j - d j) * a j i)).
Proof.
  intros H. set (r := left_over k a c b). set (s := fun i => Sum k (fun j => (c j - d j) * a j i)).
  assert (E : forall i, left_over k a d b i = r i + s i).
  { intros i. unfold r, s, left_over. rewrite (Sum_ext k (fun j => (c j - d j) * a j i) (fun j => c j * a j i - d j * a j i)) by (intros; ring). rewrite Sum_minus. ring. }
  rewrite (ip_ext D _ _ (fun i => r i + s i) (fun i => r i + s i)) by auto.
  assert (Z : ip D r s = 0) by (unfold s; rewrite ip_comb_r; apply Sum_0; intros j Hj; unfold r; rewrite H by exact Hj; ring).
  rewrite ip_plus_l, (ip_comm D r), ip_plus_l, (ip_comm D s (fun i => r i + s i)), ip_plus_l. rewrite (ip_comm D s r), Z. ring.
Qed.
Lemma normal_least D k a b c d : (forall j, (j < k)%nat -> ip D (left_over k a c b) (a j) = 0) ->
  nrm D (left_over k a c b) <= nrm D (left_over k a d b).
Proof. intros H. apply nrm_le_sq. rewrite (pythagoras D k a b c d H). pose proof (ip_nonneg D (fun i => Sum k (fun j => (c j - d j) * a j i))). lra. Qed.

(** Gram-Schmidt on the coefficients *)
Fixpoint lsq (D k : nat) (a : nat -> row) (b : row) : nat -> R :=
  match k with
  | O => fun _ => 0
  | S k =>
      let d := lsq D k a (a k) in
      let v := left_over k a d (a k) in
      if Req_EM_T (ip D v v) 0 then fun j => if Nat.eqb j k then 0 else lsq D k a b j
      else let c := ip D b v / ip D v v in
           let d' := lsq D k a (fun i => b i - c * a k i) in
           fun j => if Nat.eqb j k then c else d' j
  end.
Lemma last_coeff k (f : nat -> R) c a b i : left_over (S k) a (fun j => if Nat.eqb j k then c else f j) b i = left_over k a f (fun i => b i - c * a k i) i.
Proof.
  unfold left_over. cbn [Sum]. rewrite Nat.eqb_refl.
  rewrite (Sum_ext k _ (fun j => f j * a j i)); [ring|]. intros j Hj. destruct (Nat.eqb_spec j k); [lia|reflexivity].
Qed.
Lemma lsq_normal D a : forall k b j, (j < k)%nat -> ip D (left_over k a (lsq D k a b) b) (a j) = 0.
Proof.
  induction k as [|k IH]; intros b j Hj; [lia|]. cbn [lsq]. cbv zeta.
  set (v := left_over k a (lsq D k a (a k)) (a k)). assert (Hv : forall j, (j < k)%nat -> ip D v (a j) = 0) by (intros; now apply IH).
  assert (Ek : forall r : row, (forall j, (j < k)%nat -> ip D r (a j) = 0) -> ip D r (a k) = ip D r v).
  { intros r Hr. unfold v, left_over. rewrite ip_minus_r, ip_comb_r, (Sum_0 k); [ring|]. intros l Hl. rewrite Hr by exact Hl. ring. }
  destruct (Req_EM_T (ip D v v) 0) as [Z|Z].
  - rewrite (ip_ext D _ (a j) (left_over k a (lsq D k a b) (fun i => b i - 0 * a k i)) (a j)) by (auto; intros; apply last_coeff).
    rewrite (ip_ext D _ (a j) (left_over k a (lsq D k a b) b) (a j)) by (auto; intros; unfold left_over; ring).
    destruct (Nat.eq_dec j k) as [->|]; [|apply IH; lia]. rewrite Ek by (intros; now apply IH).
    unfold ip at 1. apply Sum_0. intros i Hi. rewrite (ip_zero D v Z i Hi). ring.
  - rewrite (ip_ext D _ (a j) (left_over k a (lsq D k a (fun i => b i - ip D b v / ip D v v * a k i)) (fun i => b i - ip D b v / ip D v v * a k i)) (a j)) by (auto; intros; apply last_coeff).
    destruct (Nat.eq_dec j k) as [->|]; [|apply IH; lia]. rewrite Ek by (intros; now apply IH).
    unfold left_over at 1. rewrite ip_minus_l, ip_comb_l, (Sum_0 k); [|intros l Hl; rewrite (ip_comm D (a l)), Hv by exact Hl; ring].
    rewrite ip_minus_l, ip_scal_l, (ip_comm D (a k)), (Ek v Hv). field. exact Z.
Qed.
Lemma lsq_is_lstsq : is_lstsq lsq.
Proof. intros D k a b d. apply normal_least. intros. now apply lsq_normal. Qed.

(** whatever [lstsq] returns, its left-over is that of [lsq] *)
Lemma lstsq_left lstsq : is_lstsq lstsq -> forall D k a b i, (i < D)%nat -> left_over k a (lstsq D k a b) b i = left_over k a (lsq D k a b) b i.
Proof.
  intros H D k a b i Hi. set (c := lsq D k a b). set (d := lstsq D k a b).
  pose proof (H D k a b c) as Hd. apply nrm_le_sq in Hd. fold d in Hd.
  rewrite (pythagoras D k a b c d) in Hd by (intros; now apply lsq_normal).
  set (s := fun i => Sum k (fun j => (c j - d j) * a j i)) in *. pose proof (ip_nonneg D s). assert (Z : ip D s s = 0) by lra.
  pose proof (ip_zero D s Z i Hi) as E. unfold s in E. cbv beta in E. unfold left_over.
  rewrite (Sum_ext k (fun j => (c j - d j) * a j i) (fun j => c j * a j i - d j * a j i)) in E by (intros; ring). rewrite Sum_minus in E. lra.
Qed.
Lemma lstsq_normal lstsq : is_lstsq lstsq -> forall D k a b j, (j < k)%nat -> ip D (left_over k a (lstsq D k a b) b) (a j) = 0.
Proof.
  intros H D k a b j Hj. rewrite (ip_ext D _ (a j) (left_over k a (lsq D k a b) b) (a j)) by (auto; intros; now apply lstsq_left). now apply lsq_normal.
Qed.
(** a system with a solution is solved *)
Lemma lstsq_solves lstsq : is_lstsq lstsq -> forall D k a b d, (forall i, (i < D)%nat -> b i = Sum k (fun j => d j * a j i)) ->
  forall i, (i < D)%nat -> Sum k (fun j => lstsq D k a b j * a j i) = b i.
Proof.
  intros H D k a b d Hd i Hi. pose proof (H D k a b d) as E. apply nrm_le_sq in E.
  rewrite (ip_ext D (left_over k a d b) (left_over k a d b) (fun _ => 0) (fun _ => 0)) in E by (intros x Hx; unfold left_over; rewrite Hd by exact Hx; ring).
  replace (ip D (fun _ => 0) (fun _ => 0)) with 0 in E by (symmetry; apply Sum_0; intros; ring).
  pose proof (ip_nonneg D (left_over k a (lstsq D k a b) b)). assert (Z : ip D (left_over k a (lstsq D k a b) b) (left_over k a (lstsq D k a b) b) = 0) by lra.
  pose proof (ip_zero D _ Z i Hi) as E2. unfold left_over in E2. lra.
Qed.
