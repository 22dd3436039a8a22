(** Finite sums and vectors given by their entries. A vector of length [n] is a function read below [n]. *)
From Coq Require Import Reals Lra Lia Arith List.
Local Open Scope R_scope.

(** [f 0 + ... + f (n-1)] *)
Fixpoint Sum (n : nat) (f : nat -> R) : R := match n with O => 0 | S n => Sum n f + f n end.

Definition ip (n : nat) (x y : nat -> R) : R := Sum n (fun i => x i * y i).
Definition orthonormal (n k : nat) (q : nat -> nat -> R) : Prop :=
  forall a b, (a < k)%nat -> (b < k)%nat -> ip n (q a) (q b) = if Nat.eqb a b then 1 else 0.

Lemma Sum_ext n f g : (forall i, (i < n)%nat -> f i = g i) -> Sum n f = Sum n g.
Proof. induction n as [|n IH]; intros H; cbn; [reflexivity|]. rewrite IH, (H n); auto. Qed.
Lemma Sum_plus n f g : Sum n (fun i => f i + g i) = Sum n f + Sum n g.
Proof. induction n as [|n IH]; cbn; [lra|]. rewrite IH. lra. Qed.
Lemma Sum_minus n f g : Sum n (fun i => f i - g i) = Sum n f - Sum n g.
Proof. induction n as [|n IH]; cbn; [lra|]. rewrite IH. lra. Qed.
Lemma Sum_scal n c f : Sum n (fun i => c * f i) = c * Sum n f.
Proof. induction n as [|n IH]; cbn; [lra|]. rewrite IH. lra. Qed.
Lemma Sum_scal_r n c f : Sum n (fun i => f i * c) = Sum n f * c.
Proof. induction n as [|n IH]; cbn; [lra|]. rewrite IH. lra. Qed.
Lemma Sum_0 n f : (forall i, (i < n)%nat -> f i = 0) -> Sum n f = 0.
Proof. induction n as [|n IH]; intros H; cbn; [reflexivity|]. rewrite IH, (H n); auto; lra. Qed.
Lemma Sum_le n f g : (forall i, (i < n)%nat -> f i <= g i) -> Sum n f <= Sum n g.
Proof.
  induction n as [|n IH]; intros H; cbn; [lra|]. assert (Sum n f <= Sum n g) by auto.
  assert (f n <= g n) by auto. lra.
Qed.
Lemma Sum_nonneg n f : (forall i, (i < n)%nat -> 0 <= f i) -> 0 <= Sum n f.
Proof. intros H. rewrite <- (Sum_0 n (fun _ => 0)) by reflexivity. apply Sum_le. exact H. Qed.
Lemma Sum_const n c : Sum n (fun _ => c) = INR n * c.
Proof. induction n as [|n IH]; [cbn; lra|]. cbn [Sum]. rewrite IH, S_INR. lra. Qed.
Lemma Sum_swap n m f : Sum n (fun i => Sum m (f i)) = Sum m (fun j => Sum n (fun i => f i j)).
Proof.
  induction n as [|n IH]; cbn.
  - symmetry. now apply Sum_0.
  - rewrite IH, <- Sum_plus. now apply Sum_ext.
Qed.
Lemma Sum_split n m f : (m <= n)%nat -> Sum n f = Sum m f + Sum (n - m) (fun i => f (m + i)%nat).
Proof.
  intros H. replace n with (m + (n - m))%nat at 1 by lia. generalize (n - m)%nat. intros k. induction k as [|k IH].
  - rewrite Nat.add_0_r. cbn. lra.
  - rewrite Nat.add_succ_r. cbn [Sum]. rewrite IH. lra.
Qed.
(** a sum with one non-zero term *)
Lemma Sum_single n k f : (k < n)%nat -> (forall i, (i < n)%nat -> i <> k -> f i = 0) -> Sum n f = f k.
Proof.
  induction n as [|n IH]; intros Hk H; [lia|]. cbn [Sum]. destruct (Nat.eq_dec k n) as [->|Hn].
  - rewrite Sum_0; [lra|]. intros i Hi. apply H; lia.
  - rewrite IH by (try lia; intros; apply H; lia). rewrite (H n) by lia. lra.
Qed.
Lemma Sum_zero_inv n f : (forall i, (i < n)%nat -> 0 <= f i) -> Sum n f = 0 -> forall i, (i < n)%nat -> f i = 0.
Proof.
  induction n as [|n IH]; intros H E i Hi; [lia|]. cbn in E.
  assert (0 <= Sum n f) by (apply Sum_nonneg; auto). assert (0 <= f n) by auto.
  destruct (Nat.eq_dec i n) as [->|]; [lra|]. apply IH; auto; [lra|lia].
Qed.

Lemma ip_comm n x y : ip n x y = ip n y x.
Proof. apply Sum_ext. intros. ring. Qed.
Lemma ip_ext n x y x' y' : (forall i, (i < n)%nat -> x i = x' i) -> (forall i, (i < n)%nat -> y i = y' i) -> ip n x y = ip n x' y'.
Proof. intros H1 H2. apply Sum_ext. intros i Hi. now rewrite H1, H2. Qed.
Lemma ip_nonneg n x : 0 <= ip n x x.
Proof. apply Sum_nonneg. intros i _. apply Rle_0_sqr. Qed.
Lemma ip_zero n x : ip n x x = 0 -> forall i, (i < n)%nat -> x i = 0.
Proof.
  intros E i Hi. assert (x i * x i = 0). { apply (Sum_zero_inv n (fun i => x i * x i)); auto. intros j _. apply Rle_0_sqr. }
  now apply Rsqr_0_uniq.
Qed.
Lemma ip_minus_l n x y z : ip n (fun i => x i - y i) z = ip n x z - ip n y z.
Proof. unfold ip. rewrite <- Sum_minus. apply Sum_ext. intros. ring. Qed.
Lemma ip_minus_r n x y z : ip n z (fun i => x i - y i) = ip n z x - ip n z y.
Proof. rewrite ip_comm, ip_minus_l, !(ip_comm n z). reflexivity. Qed.
Lemma ip_scal_l n c x z : ip n (fun i => c * x i) z = c * ip n x z.
Proof. unfold ip. rewrite <- Sum_scal. apply Sum_ext. intros. ring. Qed.
Lemma ip_comb_l n k c q z : ip n (fun i => Sum k (fun b => c b * q b i)) z = Sum k (fun b => c b * ip n (q b) z).
Proof.
  unfold ip. transitivity (Sum n (fun i => Sum k (fun b => c b * (q b i * z i)))).
  - apply Sum_ext. intros i _. rewrite <- Sum_scal_r. apply Sum_ext. intros. ring.
  - rewrite Sum_swap. apply Sum_ext. intros b _. now rewrite Sum_scal.
Qed.
Lemma ip_comb_r n k c q z : ip n z (fun i => Sum k (fun b => c b * q b i)) = Sum k (fun b => c b * ip n z (q b)).
Proof. rewrite ip_comm, ip_comb_l. apply Sum_ext. intros. now rewrite ip_comm. Qed.

(** coordinates in an orthonormal family *)
Lemma ip_ortho n k q c a : orthonormal n k q -> (a < k)%nat ->
  ip n (fun i => Sum k (fun b => c b * q b i)) (q a) = c a.
Proof.
  intros Hq Ha. rewrite ip_comb_l. rewrite (Sum_single k a); [|exact Ha|].
  - rewrite (Hq a a Ha Ha), Nat.eqb_refl. ring.
  - intros b Hb Hne. rewrite (Hq b a Hb Ha). destruct (Nat.eqb_spec b a); [congruence|ring].
Qed.
Lemma ip_ortho2 n k q c d : orthonormal n k q ->
  ip n (fun i => Sum k (fun b => c b * q b i)) (fun i => Sum k (fun b => d b * q b i)) = Sum k (fun b => c b * d b).
Proof.
  intros Hq. rewrite ip_comb_r. apply Sum_ext. intros b Hb. rewrite ip_ortho by assumption. ring.
Qed.

(** the distance from [x] to a combination of an orthonormal family *)
Lemma dist_ortho n k q x z : orthonormal n k q ->
  ip n (fun i => x i - Sum k (fun b => z b * q b i)) (fun i => x i - Sum k (fun b => z b * q b i)) =
  ip n x x - Sum k (fun b => ip n x (q b) * ip n x (q b)) + Sum k (fun b => (z b - ip n x (q b)) * (z b - ip n x (q b))).
Proof.
  intros Hq. rewrite ip_minus_l, !ip_minus_r, ip_ortho2 by exact Hq. rewrite ip_comb_r, ip_comb_l.
  replace (Sum k (fun b => z b * ip n (q b) x)) with (Sum k (fun b => z b * ip n x (q b))) by (apply Sum_ext; intros; now rewrite (ip_comm n x)).
  replace (Sum k (fun b => (z b - ip n x (q b)) * (z b - ip n x (q b)))) with
    (Sum k (fun b => z b * z b) - 2 * Sum k (fun b => z b * ip n x (q b)) + Sum k (fun b => ip n x (q b) * ip n x (q b))).
  - lra.
  - rewrite <- Sum_scal, <- Sum_minus, <- Sum_plus. apply Sum_ext. intros. ring.
Qed.
Lemma bessel n k q x : orthonormal n k q -> Sum k (fun b => ip n x (q b) * ip n x (q b)) <= ip n x x.
Proof.
  intros Hq. pose proof (dist_ortho n k q x (fun b => ip n x (q b)) Hq) as E. cbv beta in E.
  rewrite (Sum_0 k (fun b => (ip n x (q b) - ip n x (q b)) * (ip n x (q b) - ip n x (q b)))) in E by (intros; ring).
  pose proof (ip_nonneg n (fun i => x i - Sum k (fun b => ip n x (q b) * q b i))). lra.
Qed.

(** Gram-Schmidt: every family of [r] vectors is spanned by an orthonormal family of at most [r] vectors *)
Lemma gram_schmidt n r (x : nat -> nat -> R) :
  exists t q c, (t <= r)%nat /\ orthonormal n t q /\
    forall a i, (a < r)%nat -> (i < n)%nat -> x a i = Sum t (fun b => c a b * q b i).
Proof.
  induction r as [|r IH].
  - exists O, (fun _ _ => 0), (fun _ _ => 0). split; [lia|]. split; [intros a b Ha; lia|]. intros; lia.
  - destruct IH as (t & q & c & Ht & Hq & Hx). set (w := fun i => x r i - Sum t (fun b => ip n (x r) (q b) * q b i)).
    assert (Hw : forall b, (b < t)%nat -> ip n w (q b) = 0).
    { intros b Hb. unfold w. rewrite ip_minus_l, (ip_ortho n t q _ b Hq Hb). ring. }
    destruct (Req_dec (ip n w w) 0) as [E|E].
    + exists t, q, (fun a b => if Nat.eqb a r then ip n (x r) (q b) else c a b). split; [lia|]. split; [exact Hq|].
      intros a i Ha Hi. destruct (Nat.eqb_spec a r) as [->|Hne]; [|apply Hx; lia].
      pose proof (ip_zero n w E i Hi) as E'. unfold w in E'. lra.
    + assert (Hpos : 0 < ip n w w) by (pose proof (ip_nonneg n w); lra).
      set (l := sqrt (ip n w w)). assert (Hl : 0 < l) by now apply sqrt_lt_R0.
      assert (Hll : l * l = ip n w w) by (apply sqrt_sqrt; lra).
      set (q' := fun b i => if Nat.eqb b t then w i / l else q b i).
      assert (Q1 : forall b i, (b < t)%nat -> q' b i = q b i).
      { intros b i Hb. unfold q'. destruct (Nat.eqb_spec b t); [lia|reflexivity]. }
      assert (Q2 : forall i, q' t i = / l * w i).
      { intros i. unfold q'. rewrite Nat.eqb_refl. unfold Rdiv. ring. }
      assert (P1 : forall b, (b < t)%nat -> ip n (q' t) (q' b) = 0).
      { intros b Hb. rewrite (ip_ext n _ _ (fun i => / l * w i) (q b)) by auto. rewrite ip_scal_l, Hw by exact Hb. ring. }
      exists (S t), q', (fun a b => if Nat.eqb a r then (if Nat.eqb b t then l else ip n (x r) (q b))
                                     else (if Nat.eqb b t then 0 else c a b)).
      split; [lia|]. split.
      * intros a b Ha Hb. destruct (Nat.eq_dec a t) as [->|Hat]; destruct (Nat.eq_dec b t) as [->|Hbt].
        -- rewrite Nat.eqb_refl, (ip_ext n _ _ (fun i => / l * w i) (fun i => / l * w i)) by auto.
           rewrite ip_scal_l, ip_comm, ip_scal_l, <- Hll. field. lra.
        -- rewrite P1 by lia. destruct (Nat.eqb_spec t b); [lia|reflexivity].
        -- rewrite ip_comm, P1 by lia. destruct (Nat.eqb_spec a t); [lia|reflexivity].
        -- rewrite (ip_ext n _ _ (q a) (q b)) by (intros; apply Q1; lia). apply Hq; lia.
      * intros a i Ha Hi. cbn [Sum]. rewrite Q2, Nat.eqb_refl. destruct (Nat.eqb_spec a r) as [->|Hne].
        -- rewrite (Sum_ext t _ (fun b => ip n (x r) (q b) * q b i)).
           ++ unfold w. field. lra.
           ++ intros b Hb. destruct (Nat.eqb_spec b t); [lia|]. now rewrite Q1.
        -- rewrite (Sum_ext t _ (fun b => c a b * q b i)).
           ++ rewrite <- Hx by lia. ring.
           ++ intros b Hb. destruct (Nat.eqb_spec b t); [lia|]. now rewrite Q1.
Qed.

(** a weighted sum of decreasing values, weights in [0,1] adding up to at most [r], is at most the sum of the first [r] *)
Lemma top_weights k r (v w : nat -> R) : (r <= k)%nat ->
  (forall l, (l < k)%nat -> 0 <= v l) -> (forall a b, (a <= b)%nat -> (b < k)%nat -> v b <= v a) ->
  (forall l, (l < k)%nat -> 0 <= w l <= 1) -> Sum k w <= INR r ->
  Sum k (fun l => v l * w l) <= Sum r v.
Proof.
  intros Hr Hv Hmono Hw Hs. destruct (Nat.eq_dec r k) as [->|Hne].
  - apply Sum_le. intros l Hl. pose proof (Hv l Hl). pose proof (Hw l Hl). nra.
  - set (p := v r). rewrite (Sum_split k r) by exact Hr. rewrite (Sum_split k r) in Hs by exact Hr.
    assert (H1 : Sum r (fun l => v l * w l) <= Sum r (fun l => v l + p * (w l - 1))).
    { apply Sum_le. intros l Hl. pose proof (Hw l ltac:(lia)). assert (p <= v l) by (apply Hmono; lia). nra. }
    assert (H2 : Sum (k - r) (fun i => v (r + i)%nat * w (r + i)%nat) <= Sum (k - r) (fun i => p * w (r + i)%nat)).
    { apply Sum_le. intros i Hi. pose proof (Hw (r + i)%nat ltac:(lia)). assert (v (r + i)%nat <= p) by (apply Hmono; lia). nra. }
    rewrite Sum_plus, Sum_scal, Sum_minus, Sum_const in H1. rewrite Sum_scal in H2.
    assert (0 <= p) by (apply Hv; lia). nra.
Qed.
