(** Facts about the decomposition. *)
From Coq Require Import Reals Lra.
From Verif.Base Require Import LinAlg Py PyFacts.
From Verif.ExtractLora Require Import Model Spec.
Local Open Scope R_scope.

Lemma count_gt_le k s eps : (count_gt k s eps <= k)%nat.
Proof. induction k as [|k IH]; cbn; [lia|]. destruct (Rlt_dec eps (s k)); lia. Qed.

(** in decreasing values, those above the threshold come first *)
Lemma count_gt_spec s eps : forall k, (forall a b, (a <= b)%nat -> (b < k)%nat -> s b <= s a) ->
  forall l, (l < k)%nat -> eps < s l <-> (l < count_gt k s eps)%nat.
Proof.
  induction k as [|k IH]; intros Hm l Hl; [lia|]. cbn [count_gt]. destruct (Rlt_dec eps (s k)) as [Hk|Hk].
  - assert (Hall : forall a, (a <= k)%nat -> eps < s a).
    { intros a Ha. apply Rlt_le_trans with (s k); [exact Hk|]. apply Hm; lia. }
    assert (Hc : count_gt k s eps = k).
    { clear -Hall. induction k as [|k IH]; [reflexivity|]. cbn [count_gt]. destruct (Rlt_dec eps (s k)) as [|n]; [|destruct n; apply Hall; lia].
      rewrite IH; [lia|]. intros a Ha. apply Hall. lia. }
    rewrite Hc. split; [lia|]. intros _. apply Hall. lia.
  - rewrite Nat.add_0_r. pose proof (count_gt_le k s eps). destruct (Nat.eq_dec l k) as [->|Hne].
    + split; [contradiction|lia].
    + apply IH; [intros a b Hab Hb; apply Hm; lia|lia].
Qed.

Lemma rank_le svd t m : (rank_of svd t m <= Nat.min (rows m) (cols m))%nat.
Proof. unfold rank_of. destruct (svd m) as [[u s] vh]. destruct (Rlt_dec 0 (dt_eps t)); lia. Qed.

Lemma diag_mul (n : nat) s (f : nat -> R) i : (i < n)%nat -> Sum n (fun l => (if Nat.eqb i l then s i else 0) * f l) = s i * f i.
Proof.
  intros Hi. rewrite (Sum_single n i); [now rewrite Nat.eqb_refl|exact Hi|].
  intros l _ Hl. destruct (Nat.eqb_spec i l); [congruence|ring].
Qed.
Lemma mul_diag (n : nat) s (f : nat -> R) i : (i < n)%nat -> Sum n (fun l => f l * (if Nat.eqb l i then s l else 0)) = f i * s i.
Proof.
  intros Hi. rewrite (Sum_single n i); [now rewrite Nat.eqb_refl|exact Hi|].
  intros l _ Hl. destruct (Nat.eqb_spec l i); [congruence|ring].
Qed.

Lemma decompose_product svd t tv (m := if dt_transpose t then tr tv else tv) : is_svd m (svd m) ->
  let '(a, b) := decompose svd t tv in
  rows a = rank_of svd t m /\ cols a = cols m /\ rows b = rows m /\ cols b = rank_of svd t m /\
  truncation (svd m) (rank_of svd t m) (mmul b a) m.
Proof.
  intros Hs. unfold decompose. fold m. pose proof (rank_le svd t m) as Hr.
  set (r := rank_of svd t m) in *. clearbody r. destruct (svd m) as [[u s] vh].
  destruct Hs as (U1 & U2 & V1 & V2 & _ & _ & _ & Hp & _).
  assert (Hmin : Nat.min r (cols u) = r) by lia. assert (Hmin2 : Nat.min r (rows vh) = r) by lia.
  assert (Hk : forall l, (l < r)%nat -> (l < Nat.min (rows m) (cols m))%nat) by lia.
  destruct (dt_distribute t); cbn [mmul first_rows first_cols diag eye rows cols at_].
  - split; [reflexivity|]. split; [exact V2|]. split; [exact U1|]. split; [reflexivity|]. split; [exact U1|]. split; [exact V2|].
    intros i j Hi Hj. cbn [mmul first_rows first_cols diag eye rows cols at_]. rewrite Hmin. apply Sum_ext. intros l Hl.
    rewrite (mul_diag r (fun i => sqrt (s i)) (fun l0 => at_ u i l0) l Hl).
    rewrite (diag_mul r (fun i => sqrt (s i)) (fun l0 => at_ vh l0 j) l Hl).
    transitivity (at_ u i l * (sqrt (s l) * sqrt (s l)) * at_ vh l j); [ring|]. rewrite sqrt_sqrt by (apply Hp; auto). reflexivity.
  - split; [reflexivity|]. split; [exact V2|]. split; [exact U1|]. split; [reflexivity|]. split; [exact U1|]. split; [exact V2|].
    intros i j Hi Hj. cbn [mmul first_rows first_cols diag eye rows cols at_]. rewrite Hmin. apply Sum_ext. intros l Hl.
    rewrite (mul_diag r (fun _ => 1) (fun l0 => at_ u i l0) l Hl).
    rewrite (diag_mul r s (fun l0 => at_ vh l0 j) l Hl). ring.
Qed.

(** ** The error of the truncation *)
Section EY.
Variables (m u vh : mat) (s : nat -> R).
Hypothesis Hsvd : is_svd m (u, s, vh).
Let k := Nat.min (rows m) (cols m).

(** sum over the columns of a squared combination of the rows of vh *)
Lemma rows_norm (c : nat -> R) : Sum (cols m) (fun j => Sum k (fun l => c l * at_ vh l j) * Sum k (fun l => c l * at_ vh l j)) = Sum k (fun l => c l * c l).
Proof.
  destruct Hsvd as (_ & _ & _ & _ & _ & _ & Hv & _). exact (ip_ortho2 (cols m) k (fun l j => at_ vh l j) c c Hv).
Qed.

Lemma svd_norm (d : nat -> R) : (Sum (rows m) (fun i => Sum (cols m) (fun j =>
    Sum k (fun l => at_ u i l * d l * at_ vh l j) * Sum k (fun l => at_ u i l * d l * at_ vh l j)))) = Sum k (fun l => d l * d l).
Proof.
  destruct Hsvd as (_ & _ & _ & _ & _ & Hu & _ & _).
  transitivity (Sum (rows m) (fun i => Sum k (fun l => (d l * d l) * (at_ u i l * at_ u i l)))).
  - apply Sum_ext. intros i _. rewrite (rows_norm (fun l => at_ u i l * d l)). apply Sum_ext. intros. ring.
  - rewrite Sum_swap. apply Sum_ext. intros l Hl. rewrite Sum_scal.
    pose proof (Hu l l Hl Hl) as E. rewrite Nat.eqb_refl in E. unfold ip in E. rewrite E. ring.
Qed.

Lemma truncation_error r p : (r <= k)%nat -> truncation (u, s, vh) r p m -> dist2 m p = Sum (k - r) (fun i => s (r + i)%nat * s (r + i)%nat).
Proof.
  intros Hr (_ & _ & Hp). pose proof Hsvd as (_ & _ & _ & _ & Hm & _). fold k in Hm.
  pose (d := fun l => if (l <? r)%nat then 0 else s l).
  transitivity (Sum k (fun l => d l * d l)).
  - rewrite <- svd_norm. unfold dist2. apply Sum_ext. intros i Hi. apply Sum_ext. intros j Hj.
    assert (E : at_ m i j - at_ p i j = Sum k (fun l => at_ u i l * d l * at_ vh l j)).
    { rewrite Hm, Hp by assumption. rewrite (Sum_split k r) by exact Hr.
      rewrite (Sum_split k r (fun l => at_ u i l * d l * at_ vh l j)) by exact Hr.
      rewrite (Sum_0 r (fun l => at_ u i l * d l * at_ vh l j)).
      2: { intros l Hl. unfold d. destruct (Nat.ltb_spec l r); [ring|lia]. }
      rewrite (Sum_ext (k - r) (fun i0 => at_ u i (r + i0)%nat * d (r + i0)%nat * at_ vh (r + i0)%nat j)
        (fun i0 => at_ u i (r + i0)%nat * s (r + i0)%nat * at_ vh (r + i0)%nat j)).
      2: { intros l Hl. unfold d. destruct (Nat.ltb_spec (r + l) r); [lia|reflexivity]. }
      ring. }
    rewrite E. reflexivity.
  - rewrite (Sum_split k r) by exact Hr. rewrite (Sum_0 r (fun l => d l * d l)).
    2: { intros l Hl. unfold d. destruct (Nat.ltb_spec l r); [ring|lia]. }
    rewrite Rplus_0_l. apply Sum_ext. intros l Hl. unfold d. destruct (Nat.ltb_spec (r + l) r); [lia|reflexivity].
Qed.

(** no product of inner dimension [r] is closer (Eckart-Young) *)
Lemma any_error r (x y : mat) : (r <= k)%nat -> rows x = rows m -> cols x = r -> rows y = r -> cols y = cols m ->
  Sum (k - r) (fun i => s (r + i)%nat * s (r + i)%nat) <= dist2 m (mmul x y).
Proof.
  intros Hr X1 X2 Y1 Y2. destruct (gram_schmidt (rows m) r (fun a i => at_ x i a)) as (t & q & c & Ht & Hq & Hx).
  pose proof Hsvd as (_ & _ & _ & _ & Hm & Hu & Hv & Hs0 & Hmono). fold k in Hm, Hu, Hv, Hs0, Hmono.
  set (col := fun (j i : nat) => at_ m i j).
  set (z := fun j b => Sum r (fun a => c a b * at_ y a j)).
  assert (Hxy : forall i j, (i < rows m)%nat -> at_ (mmul x y) i j = Sum t (fun b => z j b * q b i)).
  { intros i j Hi. cbn [mmul at_]. rewrite X2. unfold z.
    transitivity (Sum r (fun a => Sum t (fun b => c a b * at_ y a j * q b i))).
    - apply Sum_ext. intros a Ha. rewrite (Hx a i Ha Hi). rewrite <- Sum_scal_r. apply Sum_ext. intros. ring.
    - rewrite Sum_swap. apply Sum_ext. intros b _. rewrite <- Sum_scal_r. reflexivity. }
  (* each column *)
  assert (H1 : Sum (cols m) (fun j => ip (rows m) (col j) (col j) - Sum t (fun b => ip (rows m) (col j) (q b) * ip (rows m) (col j) (q b)))
               <= dist2 m (mmul x y)).
  { unfold dist2. rewrite Sum_swap. apply Sum_le. intros j Hj.
    replace (Sum (rows m) _) with (ip (rows m) (fun i => col j i - Sum t (fun b => z j b * q b i)) (fun i => col j i - Sum t (fun b => z j b * q b i))).
    2: { apply Sum_ext. intros i Hi. rewrite Hxy by exact Hi. reflexivity. }
    rewrite dist_ortho by exact Hq.
    assert (0 <= Sum t (fun b => (z j b - ip (rows m) (col j) (q b)) * (z j b - ip (rows m) (col j) (q b)))).
    { apply Sum_nonneg. intros b _. apply Rle_0_sqr. }
    lra. }
  eapply Rle_trans; [|exact H1]. rewrite Sum_minus.
  assert (E1 : Sum (cols m) (fun j => ip (rows m) (col j) (col j)) = Sum k (fun l => s l * s l)).
  { rewrite <- svd_norm. unfold ip. rewrite Sum_swap. apply Sum_ext. intros i Hi. apply Sum_ext. intros j Hj.
    unfold col. rewrite (Hm i j Hi Hj). reflexivity. }
  (* the projections, in terms of the overlaps of q with u *)
  set (g := fun b l => ip (rows m) (q b) (fun i => at_ u i l)).
  assert (E2 : Sum (cols m) (fun j => Sum t (fun b => ip (rows m) (col j) (q b) * ip (rows m) (col j) (q b)))
               = Sum k (fun l => (s l * s l) * Sum t (fun b => g b l * g b l))).
  { rewrite Sum_swap. transitivity (Sum t (fun b => Sum k (fun l => (s l * s l) * (g b l * g b l)))).
    - apply Sum_ext. intros b _.
      assert (Ec : forall j, (j < cols m)%nat -> ip (rows m) (col j) (q b) = Sum k (fun l => (s l * g b l) * at_ vh l j)).
      { intros j Hj. transitivity (ip (rows m) (fun i => Sum k (fun l => (s l * at_ vh l j) * at_ u i l)) (q b)).
        - apply ip_ext; [|reflexivity]. intros i Hi. unfold col. rewrite (Hm i j Hi Hj). apply Sum_ext. intros. ring.
        - rewrite (ip_comb_l (rows m) k (fun l => s l * at_ vh l j) (fun l i => at_ u i l)). apply Sum_ext. intros l _.
          rewrite (ip_comm (rows m) (fun i => at_ u i l)). fold (g b l). ring. }
      rewrite (Sum_ext (cols m) _ (fun j => Sum k (fun l => (s l * g b l) * at_ vh l j) * Sum k (fun l => (s l * g b l) * at_ vh l j))).
      2: { intros j Hj. now rewrite Ec. }
      rewrite rows_norm. apply Sum_ext. intros. ring.
    - rewrite Sum_swap. apply Sum_ext. intros l _. now rewrite Sum_scal. }
  rewrite E1, E2.
  assert (H2 : Sum k (fun l => (s l * s l) * Sum t (fun b => g b l * g b l)) <= Sum r (fun l => s l * s l)).
  { apply (top_weights k r (fun l => s l * s l)); [exact Hr| | | |].
    - intros. apply Rle_0_sqr.
    - intros a b Hab Hb. apply Rmult_le_compat; auto.
    - intros l Hl. split; [apply Sum_nonneg; intros; apply Rle_0_sqr|].
      replace 1 with (ip (rows m) (fun i => at_ u i l) (fun i => at_ u i l)).
      2: { pose proof (Hu l l Hl Hl) as E. cbv beta in E. now rewrite E, Nat.eqb_refl. }
      rewrite (Sum_ext t _ (fun b => ip (rows m) (fun i => at_ u i l) (q b) * ip (rows m) (fun i => at_ u i l) (q b))).
      2: { intros b _. unfold g. now rewrite (ip_comm (rows m) (q b)). }
      now apply bessel.
    - rewrite Sum_swap. apply Rle_trans with (Sum t (fun _ => 1)).
      + apply Sum_le. intros b Hb. replace 1 with (ip (rows m) (q b) (q b)) by (rewrite (Hq b b Hb Hb), Nat.eqb_refl; reflexivity).
        exact (bessel (rows m) k (fun l i => at_ u i l) (q b) Hu).
      + rewrite Sum_const, Rmult_1_r. now apply le_INR. }
  rewrite (Sum_split k r (fun l => s l * s l)) by exact Hr. lra.
Qed.
End EY.
