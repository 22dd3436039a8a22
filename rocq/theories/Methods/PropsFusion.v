(** C58: Arcee Fusion takes each value from one of its two models. *)
From Coq Require Import Reals Lra Lia Psatz Permutation.
From Verif.Base Require Import LinAlg Py PyFacts RList.
From Verif.Methods Require Import Model LinearProofs PropsStock PropsLinear More PropsRam.
Local Open Scope string_scope.
Local Open Scope list_scope.
Local Open Scope R_scope.

(** ** Specification *)
(** softmax over a row of [c] entries, with 1e-8 added *)
Definition prob (c k : nat) (l : list R) (j : nat) : R :=
  exp (nth (k * c + j) l 0) / Sum c (fun j => exp (nth (k * c + j) l 0)) + / 10 ^ 8.
(** relative entropy of row [k] *)
Definition divergence (c k : nat) (other base : list R) : R :=
  Sum c (fun j => prob c k other j * ln (prob c k other j / prob c k base j)).
Definition score (c : nat) (base other : list R) (i : nat) : R :=
  Rabs (nth i other 0 - nth i base 0) * divergence c (i / c) other base.
(** the value of rank [k] (from 0) among [l] *)
Definition ranked (l : list R) (k : nat) (v : R) : Prop :=
  In v l /\ (length (filter (fun x => if Rlt_dec x v then true else false) l) <= k < length (filter (fun x => if Rle_dec x v then true else false) l))%nat.
(** the scores of all positions *)
Definition scores (c : nat) (base other : list R) : list R := map (score c base other) (seq 0 (length base)).

(** ** Sorting and ranks *)
Lemma insert_perm x l : Permutation (insert x l) (x :: l).
Proof. induction l as [|y l IH]; cbn; [reflexivity|]. destruct (Rle_dec x y); [reflexivity|]. rewrite IH. apply perm_swap. Qed.
Lemma sort_perm l : Permutation (sort l) l.
Proof. induction l as [|x l IH]; cbn; [reflexivity|]. rewrite insert_perm. now constructor. Qed.
Inductive sorted : list R -> Prop := sorted_nil : sorted [] | sorted_cons x l : (forall y, In y l -> x <= y) -> sorted l -> sorted (x :: l).
Lemma insert_sorted x l : sorted l -> sorted (insert x l).
Proof.
  induction 1 as [|y l Hy Hs IH]; cbn; [constructor; [intros ? []|constructor]|]. destruct (Rle_dec x y).
  - constructor; [|now constructor]. intros z [<-|Hz]; [assumption|]. specialize (Hy z Hz). lra.
  - constructor; [|exact IH]. intros z Hz. apply (Permutation_in z (insert_perm x l)) in Hz as [<-|Hz]; [lra|auto].
Qed.
Lemma sort_sorted l : sorted (sort l).
Proof. induction l; cbn; [constructor|]. now apply insert_sorted. Qed.
Lemma sorted_split l : sorted l -> forall k v, nth_error l k = Some v -> (forall x, In x (firstn k l) -> x <= v) /\ (forall x, In x (skipn k l) -> v <= x).
Proof.
  induction 1 as [|y l Hy Hs IH]; intros [|k] v E; try discriminate; cbn in *.
  - split; [intros ? []|]. assert (y = v) by congruence. subst. intros x [<-|Hx]; [lra|auto].
  - destruct (IH k v E) as [H1 H2]. split; [|exact H2]. intros x [<-|Hx]; [|auto]. apply Hy. eapply nth_error_In. exact E.
Qed.
Lemma filter_none {A} (p : A -> bool) l : (forall x, In x l -> p x = false) -> filter p l = [].
Proof. induction l as [|x l IH]; intros H; [reflexivity|]. cbn. rewrite (H x) by now left. apply IH. intros; apply H; now right. Qed.
Lemma filter_all' {A} (p : A -> bool) l : (forall x, In x l -> p x = true) -> filter p l = l.
Proof. induction l as [|x l IH]; intros H; [reflexivity|]. cbn. rewrite (H x) by now left. f_equal. apply IH. intros; apply H; now right. Qed.
Lemma filter_le {A} (p : A -> bool) l : (length (filter p l) <= length l)%nat.
Proof. induction l as [|x l IH]; cbn; [lia|]. destruct (p x); cbn; lia. Qed.
Lemma filter_perm_len {A} (p : A -> bool) l m : Permutation l m -> length (filter p l) = length (filter p m).
Proof. induction 1; cbn; auto; [destruct (p x); cbn; auto|destruct (p x), (p y); cbn; auto|congruence]. Qed.
Lemma sort_ranked l k v : nth_error (sort l) k = Some v -> ranked l k v.
Proof.
  intros E. destruct (sorted_split _ (sort_sorted l) k v E) as [H1 H2]. unfold ranked.
  pose proof (nth_error_In _ _ E) as Hin. split; [apply (Permutation_in v (sort_perm l) Hin)|].
  rewrite <- !(filter_perm_len _ _ _ (sort_perm l)). assert (Hk : (k < length (sort l))%nat) by (apply nth_error_Some; congruence).
  split.
  - rewrite <- (firstn_skipn k (sort l)), filter_app, app_length. rewrite (filter_none _ (skipn k (sort l))).
    + cbn [length]. rewrite Nat.add_0_r. etransitivity; [apply filter_le|]. rewrite firstn_length. lia.
    + intros x Hx. specialize (H2 x Hx). destruct (Rlt_dec x v); [lra|reflexivity].
  - rewrite <- (firstn_skipn k (sort l)), filter_app, app_length. rewrite (filter_all' _ (firstn k (sort l))).
    + rewrite firstn_length, Nat.min_l by lia. apply nth_error_split in E as (l1 & l2 & El & Ll). rewrite El. rewrite skipn_app, <- Ll, skipn_all, Nat.sub_diag. cbn [skipn app filter].
      destruct (Rle_dec v v); [cbn [length]; lia|lra].
    + intros x Hx. specialize (H1 x Hx). destruct (Rle_dec x v); [reflexivity|lra].
Qed.
Lemma nthE_some {A} (l : list A) k v : nthE l k = Ok v -> nth_error l k = Some v.
Proof. unfold nthE. destruct (nth_error l k); congruence. Qed.

(** ** Scores *)
Lemma rsum_nth l : rsum l = Sum (length l) (fun i => nth i l 0).
Proof.
  induction l as [|x l IH] using rev_ind; [reflexivity|]. rewrite rsum_app, app_length. cbn [length]. rewrite Nat.add_1_r. cbn [Sum].
  rewrite app_nth2, Nat.sub_diag by lia. cbn [nth]. rewrite IH. rewrite (Sum_ext _ (fun i => nth i (l ++ [x]) 0) (fun i => nth i l 0)) by (intros; now rewrite app_nth1). cbn. lra.
Qed.
Lemma softmax_nth c k l j : (j < c)%nat -> (k * c + c <= length l)%nat ->
  nth j (map (fun v => v + / 10 ^ 8) (softmax (firstn c (skipn (k * c) l)))) 0 = prob c k l j.
Proof.
  intros Hj Hl. set (row := firstn c (skipn (k * c) l)). assert (Lr : length row = c) by (unfold row; rewrite firstn_length, skipn_length; lia).
  assert (Hr : forall i, (i < c)%nat -> nth i row 0 = nth (k * c + i) l 0) by (intros i Hi; unfold row; rewrite nth_firstn_lt by exact Hi; apply nth_skipn_at).
  unfold softmax. rewrite map_map. rewrite (map_nth_in _ row j 0 0) by lia. unfold prob. rewrite Hr by exact Hj. do 2 f_equal. rewrite rsum_nth, map_length, Lr.
  apply Sum_ext. intros i Hi. rewrite (map_nth_in exp row i 0 0) by lia. now rewrite Hr.
Qed.
Lemma kl_divergence c k other base : (k * c + c <= length other)%nat -> (k * c + c <= length base)%nat ->
  kl (firstn c (skipn (k * c) other)) (firstn c (skipn (k * c) base)) = divergence c k other base.
Proof.
  intros Ho Hb. unfold kl, divergence. set (p := map _ (softmax (firstn c (skipn (k * c) other)))). set (q := map _ (softmax (firstn c (skipn (k * c) base)))).
  assert (Lp : length p = c) by (unfold p, softmax; rewrite !map_length, firstn_length, skipn_length; lia).
  assert (Lq : length q = c) by (unfold q, softmax; rewrite !map_length, firstn_length, skipn_length; lia).
  rewrite rsum_nth, map2_length, Lp, Lq, Nat.min_id. apply Sum_ext. intros j Hj. rewrite (map2_nth _ p q j 0 0 0) by lia. unfold p, q. now rewrite !softmax_nth.
Qed.
Lemma concat_nth (rows : list (list R)) c k j : (forall r, In r rows -> length r = c) -> (k < length rows)%nat -> (j < c)%nat ->
  nth (k * c + j) (concat rows) 0 = nth j (nth k rows []) 0.
Proof.
  revert k. induction rows as [|r rows IH]; intros k Hr Hk Hj; [cbn in Hk; lia|]. cbn [concat]. assert (Lr : length r = c) by (apply Hr; now left). destruct k as [|k].
  - cbn. rewrite app_nth1 by lia. reflexivity.
  - cbn [nth]. rewrite app_nth2 by nia. replace (S k * c + j - length r)%nat with (k * c + j)%nat by nia. apply IH; [intros; apply Hr; now right|cbn in Hk; lia|exact Hj].
Qed.
Lemma concat_len (rows : list (list R)) c : (forall r, In r rows -> length r = c) -> length (concat rows) = (length rows * c)%nat.
Proof. induction rows as [|r rows IH]; intros H; [reflexivity|]. cbn [concat length]. rewrite app_length, IH by (intros; apply H; now right). rewrite (H r) by now left. reflexivity. Qed.
Lemma importance_scores base other s c : shp base = s ++ [c] -> shp other = shp base -> wf base -> wf other ->
  importance other base = scores c (dat base) (dat other).
Proof.
  intros Eb Eo Wb Wo. unfold wf in *. rewrite Eo in Wo. rewrite Eb in *. set (r := numel s).
  assert (Hn : numel (s ++ [c]) = (r * c)%nat). { rewrite <- (numel_rev (s ++ [c])), rev_app_distr. cbn. fold (numel (rev s)). rewrite numel_rev. fold r. lia. }
  rewrite Hn in *. unfold importance, last_rows. rewrite Eo, Eb. rewrite rev_app_distr. cbn [rev app]. fold (numel (rev s)). rewrite numel_rev. fold r.
  set (rows := map2 row_scores (chunk r c (dat other)) (chunk r c (dat base))).
  assert (Lrows : length rows = r) by (unfold rows; rewrite map2_length, !chunk_length; lia).
  assert (Hrow : forall k, (k < r)%nat -> nth k rows [] = row_scores (firstn c (skipn (k * c) (dat other))) (firstn c (skipn (k * c) (dat base)))).
  { intros k Hk. unfold rows. rewrite (map2_nth row_scores _ _ k [] [] []) by (rewrite chunk_length; exact Hk). now rewrite !chunk_nth. }
  assert (Hlen : forall x, In x rows -> length x = c).
  { intros x Hx. apply (In_nth _ _ []) in Hx as (k & Hk & <-). rewrite Lrows in Hk. rewrite (Hrow k Hk). unfold row_scores. rewrite map2_length, !firstn_length, !skipn_length. nia. }
  unfold scores. rewrite Wb. apply nth_ext_R; [rewrite (concat_len rows c Hlen), Lrows, map_length, seq_length; reflexivity|].
  intros i Hi. rewrite (concat_len rows c Hlen), Lrows in Hi. rewrite nth_map_seq by exact Hi. assert (Hc : c <> 0%nat) by nia.
  pose proof (Nat.div_mod i c Hc) as Hdm. pose proof (Nat.mod_upper_bound i c Hc) as Hm. set (k := (i / c)%nat) in *. set (j := (i mod c)%nat) in *.
  assert (Hk : (k < r)%nat) by nia. assert (Ei : i = (k * c + j)%nat) by nia. rewrite Ei at 1. rewrite (concat_nth rows c k j Hlen) by lia. rewrite (Hrow k Hk). unfold row_scores.
  assert (Lo : length (firstn c (skipn (k * c) (dat other))) = c) by (rewrite firstn_length, skipn_length; nia).
  assert (Lb : length (firstn c (skipn (k * c) (dat base))) = c) by (rewrite firstn_length, skipn_length; nia).
  rewrite (map2_nth _ _ _ j 0 0 0) by lia. rewrite kl_divergence by nia. unfold score. fold k. rewrite !nth_firstn_lt by exact Hm. rewrite !nth_skipn_at, <- Ei. reflexivity.
Qed.

(** relative entropy is not negative (Gibbs' inequality), and zero only for equal distributions *)
Lemma ln_ge x : 0 < x -> 1 - / x <= ln x.
Proof.
  intros Hx. pose proof (Rinv_0_lt_compat x Hx) as Hi. pose proof (exp_ineq1_le (ln (/ x))) as H. rewrite exp_ln in H by exact Hi. rewrite ln_Rinv in H by exact Hx. lra.
Qed.
Lemma ln_gt x : 0 < x -> x <> 1 -> 1 - / x < ln x.
Proof.
  intros Hx Hn. pose proof (Rinv_0_lt_compat x Hx) as Hi. assert (Hl : ln (/ x) <> 0).
  { intros E. rewrite <- ln_1 in E. apply ln_inv in E; [|exact Hi|lra]. apply Hn. rewrite <- (Rinv_inv x), E. apply Rinv_1. }
  pose proof (exp_ineq1 (ln (/ x)) Hl) as H. rewrite exp_ln in H by exact Hi. rewrite ln_Rinv in H by exact Hx. lra.
Qed.
Lemma Sum_exp_pos c k l : (0 < c)%nat -> 0 < Sum c (fun j => exp (nth (k * c + j) l 0)).
Proof.
  intros Hc. assert (H : forall n f, (forall j, 0 < f j) -> (0 < n)%nat -> 0 < Sum n f).
  { induction n as [|n IH]; intros f Hf Hn; [lia|]. cbn. pose proof (Hf n). destruct n; [cbn; lra|]. specialize (IH f Hf ltac:(lia)). lra. }
  apply H; [intros; apply exp_pos|exact Hc].
Qed.
Lemma prob_pos c k l j : (0 < c)%nat -> 0 < prob c k l j.
Proof.
  intros Hc. unfold prob, Rdiv. pose proof (Sum_exp_pos c k l Hc) as H. pose proof (exp_pos (nth (k * c + j) l 0)). assert (0 < / 10 ^ 8) by (apply Rinv_0_lt_compat; lra).
  apply Rinv_0_lt_compat in H. nra.
Qed.
Lemma prob_sum c k l : (0 < c)%nat -> Sum c (prob c k l) = 1 + INR c * / 10 ^ 8.
Proof.
  intros Hc. unfold prob. rewrite Sum_plus, Sum_const. unfold Rdiv. rewrite Sum_scal_r. rewrite Rinv_r; [ring|]. pose proof (Sum_exp_pos c k l Hc). lra.
Qed.
Lemma divergence_nonneg c k other base : 0 <= divergence c k other base.
Proof.
  destruct c as [|c]; [cbn; lra|]. set (n := S c). assert (Hc : (0 < n)%nat) by (unfold n; lia). unfold divergence.
  apply Rle_trans with (Sum n (fun j => prob n k other j - prob n k base j)).
  - rewrite Sum_minus, !prob_sum by exact Hc. lra.
  - apply Sum_le. intros j Hj. pose proof (prob_pos n k other j Hc) as Hp. pose proof (prob_pos n k base j Hc) as Hq.
    pose proof (ln_ge (prob n k other j / prob n k base j)) as H. assert (0 < prob n k other j / prob n k base j) by (apply Rdiv_lt_0_compat; assumption). specialize (H H0).
    assert (E : / (prob n k other j / prob n k base j) = prob n k base j / prob n k other j) by (field; lra). rewrite E in H.
    apply (Rmult_le_compat_l (prob n k other j)) in H; [|lra]. replace (prob n k other j * (1 - prob n k base j / prob n k other j)) with (prob n k other j - prob n k base j) in H by (field; lra). exact H.
Qed.
Lemma score_nonneg c base other i : 0 <= score c base other i.
Proof. unfold score. apply Rmult_le_pos; [apply Rabs_pos|apply divergence_nonneg]. Qed.

(** ** The theorems *)
Lemma fuse_inv perm1 perm2 base other s c out : shp base = s ++ [c] -> shp other = shp base -> wf base -> wf other -> fuse perm1 perm2 base other = Ok out ->
  exists th, threshold perm1 perm2 (scores c (dat base) (dat other)) = Ok th /\ shp out = shp base /\ length (dat out) = length (dat base) /\
    forall i, (i < length (dat base))%nat -> nth i (dat out) 0 = if Rle_dec th (score c (dat base) (dat other) i) then nth i (dat other) 0 else nth i (dat base) 0.
Proof.
  intros Eb Eo Wb Wo E. unfold fuse in E. rewrite (importance_scores base other s c Eb Eo Wb Wo) in E.
  destruct (threshold _ _ _) as [th|] eqn:Et; [|discriminate]. cbn [rbind] in E. exists th. split; [reflexivity|].
  assert (E' : {| shp := match shp base with [] => [1%nat] | s => s end; dat := map (fun i => ent base i + (ent other i - ent base i) * (if Rle_dec th (nth i (scores c (dat base) (dat other)) 0) then 1 else 0)) (positions base) |} = out) by congruence.
  subst out. cbn [shp dat]. split; [rewrite Eb; destruct s; reflexivity|]. unfold positions. rewrite map_length, seq_length. split; [reflexivity|].
  intros i Hi. rewrite nth_map_seq by exact Hi. unfold scores. rewrite nth_map_seq by exact Hi. unfold ent. destruct (Rle_dec _ _); lra.
Qed.
Lemma fusion_inv e perm1 perm2 bm k1 x k2 y out : shp x = shp y -> k1 <> k2 ->
  arcee_fusion e perm1 perm2 bm [(k1, x); (k2, y)] = Ok out ->
  exists base other, ((bm = k1 /\ base = x /\ other = y) \/ (bm = k2 /\ base = y /\ other = x)) /\ fuse perm1 perm2 base other = Ok out.
Proof.
  intros Hs Hk E. unfold arcee_fusion in E. destruct (dmem [(k1, x); (k2, y)] bm) eqn:Em; [|discriminate].
  assert (Hbm : bm = k1 \/ bm = k2) by (apply dmem_In in Em; unfold dkeys in Em; cbn in Em; intuition).
  assert (Hrect : forall a b : tensor, shp a = shp b -> rectify_embed_sizes e [a; b] = Ok [a; b]).
  { intros a b Hab. rewrite rectify_fit. cbn [map].
    assert (Hall : forall t, In t [a; b] -> shp t = shp b) by (intros t [<-|[<-|[]]]; auto). rewrite !(fit_same e [a; b] (shp b) Hall) by (cbn; tauto). reflexivity. }
  destruct (eqb_spec k1 bm) as [->|Hn].
  - rewrite (Hrect x y Hs) in E. cbn [rbind] in E. rewrite (proj2 (shape_eqb_true _ _) Hs) in E. exists x, y. auto.
  - rewrite (Hrect y x (eq_sym Hs)) in E. cbn [rbind] in E. rewrite (proj2 (shape_eqb_true _ _) (eq_sym Hs)) in E. exists y, x. destruct Hbm; [congruence|]. auto.
Qed.

(** Every value of the result is the base model's or the other model's: the other's exactly where the importance score
    reaches one threshold, the same for the whole tensor. Scores are not negative. *)
Theorem C58_value e perm1 perm2 bm k1 x k2 y s c out : shp x = s ++ [c] -> shp y = shp x -> wf x -> wf y -> k1 <> k2 ->
  arcee_fusion e perm1 perm2 bm [(k1, x); (k2, y)] = Ok out ->
  exists base other th, ((bm = k1 /\ base = x /\ other = y) \/ (bm = k2 /\ base = y /\ other = x)) /\
    shp out = shp base /\ length (dat out) = length (dat base) /\
    forall i, (i < length (dat base))%nat -> 0 <= score c (dat base) (dat other) i /\
      (th <= score c (dat base) (dat other) i -> nth i (dat out) 0 = nth i (dat other) 0) /\
      (score c (dat base) (dat other) i < th -> nth i (dat out) 0 = nth i (dat base) 0).
Proof.
  intros Ex Ey Wx Wy Hk E. destruct (fusion_inv _ _ _ _ _ _ _ _ _ (eq_sym Ey) Hk E) as (base & other & Hbo & Ef).
  assert (H : shp base = s ++ [c] /\ shp other = shp base /\ wf base /\ wf other) by (destruct Hbo as [(_ & -> & ->)|(_ & -> & ->)]; repeat split; congruence).
  destruct H as (Hb & Ho & Wb & Wo). destruct (fuse_inv _ _ _ _ _ _ _ Hb Ho Wb Wo Ef) as (th & _ & S & L & V). exists base, other, th. split; [exact Hbo|]. split; [exact S|]. split; [exact L|].
  intros i Hi. rewrite (V i Hi). split; [apply score_nonneg|]. split; intros H; destruct (Rle_dec _ _); try reflexivity; lra.
Qed.

(** For tensors of at most a million entries the threshold is median + 3/2 (upper quartile - lower quartile). *)
Lemma threshold_ranked p1 p2 l th : (Z.of_nat (length l) <= 1000000)%Z -> threshold p1 p2 l = Ok th ->
  exists md q1 q3, ranked l ((length l - 1) / 2) md /\ ranked l ((length l - 1) / 4) q1 /\ ranked l (3 * (length l - 1) / 4) q3 /\ q1 <= q3 /\ th = md + 3 / 2 * (q3 - q1).
Proof.
  intros Hl E. unfold threshold, quantile, sampled in E. destruct (Z.ltb_spec 1000000 (Z.of_nat (length l))); [lia|]. cbv zeta in E. rewrite (Permutation_length (sort_perm l)) in E.
  set (n1 := (length l - 1)%nat) in *.
  destruct (nthE (sort l) (2 * n1 / 4)) as [md|] eqn:E2; [|discriminate]. cbn [rbind] in E. destruct (nthE (sort l) (1 * n1 / 4)) as [q1|] eqn:E1; [|discriminate]. cbn [rbind] in E.
  destruct (nthE (sort l) (3 * n1 / 4)) as [q3|] eqn:E3; [|discriminate]. cbn [rbind] in E. apply nthE_some in E1, E2, E3. exists md, q1, q3.
  rewrite Nat.mul_1_l in E1. change 4%nat with (2 * 2)%nat in E2. rewrite Nat.div_mul_cancel_l in E2 by lia.
  repeat split; try (now apply sort_ranked); try apply (sort_ranked _ _ _ E2); try apply (sort_ranked _ _ _ E1); try apply (sort_ranked _ _ _ E3).
  - destruct (sorted_split _ (sort_sorted l) _ _ E1) as [_ H1]. apply H1. assert (Hle : (n1 / 4 <= 3 * n1 / 4)%nat) by (apply Nat.div_le_mono; lia).
    rewrite <- (firstn_skipn (n1 / 4) (sort l)) in E3. assert (Hlf : (n1 / 4 < length (sort l))%nat) by (apply nth_error_Some; congruence).
    rewrite nth_error_app2 in E3 by (rewrite firstn_length; lia). eapply nth_error_In. exact E3.
  - congruence.
Qed.
Theorem C58_threshold e perm1 perm2 bm k1 x k2 y s c out : shp x = s ++ [c] -> shp y = shp x -> wf x -> wf y -> k1 <> k2 ->
  (Z.of_nat (length (dat x)) <= 1000000)%Z -> arcee_fusion e perm1 perm2 bm [(k1, x); (k2, y)] = Ok out ->
  exists base other md q1 q3, ((bm = k1 /\ base = x /\ other = y) \/ (bm = k2 /\ base = y /\ other = x)) /\
    let sc := scores c (dat base) (dat other) in let n := length (dat base) in
    ranked sc ((n - 1) / 2) md /\ ranked sc ((n - 1) / 4) q1 /\ ranked sc (3 * (n - 1) / 4) q3 /\ q1 <= q3 /\
    forall i, (i < n)%nat -> nth i (dat out) 0 =
      if Rle_dec (md + 3 / 2 * (q3 - q1)) (score c (dat base) (dat other) i) then nth i (dat other) 0 else nth i (dat base) 0.
Proof.
  intros Ex Ey Wx Wy Hk Hn E. destruct (fusion_inv _ _ _ _ _ _ _ _ _ (eq_sym Ey) Hk E) as (base & other & Hbo & Ef).
  assert (H : shp base = s ++ [c] /\ shp other = shp base /\ wf base /\ wf other /\ length (dat base) = length (dat x)).
  { unfold wf in *. destruct Hbo as [(_ & -> & ->)|(_ & -> & ->)]; repeat split; congruence. }
  destruct H as (Hb & Ho & Wb & Wo & Hlb). destruct (fuse_inv _ _ _ _ _ _ _ Hb Ho Wb Wo Ef) as (th & Et & S & L & V).
  assert (Ls : length (scores c (dat base) (dat other)) = length (dat base)) by (unfold scores; now rewrite map_length, seq_length).
  destruct (threshold_ranked _ _ _ _ ltac:(rewrite Ls, Hlb; exact Hn) Et) as (md & q1 & q3 & R2 & R1 & R3 & Hq & ->). rewrite Ls in *.
  exists base, other, md, q1, q3. cbv zeta. auto 10.
Qed.

Lemma above_median sc md th : ranked sc ((length sc - 1) / 2) md -> md < th ->
  (2 * length (filter (fun v => if Rle_dec th v then true else false) sc) <= length sc)%nat.
Proof.
  intros [Hin [_ Hr]] Hth.
  assert (H : (length (filter (fun v => if Rle_dec th v then true else false) sc) + length (filter (fun x => if Rle_dec x md then true else false) sc) <= length sc)%nat).
  { clear -Hth. induction sc as [|v l IH]; [cbn; lia|]. cbn [filter length]. destruct (Rle_dec th v), (Rle_dec v md); cbn [length]; try lia; lra. }
  destruct sc as [|v l]; [destruct Hin|]. cbn [length] in *. pose proof (Nat.div_mod (S (length l) - 1) 2 ltac:(lia)). pose proof (Nat.mod_upper_bound (S (length l) - 1) 2 ltac:(lia)). lia.
Qed.

(** Unless the two quartiles of the scores coincide, at most half of the values change. *)
Theorem C58_half e perm1 perm2 bm k1 x k2 y s c out : shp x = s ++ [c] -> shp y = shp x -> wf x -> wf y -> k1 <> k2 ->
  (Z.of_nat (length (dat x)) <= 1000000)%Z -> arcee_fusion e perm1 perm2 bm [(k1, x); (k2, y)] = Ok out ->
  exists base other, ((bm = k1 /\ base = x /\ other = y) \/ (bm = k2 /\ base = y /\ other = x)) /\
    let sc := scores c (dat base) (dat other) in let n := length (dat base) in
    (exists q, ranked sc ((n - 1) / 4) q /\ ranked sc (3 * (n - 1) / 4) q) \/
    (2 * length (filter (fun i => if Req_EM_T (nth i (dat out) 0%R) (nth i (dat base) 0%R) then false else true) (seq 0 n)) <= n)%nat.
Proof.
  intros Ex Ey Wx Wy Hk Hn E. destruct (C58_threshold _ _ _ _ _ _ _ _ _ _ _ Ex Ey Wx Wy Hk Hn E) as (base & other & md & q1 & q3 & Hbo & H). cbv zeta in H. destruct H as (R2 & R1 & R3 & Hq & V).
  exists base, other. split; [exact Hbo|]. cbv zeta. destruct (Rle_lt_or_eq_dec q1 q3 Hq) as [Hlt|<-]; [right|left; eauto].
  set (th := md + 3 / 2 * (q3 - q1)) in *. assert (Hth : md < th) by (unfold th; lra). set (sc := scores c (dat base) (dat other)) in *.
  assert (Ls : length sc = length (dat base)) by (unfold sc, scores; now rewrite map_length, seq_length).
  pose proof (above_median sc md th ltac:(rewrite Ls; exact R2) Hth) as Hb. rewrite Ls in Hb. etransitivity; [|exact Hb]. apply Nat.mul_le_mono_l.
  assert (Hall : forall l, incl l (seq 0 (length (dat base))) ->
    (length (filter (fun i => if Req_EM_T (nth i (dat out) 0%R) (nth i (dat base) 0%R) then false else true) l) <= length (filter (fun v => if Rle_dec th v then true else false) (map (score c (dat base) (dat other)) l)))%nat).
  { induction l as [|i l IH]; intros Hin; [reflexivity|]. specialize (IH (fun z Hz => Hin z (or_intror Hz))). assert (Hi : (i < length (dat base))%nat) by (specialize (Hin i (or_introl eq_refl)); apply in_seq in Hin; lia).
    cbn [filter map]. specialize (V i Hi). destruct (Rle_dec th (score c (dat base) (dat other) i)); destruct (Req_EM_T (nth i (dat out) 0) (nth i (dat base) 0)); cbn [length]; try lia. contradiction. }
  apply Hall. apply incl_refl.
Qed.

(** If the two models agree on more than three quarters of the positions, the result is the other model, whole. *)
Theorem C58_sparse e perm1 perm2 bm k1 x k2 y s c out : shp x = s ++ [c] -> shp y = shp x -> wf x -> wf y -> k1 <> k2 ->
  (Z.of_nat (length (dat x)) <= 1000000)%Z -> arcee_fusion e perm1 perm2 bm [(k1, x); (k2, y)] = Ok out ->
  (3 * (length (dat x) - 1) < 4 * length (filter (fun i => if Req_EM_T (nth i (dat x) 0%R) (nth i (dat y) 0%R) then true else false) (seq 0 (length (dat x)))))%nat ->
  out = if eqb bm k1 then y else x.
Proof.
  intros Ex Ey Wx Wy Hk Hn E Hun. destruct (C58_threshold _ _ _ _ _ _ _ _ _ _ _ Ex Ey Wx Wy Hk Hn E) as (base & other & md & q1 & q3 & Hbo & H). cbv zeta in H. destruct H as (R2 & R1 & R3 & Hq & V).
  destruct (C58_value _ _ _ _ _ _ _ _ _ _ _ Ex Ey Wx Wy Hk E) as (base' & other' & _ & Hbo' & S & L & _).
  assert (base' = base /\ other' = other) as [-> ->] by (destruct Hbo as [(-> & -> & ->)|(-> & -> & ->)], Hbo' as [(? & -> & ->)|(? & -> & ->)]; auto; congruence). clear Hbo'.
  assert (Hsel : (if eqb bm k1 then y else x) = other).
  { destruct Hbo as [(-> & -> & ->)|(-> & -> & ->)]; [now rewrite eqb_refl|]. destruct (eqb_spec k2 k1); [congruence|reflexivity]. }
  assert (Hlen : length (dat base) = length (dat x) /\ length (dat other) = length (dat x) /\ shp other = shp base).
  { unfold wf in *. destruct Hbo as [(_ & -> & ->)|(_ & -> & ->)]; repeat split; congruence. }
  destruct Hlen as (Lb & Lo & Ho). rewrite Hsel. set (sc := scores c (dat base) (dat other)) in *.
  assert (Hpos : forall v, In v sc -> 0 <= v) by (intros v Hv; apply in_map_iff in Hv as (i & <- & _); apply score_nonneg).
  assert (Hz : (3 * (length (dat base) - 1) / 4 < length (filter (fun v => if Rle_dec v 0 then true else false) sc))%nat).
  { apply Nat.div_lt_upper_bound; [lia|]. rewrite Lb. eapply Nat.lt_le_trans; [exact Hun|]. apply Nat.mul_le_mono_l.
    unfold sc, scores. rewrite Lb. generalize (seq 0 (length (dat x))). induction l as [|i l IH]; [reflexivity|]. cbn [map filter].
    destruct (Req_EM_T (nth i (dat x) 0) (nth i (dat y) 0)) as [Eq|]; [|destruct (Rle_dec _ 0); cbn [length]; lia].
    assert (Es : score c (dat base) (dat other) i = 0).
    { unfold score. replace (nth i (dat other) 0 - nth i (dat base) 0) with 0; [rewrite Rabs_R0; ring|]. destruct Hbo as [(_ & -> & ->)|(_ & -> & ->)]; lra. }
    rewrite Es. destruct (Rle_dec 0 0); [cbn [length]; lia|lra]. }
  assert (Hzero : forall k v, ranked sc k v -> (k <= 3 * (length (dat base) - 1) / 4)%nat -> v = 0).
  { intros k v [Hin [Hlt _]] Hk'. pose proof (Hpos v Hin) as Hv. destruct (Rle_lt_or_eq_dec 0 v Hv) as [Hgt|]; [|auto]. exfalso.
    assert (length (filter (fun v => if Rle_dec v 0 then true else false) sc) <= length (filter (fun x => if Rlt_dec x v then true else false) sc))%nat; [|lia].
    clear -Hgt. induction sc as [|z l IH]; [cbn; lia|]. cbn [filter]. destruct (Rle_dec z 0), (Rlt_dec z v); cbn [length]; try lia. lra. }
  assert (md = 0 /\ q1 = 0 /\ q3 = 0) as (-> & -> & ->).
  { repeat split; eapply Hzero; try eassumption; [|apply Nat.div_le_mono; lia|lia].
    pose proof (Nat.div_mod (length (dat base) - 1) 2 ltac:(lia)). apply Nat.div_le_lower_bound; lia. }
  destruct out as [so d], other as [sp dp]. cbn [shp dat] in *. f_equal; [congruence|]. apply nth_ext_R; [congruence|]. intros i Hi. rewrite V by lia. destruct (Rle_dec _ _) as [|n]; [reflexivity|]. contradiction n.
  replace (0 + 3 / 2 * (0 - 0)) with 0 by lra. apply score_nonneg.
Qed.

(** ** Five evenly spread changes: no score reaches the threshold, and nothing at all is merged *)
Lemma five_row (l : list R) j : (j < 5)%nat -> prob 5 0 l j = exp (nth j l 0) / Sum 5 (fun j => exp (nth j l 0)) + / 10 ^ 8.
Proof. intros. reflexivity. Qed.
Lemma ranked_unique l k v w : ranked l k v -> ranked l k w -> v = w.
Proof.
  intros [_ [A B]] [_ [C D]]. destruct (Rtotal_order v w) as [H|[H|H]]; [|exact H|]; exfalso.
  - assert (length (filter (fun x => if Rle_dec x v then true else false) l) <= length (filter (fun x => if Rlt_dec x w then true else false) l))%nat; [|lia].
    clear -H. induction l as [|z l IH]; [cbn; lia|]. cbn [filter]. destruct (Rle_dec z v), (Rlt_dec z w); cbn [length]; try lia. lra.
  - assert (length (filter (fun x => if Rle_dec x w then true else false) l) <= length (filter (fun x => if Rlt_dec x v then true else false) l))%nat; [|lia].
    clear -H. induction l as [|z l IH]; [cbn; lia|]. cbn [filter]. destruct (Rle_dec z w), (Rlt_dec z v); cbn [length]; try lia. lra.
Qed.
Lemma divergence_pos c k other base j : (j < c)%nat -> prob c k other j <> prob c k base j -> 0 < divergence c k other base.
Proof.
  intros Hj Hne. assert (Hc : (0 < c)%nat) by lia. unfold divergence.
  set (f := fun j => prob c k other j * ln (prob c k other j / prob c k base j) - (prob c k other j - prob c k base j)).
  assert (Hterm : forall i, 0 <= f i /\ (prob c k other i <> prob c k base i -> 0 < f i)).
  { intros i. pose proof (prob_pos c k other i Hc) as Hp. pose proof (prob_pos c k base i Hc) as Hq. set (p := prob c k other i) in *. set (q := prob c k base i) in *. unfold f. fold p q.
    assert (Hr : 0 < p / q) by (apply Rdiv_lt_0_compat; assumption). assert (E : / (p / q) = q / p) by (field; lra). split.
    - pose proof (ln_ge (p / q) Hr) as H. rewrite E in H. apply (Rmult_le_compat_l p) in H; [|lra]. replace (p * (1 - q / p)) with (p - q) in H by (field; lra). lra.
    - intros Hn. assert (Hn1 : p / q <> 1) by (intros Hx; apply Hn; replace p with (p / q * q) by (field; lra); rewrite Hx; ring).
      pose proof (ln_gt (p / q) Hr Hn1) as H. rewrite E in H. apply (Rmult_lt_compat_l p) in H; [|lra]. replace (p * (1 - q / p)) with (p - q) in H by (field; lra). lra. }
  assert (Hs : 0 < Sum c f).
  { destruct (Hterm j) as [_ H]. specialize (H Hne). assert (Hle : f j <= Sum c f); [|lra]. clear -Hj Hterm. assert (Hp : forall i, 0 <= f i) by (intros; apply Hterm). clearbody f. clear Hterm.
    induction c as [|n IH]; [lia|]. cbn [Sum]. destruct (Nat.eq_dec j n) as [->|]; [pose proof (Sum_nonneg n f (fun i _ => Hp i)); lra|]. specialize (IH ltac:(lia)). pose proof (Hp n). lra. }
  assert (E : Sum c f = Sum c (fun j => prob c k other j * ln (prob c k other j / prob c k base j))).
  { unfold f. rewrite Sum_minus, Sum_minus, !prob_sum by exact Hc. lra. }
  lra.
Qed.

Theorem C58_nothing_refuted perm1 perm2 :
  let base := vec [0; 0; 0; 0; 0] in let other := vec [0; 1; 2; 3; 4] in
  arcee_fusion false perm1 perm2 "base" [("base", base); ("other", other)] = Ok base.
Proof.
  intros base other. set (K := divergence 5 0 (dat other) (dat base)).
  assert (Hs : forall i, (i < 5)%nat -> score 5 (dat base) (dat other) i = INR i * K).
  { intros i Hi. unfold score. rewrite Nat.div_small by exact Hi. fold K. f_equal. destruct i as [|[|[|[|[|]]]]]; [| | | | |lia]; cbn; rewrite Rabs_pos_eq; lra. }
  assert (HK : 0 < K).
  { unfold K. apply (divergence_pos 5 0 _ _ 0); [lia|]. rewrite !five_row by lia. intros E. apply Rplus_eq_reg_r in E. cbn in E. rewrite !exp_0 in E.
    pose proof (exp_ineq1 1 ltac:(lra)). pose proof (exp_ineq1 2 ltac:(lra)). pose proof (exp_ineq1 3 ltac:(lra)). pose proof (exp_ineq1 4 ltac:(lra)).
    assert (H5 : / (0 + 1 + exp 1 + exp 2 + exp 3 + exp 4) < / (0 + 1 + 1 + 1 + 1 + 1)) by (apply Rinv_lt_contravar; [nra|lra]). unfold Rdiv in E. lra. }
  assert (Esc : scores 5 (dat base) (dat other) = [INR 0 * K; INR 1 * K; INR 2 * K; INR 3 * K; INR 4 * K]).
  { unfold scores. cbn [length dat base vec seq map]. now rewrite !Hs by lia. }
  clearbody K. clear Hs.
  assert (Eth : threshold perm1 perm2 (scores 5 (dat base) (dat other)) = Ok (INR 2 * K + 3 / 2 * (INR 3 * K - INR 1 * K))).
  { rewrite Esc. assert (Eso : sort [INR 0 * K; INR 1 * K; INR 2 * K; INR 3 * K; INR 4 * K] = [INR 0 * K; INR 1 * K; INR 2 * K; INR 3 * K; INR 4 * K]).
    { cbn [sort fold_right insert]. repeat match goal with |- context[Rle_dec ?a ?b] => destruct (Rle_dec a b) as [_|n]; [cbn [insert]|contradiction n; cbn [INR]; nra] end. reflexivity. }
    unfold threshold, quantile, sampled. cbn [length Z.of_nat Z.ltb Z.compare Pos.of_succ_nat Pos.succ Pos.compare Pos.compare_cont]. rewrite Eso. reflexivity. }
  change (arcee_fusion false perm1 perm2 "base" [("base", base); ("other", other)]) with (fuse perm1 perm2 base other). unfold fuse. rewrite (importance_scores base other [] 5) by reflexivity. rewrite Eth, Esc. cbn [rbind]. set (th := INR 2 * K + 3 / 2 * (INR 3 * K - INR 1 * K)). assert (Hth : INR 4 * K < th) by (unfold th; cbn [INR]; lra). clearbody th.
  change (positions base) with [0; 1; 2; 3; 4]%nat. cbn [map nth]. unfold ent, other, base, vec. cbn [nth dat shp length]. do 2 f_equal.
  destruct (Rle_dec th (INR 0 * K)) as [n|_]; [exfalso; cbn [INR] in n, Hth; nra|]. destruct (Rle_dec th (INR 1 * K)) as [n|_]; [exfalso; cbn [INR] in n, Hth; nra|].
  destruct (Rle_dec th (INR 2 * K)) as [n|_]; [exfalso; cbn [INR] in n, Hth; nra|]. destruct (Rle_dec th (INR 3 * K)) as [n|_]; [exfalso; cbn [INR] in n, Hth; nra|].
  destruct (Rle_dec th (INR 4 * K)) as [n|_]; [exfalso; lra|]. rewrite !Rmult_0_r, !Rplus_0_r. reflexivity.
Qed.

(** ** Examples *)
Example C58_nonvacuous perm1 perm2 : let base := vec [0; 0; 0; 0; 0; 0] in let other := vec [0; 0; 5; 0; 0; 0] in
  shp base = [] ++ [6%nat] /\ wf base /\ wf other /\ "base" <> "other" /\ (Z.of_nat (length (dat base)) <= 1000000)%Z /\
  (3 * (length (dat base) - 1) < 4 * length (filter (fun i => if Req_EM_T (nth i (dat base) 0%R) (nth i (dat other) 0%R) then true else false) (seq 0 (length (dat base)))))%nat /\
  arcee_fusion false perm1 perm2 "base" [("base", base); ("other", other)] = Ok other.
Proof.
  intros base other.
  assert (Hun : (3 * (length (dat base) - 1) < 4 * length (filter (fun i => if Req_EM_T (nth i (dat base) 0%R) (nth i (dat other) 0%R) then true else false) (seq 0 (length (dat base)))))%nat).
  { cbn. repeat match goal with |- context[Req_EM_T ?a ?b] => destruct (Req_EM_T a b); try (exfalso; lra) end. cbn. lia. }
  do 4 (split; [try reflexivity; try discriminate|]). split; [cbn; lia|]. split; [exact Hun|].
  destruct (arcee_fusion false perm1 perm2 "base" [("base", base); ("other", other)]) as [out|err] eqn:E.
  - f_equal. apply (C58_sparse false perm1 perm2 "base" "base" base "other" other [] 6%nat out eq_refl eq_refl eq_refl eq_refl ltac:(discriminate) ltac:(cbn; lia) E Hun).
  - exfalso. change (arcee_fusion false perm1 perm2 "base" [("base", base); ("other", other)]) with (fuse perm1 perm2 base other) in E. unfold fuse in E. rewrite (importance_scores base other [] 6) in E by reflexivity.
    set (sc := scores 6 (dat base) (dat other)) in *. assert (Ls : length sc = 6%nat) by (unfold sc, scores; now rewrite map_length, seq_length).
    assert (Hq : forall num p, (num <= 4)%nat -> exists q, quantile num p sc = Ok q).
    { intros num p Hnum. unfold quantile, sampled. rewrite Ls. destruct (Z.ltb_spec 1000000 (Z.of_nat 6)); [lia|]. cbv zeta. rewrite (Permutation_length (sort_perm sc)), Ls.
      assert (Hlt : (num * (6 - 1) / 4 < length (sort sc))%nat) by (rewrite (Permutation_length (sort_perm sc)), Ls; apply Nat.div_lt_upper_bound; lia).
      unfold nthE. apply nth_error_Some in Hlt. destruct (nth_error (sort sc) (num * (6 - 1) / 4)); [eauto|congruence]. }
    unfold threshold in E. destruct (Hq 2%nat perm1 ltac:(lia)) as [a Ea]. destruct (Hq 1%nat perm2 ltac:(lia)) as [b Eb]. destruct (Hq 3%nat perm2 ltac:(lia)) as [d Ed]. rewrite Ea, Eb, Ed in E. discriminate.
Qed.

Print Assumptions C58_value.
Print Assumptions C58_sparse.
Print Assumptions C58_nothing_refuted.
