(** C57: SCE keeps the most contested positions and averages the changes of the elected sign there. *)
From Coq Require Import Reals Lra Lia Psatz Permutation.
From Flocq Require Import Core.
From Verif.Base Require Import Py PyFacts RList.
From Verif.Sparsify Require Import Model.
From Verif.TokenSurgeon Require Import ApproxSpec ApproxInst.
From Verif.Methods Require Import Model LinearProofs Spec GtaProofs PropsGta More PropsRam.
Local Open Scope list_scope.
Local Open Scope R_scope.

(** ** Specification *)
(** [torch.topk(l, k)]: k different positions, nothing left out being larger *)
Definition takes_largest (topk : list R -> nat -> list nat) : Prop :=
  forall l k, (k <= length l)%nat -> length (topk l k) = k /\ NoDup (topk l k) /\
    (forall i, In i (topk l k) -> (i < length l)%nat) /\
    forall i j, In i (topk l k) -> (j < length l)%nat -> ~ In j (topk l k) -> nth j l 0 <= nth i l 0.
(** two of the models differ at position [i] *)
Definition contested (ts : list tensor) (i : nat) : bool :=
  match ts with [] => false | t0 :: _ => existsb (fun t => if Req_EM_T (nth i (dat t) 0) (nth i (dat t0) 0) then false else true) ts end.
(** how far the models are spread at position [i]: the mean square distance to their mean *)
Definition spread (ts : list tensor) (i : nat) : R :=
  let m := mean (map (fun t => nth i (dat t) 0) ts) in mean (map (fun t => (nth i (dat t) 0 - m) * (nth i (dat t) 0 - m)) ts).
(** the mean square of a model's changes at the selected positions, and its share in the total *)
Definition energy (sel : nat -> bool) (base t : tensor) : R :=
  mean (map (fun i => if sel i then delta base i t * delta base i t else 0) (seq 0 (length (dat base)))).
Definition share (sel : nat -> bool) (ts : list tensor) (base t : tensor) : R :=
  let total := rsum (map (energy sel base) ts) in
  if Rlt_dec total (/ 10 ^ 6) then 1 / INR (length ts) else energy sel base t / total.
(** the models whose change at [i] has the sign of the sum of all changes *)
Definition followers (ts : list tensor) (base : tensor) (i : nat) : list tensor :=
  filter (fun t => agrees (elected CSum (map (delta base i) ts)) (delta base i t)) ts.
Definition sce_value (sel : nat -> bool) (ts : list tensor) (base : tensor) (i : nat) : R :=
  if sel i then
    nth i (dat base) 0 +
    rsum (map (fun t => share sel ts base t * delta base i t) (followers ts base i)) / Rmax (rsum (map (share sel ts base) (followers ts base i))) (/ 10 ^ 6)
  else nth i (dat base) 0.

(** ** Lemmas *)
Lemma mean_map {A} (f : A -> R) l : mean (map f l) = rsum (map f l) / INR (length l).
Proof. unfold mean. rewrite map_length. reflexivity. Qed.
Lemma squares_energy kept ts base :
  map (fun j => mean (map (fun i => let d := nth j (if kept i : bool then column ts base i else map (fun _ => 0) ts) 0 in d * d) (positions base))) (seq 0 (length ts)) =
  map (energy kept base) ts.
Proof.
  assert (H : forall l : list tensor, map (fun j => energy kept base (nth j l base)) (seq 0 (length l)) = map (energy kept base) l).
  { induction l as [|x l IH]; [reflexivity|]. cbn [length seq map]. rewrite <- seq_shift, map_map. f_equal. exact IH. }
  rewrite <- (H ts). apply map_ext_in. intros j Hj. apply in_seq in Hj. unfold energy, positions. f_equal. apply map_ext. intros i. unfold column. destruct (kept i).
  - rewrite (map_nth_in (fun t => ent t i - ent base i) ts j base 0) by lia. reflexivity.
  - rewrite (map_nth_in (fun _ : tensor => 0) ts j base 0) by lia. ring.
Qed.
Lemma energy_nonneg sel base t : 0 <= energy sel base t.
Proof.
  unfold energy. rewrite mean_map. unfold Rdiv; apply Rmult_le_pos.
  - apply rsum_nonneg. intros x Hx. apply in_map_iff in Hx as (i & <- & _). destruct (sel i); nra.
  - destruct (length (seq 0 (length (dat base)))) as [|n]; [cbn; rewrite Rinv_0; lra|]. left. apply Rinv_0_lt_compat. apply lt_0_INR. lia.
Qed.
Lemma total_nonneg sel base ts : 0 <= rsum (map (energy sel base) ts).
Proof. apply rsum_nonneg. intros x Hx. apply in_map_iff in Hx as (t & <- & _). apply energy_nonneg. Qed.
Lemma weight_share sel ts base : sce_weight (map (energy sel base) ts) = map (share sel ts base) ts.
Proof.
  unfold sce_weight, share. rewrite Rabs_pos_eq by apply total_nonneg. destruct (Rlt_dec _ _); rewrite map_map; [|reflexivity].
  apply map_ext. intros. rewrite map_length. unfold Rdiv. ring.
Qed.
Lemma share_nonneg sel ts base t : 0 <= share sel ts base t.
Proof.
  unfold share. destruct (Rlt_dec _ _) as [H|H].
  - unfold Rdiv. apply Rmult_le_pos; [lra|]. destruct (length ts) as [|n]; [cbn; rewrite Rinv_0; lra|]. left. apply Rinv_0_lt_compat, lt_0_INR. lia.
  - unfold Rdiv. apply Rmult_le_pos; [apply energy_nonneg|]. left. apply Rinv_0_lt_compat. assert (0 < / 10 ^ 6) by (apply Rinv_0_lt_compat; lra). lra.
Qed.
Lemma share_total sel ts base : ts <> [] -> rsum (map (share sel ts base) ts) = 1.
Proof.
  intros Hne. unfold share. destruct (Rlt_dec _ _) as [H|H].
  - rewrite rsum_const. field. apply not_0_INR. destruct ts; [congruence|discriminate].
  - transitivity (rsum (map (fun t => / rsum (map (energy sel base) ts) * energy sel base t) ts)); [apply rsum_ext; intros; unfold Rdiv; ring|].
    rewrite rsum_mul. field. assert (0 < / 10 ^ 6) by (apply Rinv_0_lt_compat; lra). lra.
Qed.
Lemma sce_position_spec (w d : tensor -> R) ts :
  sce_position (map w ts) (map d ts) =
  let fs := filter (fun t => agrees (elected CSum (map d ts)) (d t)) ts in
  rsum (map (fun t => w t * d t) fs) / Rmax (rsum (map w fs)) (/ 10 ^ 6).
Proof.
  unfold sce_position, get_mask. rewrite map_map, !map2_map. rewrite <- !rsum_filter. rewrite majority_elected. f_equal.
  - apply rsum_ext. intros t _. rewrite agrees_sign. destruct (agrees _ _); ring.
  - f_equal. apply rsum_ext. intros t _. rewrite agrees_sign. destruct (agrees _ _); ring.
Qed.
Lemma sce_merge_value kept ts base : sce_merge ts base kept =
  {| shp := shp base; dat := map (sce_value kept ts base) (seq 0 (length (dat base))) |}.
Proof.
  unfold sce_merge. rewrite squares_energy, weight_share. f_equal. apply map_ext. intros i. unfold sce_value. destruct (kept i).
  - unfold column. rewrite (sce_position_spec (share kept ts base) (fun t => ent t i - ent base i)). reflexivity.
  - rewrite (sce_position_spec (share kept ts base) (fun _ => 0)). cbv zeta. rewrite (filter_ext _ (fun _ => false)).
    + assert (Hf : forall l : list tensor, filter (fun _ => false) l = []) by (induction l; auto). rewrite Hf. cbn. unfold ent, Rdiv. ring.
    + intros t. unfold agrees. rewrite Rmult_0_r. destruct (Rlt_dec 0 0); [lra|reflexivity].
Qed.

Lemma variance_spread ts base i : ts <> [] -> variance (column ts base i) = spread ts i.
Proof.
  intros Hne. unfold variance, spread, column. rewrite !mean_map, !map_map, !map_length. f_equal.
  assert (Hn : INR (length ts) <> 0) by (apply not_0_INR; destruct ts; [congruence|discriminate]).
  apply rsum_ext. intros t _.
  assert (E : rsum (map (fun t => ent t i - ent base i) ts) = rsum (map (fun t => nth i (dat t) 0) ts) - INR (length ts) * ent base i).
  { clear. induction ts as [|x ts IH]; [cbn; ring|]. cbn [map length]. rewrite !rsum_cons, IH, S_INR. unfold ent. ring. }
  rewrite E. unfold ent. f_equal; field; exact Hn.
Qed.
Lemma rsum_zero_inv l : (forall x, In x l -> 0 <= x) -> rsum l = 0 -> forall x, In x l -> x = 0.
Proof.
  induction l as [|a l IH]; intros Hp Hs x []; rewrite rsum_cons in Hs; assert (0 <= a) by (apply Hp; now left);
    assert (0 <= rsum l) by (apply rsum_nonneg; intros; apply Hp; now right); [subst; lra|]. apply IH; [intros; apply Hp; now right|lra|assumption].
Qed.
Lemma spread_zero ts i : ts <> [] -> (spread ts i = 0 <-> contested ts i = false).
Proof.
  intros Hne. assert (Hn : INR (length ts) <> 0) by (apply not_0_INR; destruct ts; [congruence|discriminate]).
  assert (Hi : / INR (length ts) <> 0) by (apply Rinv_neq_0_compat; exact Hn). destruct ts as [|t0 ts]; [congruence|]. set (l := t0 :: ts) in *.
  change (contested l i) with (existsb (fun t => if Req_EM_T (nth i (dat t) 0) (nth i (dat t0) 0) then false else true) l).
  unfold spread. set (m := mean (map (fun t => nth i (dat t) 0) l)). rewrite mean_map. split.
  - intros Hz. unfold Rdiv in Hz. apply Rmult_integral in Hz as [Hz|Hz]; [|contradiction].
    assert (H : forall t, In t l -> nth i (dat t) 0 = m).
    { intros t Ht. assert ((nth i (dat t) 0 - m) * (nth i (dat t) 0 - m) = 0).
      { refine (rsum_zero_inv _ _ Hz _ _); [intros x Hx; apply in_map_iff in Hx as (? & <- & _); apply Rle_0_sqr|]. apply in_map_iff. eauto. }
      nra. }
    apply not_true_is_false. intros Hex. apply existsb_exists in Hex as (t & Ht & Hd). rewrite (H t Ht), (H t0 (or_introl eq_refl)) in Hd. destruct (Req_EM_T m m); [discriminate|congruence].
  - intros Hc. assert (H : forall t, In t l -> nth i (dat t) 0 = nth i (dat t0) 0).
    { intros t Ht. destruct (Req_EM_T (nth i (dat t) 0) (nth i (dat t0) 0)) as [e|e] eqn:E; [exact e|]. exfalso. rewrite <- not_true_iff_false in Hc. apply Hc. apply existsb_exists. exists t. rewrite E. auto. }
    assert (Em : m = nth i (dat t0) 0).
    { unfold m. rewrite mean_map. rewrite (rsum_ext _ (fun _ => nth i (dat t0) 0)) by exact H. rewrite rsum_const. field. exact Hn. }
    rewrite (rsum_ext _ (fun _ => 0)); [rewrite rsum_const; unfold Rdiv; ring|]. intros t Ht. rewrite (H t Ht), Em. ring.
Qed.
Definition contested_at (ts : list tensor) (base : tensor) : list nat := filter (contested ts) (seq 0 (length (dat base))).
Lemma variances_spread ts base : ts <> [] -> variances ts base = map (spread ts) (seq 0 (length (dat base))).
Proof. intros Hne. unfold variances, positions. apply map_ext. intros i. now apply variance_spread. Qed.
Lemma filter_map_len {A B} (f : A -> B) p l : length (filter p (map f l)) = length (filter (fun x => p (f x)) l).
Proof. induction l as [|x l IH]; [reflexivity|]. cbn [map filter]. destruct (p (f x)); cbn [length]; congruence. Qed.
Lemma sce_k_contested ts base density : ts <> [] -> sce_k density (variances ts base) = trunc (INR (length (contested_at ts base)) * density).
Proof.
  intros Hne. unfold sce_k, contested_at. rewrite (variances_spread _ _ Hne), filter_map_len. do 3 f_equal. f_equal. apply filter_ext. intros i.
  destruct (Req_EM_T (spread ts i) 0) as [e|n].
  - symmetry. now apply spread_zero.
  - symmetry. apply not_false_is_true. intros E. apply n. now apply spread_zero.
Qed.
Lemma trunc_range m density : 0 < density < 1 -> (0 <= trunc (INR m * density) <= Z.of_nat m)%Z.
Proof.
  intros Hd. unfold trunc. pose proof (pos_INR m) as Hm. rewrite Ztrunc_floor by nra. split.
  - apply Zfloor_lub. cbn. nra.
  - apply le_IZR. eapply Rle_trans; [apply Zfloor_lb|]. rewrite <- INR_IZR_INZ. nra.
Qed.

(** ** The theorems *)
(** With select_topk at least 1 every position is merged. *)
Theorem C57_all topk ts base density : compatible ts base -> 1 <= density ->
  exists out, sce topk ts base density = Ok out /\ shp out = shp base /\ length (dat out) = length (dat base) /\
    forall i, (i < length (dat base))%nat -> nth i (dat out) 0 = sce_value (fun _ => true) ts base i.
Proof.
  intros [Hne Hs] Hd. exists (sce_merge ts base (fun _ => true)). split.
  - unfold sce. rewrite (proj2 (same_shapes_iff ts base) Hs). destruct (Rlt_dec density 1); [lra|]. destruct ts; [congruence|reflexivity].
  - rewrite sce_merge_value. cbn [shp dat]. rewrite map_length, seq_length. repeat split. intros i Hi. now rewrite nth_map_seq.
Qed.

(** Below 1, exactly int(contested * select_topk) positions are merged: ones where the models differ, of the largest
    spread. All other positions keep the base's value. *)
Theorem C57_selected topk ts base density : takes_largest topk -> compatible ts base -> 0 < density < 1 ->
  let k := trunc (INR (length (contested_at ts base)) * density) in k <> 0%Z ->
  exists out sel, sce topk ts base density = Ok out /\ shp out = shp base /\ length (dat out) = length (dat base) /\
    Z.of_nat (length sel) = k /\ NoDup sel /\ incl sel (contested_at ts base) /\
    (forall i j, In i sel -> (j < length (dat base))%nat -> ~ In j sel -> spread ts j <= spread ts i) /\
    forall i, (i < length (dat base))%nat -> nth i (dat out) 0 = sce_value (fun i => existsb (Nat.eqb i) sel) ts base i.
Proof.
  intros Ht [Hne Hs] Hd k Hk. pose proof (trunc_range (length (contested_at ts base)) density Hd) as Hr. fold k in Hr.
  set (vars := variances ts base). set (sel := topk vars (Z.to_nat k)).
  assert (Hlen : length vars = length (dat base)) by (unfold vars, variances, positions; rewrite map_length, seq_length; reflexivity).
  assert (Hcl : (length (contested_at ts base) <= length (dat base))%nat).
  { unfold contested_at. rewrite <- (seq_length (length (dat base)) 0) at 2. generalize (seq 0 (length (dat base))). induction l; cbn; [lia|]. destruct (contested ts a); cbn; lia. }
  destruct (Ht vars (Z.to_nat k)) as (T1 & T2 & T3 & T4); [lia|]. fold sel in T1, T2, T3, T4. rewrite Hlen in T3, T4.
  assert (Hv : forall j, (j < length (dat base))%nat -> nth j vars 0 = spread ts j).
  { intros j Hj. unfold vars. rewrite (variances_spread _ _ Hne). now rewrite nth_map_seq. }
  assert (Hpos : forall j, 0 <= spread ts j).
  { intros j. unfold spread. rewrite mean_map. unfold Rdiv. apply Rmult_le_pos.
    - apply rsum_nonneg. intros x Hx. apply in_map_iff in Hx as (? & <- & _). apply Rle_0_sqr.
    - left. apply Rinv_0_lt_compat, lt_0_INR. destruct ts; [congruence|cbn; lia]. }
  exists (sce_merge ts base (fun i => existsb (Nat.eqb i) sel)), sel. split.
  { unfold sce. rewrite (proj2 (same_shapes_iff ts base) Hs). rewrite (sce_k_contested _ _ _ Hne). fold vars k. destruct (Rlt_dec density 1); [|lra]. destruct (Rle_dec density 0); [lra|].
    destruct (Z.eqb_spec k 0); [contradiction|]. cbv zeta. fold sel. destruct ts; [congruence|reflexivity]. }
  rewrite sce_merge_value. cbn [shp dat]. rewrite map_length, seq_length. do 2 (split; [reflexivity|]). split; [rewrite T1; lia|]. split; [exact T2|]. split; [|split].
  - intros i Hi. unfold contested_at. apply filter_In. split; [apply in_seq; specialize (T3 i Hi); lia|].
    apply not_false_is_true. intros Hc. apply (spread_zero _ _ Hne) in Hc.
    assert (Hincl : incl (contested_at ts base) (remove Nat.eq_dec i sel)).
    { intros j Hj. unfold contested_at in Hj. apply filter_In in Hj as [Hj1 Hj2]. apply in_seq in Hj1.
      assert (Hjs : spread ts j <> 0) by (intros E; apply (spread_zero _ _ Hne) in E; congruence).
      apply in_in_remove; [intros ->; contradiction|]. destruct (in_dec Nat.eq_dec j sel) as [|Hn]; [assumption|].
      specialize (T4 i j Hi ltac:(lia) Hn). rewrite (Hv j) in T4 by lia. rewrite (Hv i (T3 i Hi)) in T4. specialize (Hpos j). lra. }
    apply NoDup_incl_length in Hincl; [|unfold contested_at; apply NoDup_filter, seq_NoDup].
    pose proof (remove_length_lt Nat.eq_dec sel i Hi). lia.
  - intros i j Hi Hj Hn. rewrite <- !Hv by auto. now apply T4.
  - intros i Hi. now rewrite nth_map_seq.
Qed.

(** A merged value moves in the elected direction, by no more than the largest change. *)
Lemma followers_bound sel ts base i M : ts <> [] -> (forall t, In t ts -> Rabs (delta base i t) <= M) ->
  0 <= elected CSum (map (delta base i) ts) * (sce_value sel ts base i - nth i (dat base) 0) <= M.
Proof.
  intros Hne HM. assert (HM0 : 0 <= M). { destruct ts as [|t ts]; [congruence|]. eapply Rle_trans; [apply Rabs_pos|apply (HM t); now left]. }
  unfold sce_value. destruct (sel i); [|rewrite Rminus_diag_eq by reflexivity; lra]. set (s := elected CSum (map (delta base i) ts)). set (fs := followers ts base i). set (w := share sel ts base).
  assert (He : 0 < / 10 ^ 6) by (apply Rinv_0_lt_compat; lra). set (W := Rmax (rsum (map w fs)) (/ 10 ^ 6)).
  assert (HW : 0 < W) by (unfold W; eapply Rlt_le_trans; [exact He|apply Rmax_r]).
  replace (s * (nth i (dat base) 0 + rsum (map (fun t => w t * delta base i t) fs) / W - nth i (dat base) 0)) with (rsum (map (fun t => w t * (s * delta base i t)) fs) / W).
  2:{ rewrite (rsum_ext (fun t => w t * (s * delta base i t)) (fun t => s * (w t * delta base i t)) fs) by (intros; ring). rewrite (rsum_mul s (fun t => w t * delta base i t)). unfold Rdiv. ring. }
  assert (Hfs : forall t, In t fs -> In t ts /\ 0 < s * delta base i t <= M).
  { intros t Ht. apply filter_In in Ht as [Ht1 Ht2]. fold s in Ht2. split; [exact Ht1|]. unfold agrees in Ht2. destruct (Rlt_dec 0 (s * delta base i t)) as [H|]; [|discriminate]. split; [exact H|].
    specialize (HM t Ht1). destruct (elected_cases CSum (map (delta base i) ts)) as [E|E]; fold s in E; rewrite E in *; [pose proof (Rle_abs (delta base i t))|pose proof (Rle_abs (- delta base i t)) as H2; rewrite Rabs_Ropp in H2]; lra. }
  split.
  - unfold Rdiv. apply Rmult_le_pos; [|left; now apply Rinv_0_lt_compat]. apply rsum_nonneg. intros x Hx. apply in_map_iff in Hx as (t & <- & Ht). apply Rmult_le_pos; [apply share_nonneg|]. left. now apply Hfs.
  - apply (Rmult_le_reg_r W); [exact HW|]. unfold Rdiv. rewrite Rmult_assoc, Rinv_l, Rmult_1_r by lra. eapply Rle_trans.
    + apply (rsum_le _ (fun t => M * w t)). intros t Ht. pose proof (share_nonneg sel ts base t). fold w in H. destruct (Hfs t Ht) as [_ [_ H']]. nra.
    + rewrite (rsum_mul M w). apply Rmult_le_compat_l; [exact HM0|apply Rmax_l].
Qed.
Theorem C57_bound topk ts base density out i M : takes_largest topk -> compatible ts base -> shp out = shp base ->
  sce topk ts base density = Ok out -> (i < length (dat base))%nat -> (forall t, In t ts -> Rabs (delta base i t) <= M) ->
  0 <= elected CSum (map (delta base i) ts) * (nth i (dat out) 0 - nth i (dat base) 0) <= M.
Proof.
  intros Ht Hc Hsh E Hi HM. destruct Hc as [Hne Hs]. unfold sce in E. rewrite (proj2 (same_shapes_iff ts base) Hs) in E.
  assert (H : exists sel, out = sce_merge ts base sel).
  { destruct ts as [|t0 ts]; [congruence|]. destruct (Rlt_dec density 1); [|injection E as E; eexists; symmetry; exact E]. cbv zeta in E.
    destruct (if Rle_dec density 0 then true else _); [|injection E as E; eexists; symmetry; exact E]. exfalso. assert (E' : length (t0 :: ts) :: shp base = shp out) by (injection E as <-; reflexivity). rewrite Hsh in E'.
    apply (f_equal (@length nat)) in E'. cbn in E'. lia. }
  destruct H as [sel ->]. rewrite sce_merge_value. cbn [dat]. rewrite nth_map_seq by exact Hi. now apply followers_bound.
Qed.

(** Copies of one model give that model. *)
Theorem C57_same topk t base density n out : 1 <= density -> (0 < n)%nat -> shp t = shp base -> length (dat t) = length (dat base) ->
  sce topk (repeat t n) base density = Ok out -> out = t.
Proof.
  intros Hd Hn Hs Hl E. assert (Hc : compatible (repeat t n) base) by (split; [destruct n; [lia|discriminate]|intros x Hx; apply repeat_spec in Hx; now subst]).
  destruct (C57_all topk _ _ density Hc Hd) as (o & E' & S & L & V). assert (o = out) by congruence. subst o. destruct out as [s d], t as [st dt]. cbn [shp dat] in *. subst. f_equal.
  apply nth_ext_R; [congruence|]. intros i Hi. rewrite V by congruence. unfold sce_value. set (t := {| shp := shp base; dat := dt |}) in *. set (x := delta base i t).
  assert (Hall : forall u, In u (repeat t n) -> u = t) by (intros u Hu; now apply repeat_spec in Hu).
  assert (Hsum : rsum (map (delta base i) (repeat t n)) = INR n * x).
  { rewrite (rsum_ext _ (fun _ => x)) by (intros u Hu; now rewrite (Hall u Hu)). rewrite rsum_const, repeat_length. reflexivity. }
  assert (HN : 0 < INR n) by (apply lt_0_INR; lia).
  assert (Hx : nth i dt 0 = nth i (dat base) 0 + x) by (unfold x, delta, t; cbn [dat]; ring). rewrite Hx. f_equal.
  destruct (Req_dec x 0) as [Hz|Hnz].
  - rewrite (rsum_ext _ (fun _ => 0)); [rewrite rsum_const, Hz; unfold Rdiv; ring|]. intros u Hu. unfold followers in Hu. apply filter_In in Hu as [Hu _]. rewrite (Hall u Hu). fold x. rewrite Hz. ring.
  - assert (Hf : followers (repeat t n) base i = repeat t n).
    { unfold followers, elected. rewrite Hsum. assert (Ha : agrees (if Rle_dec 0 (INR n * x) then 1 else -1) (delta base i t) = true).
      { fold x. unfold agrees. destruct (Rle_dec 0 (INR n * x)); destruct (Rlt_dec _ _); try reflexivity; exfalso; nra. }
      revert Ha. generalize (if Rle_dec 0 (INR n * x) then 1 else -1). intros r Ha. clear -Ha. induction n; cbn [repeat filter]; [reflexivity|]. rewrite Ha. now f_equal. }
    rewrite Hf. rewrite (rsum_ext _ (fun u => x * share (fun _ => true) (repeat t n) base u)) by (intros u Hu; rewrite (Hall u Hu); unfold x; ring).
    rewrite (rsum_mul x (share (fun _ => true) (repeat t n) base)), (share_total _ _ _ (proj1 Hc)). rewrite Rmax_left; [unfold Rdiv; rewrite Rinv_1; ring|].
    assert (1 <= 10 ^ 6) by lra. rewrite <- Rinv_1. apply Rinv_le_contravar; lra.
Qed.

(** The order of the models does not matter. *)
Lemma mean_perm l m : Permutation l m -> mean l = mean m.
Proof. intros Hp. unfold mean. rewrite (rsum_Permutation _ _ Hp), (Permutation_length Hp). reflexivity. Qed.
Lemma filter_perm {A} (p : A -> bool) l m : Permutation l m -> Permutation (filter p l) (filter p m).
Proof. induction 1; cbn [filter]; [constructor|destruct (p x); [constructor|]; assumption| |etransitivity; eassumption]. destruct (p y), (p x); try reflexivity. apply perm_swap. Qed.
Lemma elected_perm l m : Permutation l m -> elected CSum l = elected CSum m.
Proof. intros Hp. unfold elected. now rewrite (rsum_Permutation _ _ Hp). Qed.
Lemma share_perm sel ts ts' base t : Permutation ts ts' -> share sel ts base t = share sel ts' base t.
Proof. intros Hp. unfold share. rewrite (rsum_Permutation _ _ (Permutation_map (energy sel base) Hp)), (Permutation_length Hp). reflexivity. Qed.
Lemma sce_value_perm sel ts ts' base i : Permutation ts ts' -> sce_value sel ts base i = sce_value sel ts' base i.
Proof.
  intros Hp. unfold sce_value, followers. rewrite <- (elected_perm _ _ (Permutation_map (delta base i) Hp)). set (p := fun t => agrees _ _). pose proof (filter_perm p _ _ Hp) as Hf.
  destruct (sel i); [|reflexivity]. apply Rplus_eq_compat_l. unfold Rdiv. f_equal; [|apply f_equal].
  - rewrite (rsum_ext _ (fun t => share sel ts' base t * delta base i t)) by (intros; now rewrite (share_perm sel _ _ base x Hp)). apply rsum_Permutation. now apply Permutation_map.
  - f_equal. rewrite (rsum_ext (share sel ts base) (share sel ts' base)) by (intros; now apply share_perm). apply rsum_Permutation. now apply Permutation_map.
Qed.
Theorem C57_order topk ts ts' base density : Permutation ts ts' -> sce topk ts base density = sce topk ts' base density.
Proof.
  intros Hp. destruct ts as [|t ts]; [apply Permutation_nil in Hp; now subst|]. destruct ts' as [|t' ts']; [apply Permutation_sym, Permutation_nil in Hp; discriminate|].
  set (l := t :: ts) in *. set (l' := t' :: ts') in *.
  assert (Hss : same_shapes l base = same_shapes l' base).
  { apply eq_true_iff_eq. rewrite !same_shapes_iff. split; intros H x Hx; apply H; [apply (Permutation_in x (Permutation_sym Hp) Hx)|apply (Permutation_in x Hp Hx)]. }
  assert (Hv : variances l base = variances l' base).
  { unfold variances. apply map_ext. intros i. unfold variance, column. pose proof (Permutation_map (fun t => ent t i - ent base i) Hp) as Hc. rewrite (mean_perm _ _ Hc). apply mean_perm. now apply Permutation_map. }
  assert (Hm : forall sel, sce_merge l base sel = sce_merge l' base sel).
  { intros sel. rewrite !sce_merge_value. f_equal. apply map_ext. intros i. now apply sce_value_perm. }
  assert (Hd : forall m m' : list tensor, length m = length m' -> concat (map (fun _ => dat base) m) = concat (map (fun _ => dat base) m')).
  { induction m as [|a m IH]; intros [|b m'] H; try discriminate; [reflexivity|]. cbn [map concat]. f_equal. apply IH. now injection H. }
  unfold sce. fold l l'. change (match l with [] => Ok base | _ => ?x end) with x. unfold l at 1, l' at 1. fold l l'. rewrite <- Hss, <- Hv, (Permutation_length Hp), (Hd l l' (Permutation_length Hp)).
  destruct (same_shapes l base); [|reflexivity]. destruct (Rlt_dec density 1); [|now rewrite Hm]. cbv zeta. destruct (if Rle_dec density 0 then true else _); [reflexivity|]. rewrite Hm. reflexivity.
Qed.

(** Where all models agree, a select_topk below 1 discards their common change, whatever it is. *)
Theorem C57_unanimous topk ts base density out i : takes_largest topk -> compatible ts base -> 0 < density < 1 -> shp out = shp base ->
  sce topk ts base density = Ok out -> (i < length (dat base))%nat -> contested ts i = false -> nth i (dat out) 0 = nth i (dat base) 0.
Proof.
  intros Ht Hc Hd Hsh E Hi Hn. destruct (Z.eq_dec (trunc (INR (length (contested_at ts base)) * density)) 0) as [Hk|Hk].
  - exfalso. destruct Hc as [Hne Hs]. unfold sce in E. rewrite (proj2 (same_shapes_iff ts base) Hs) in E. destruct ts as [|t0 ts]; [congruence|]. destruct (Rlt_dec density 1); [|lra]. cbv zeta in E.
    rewrite (sce_k_contested _ _ _ Hne), Hk in E. destruct (Rle_dec density 0); [lra|]. cbn [Z.eqb] in E.
    assert (E' : length (t0 :: ts) :: shp base = shp out) by (injection E as <-; reflexivity). rewrite Hsh in E'. apply (f_equal (@length nat)) in E'. cbn in E'. lia.
  - destruct (C57_selected topk ts base density Ht Hc Hd Hk) as (o & sel & E' & _ & _ & _ & _ & Hsel & _ & V). assert (o = out) by congruence. subst o. rewrite V by exact Hi.
    unfold sce_value. destruct (existsb (Nat.eqb i) sel) eqn:Ex; [|reflexivity]. apply existsb_exists in Ex as (j & Hj & Ej). apply Nat.eqb_eq in Ej. subst j. apply Hsel in Hj. apply filter_In in Hj as [_ Hj]. congruence.
Qed.

(** When no position is selected (select_topk at most 0, or too few positions where the models differ: always so with one
    model) the result is not the base: it is the base repeated once per model, of the wrong shape. *)
Theorem C57_shape_refuted topk ts base density : compatible ts base -> density < 1 ->
  (density <= 0 \/ trunc (INR (length (contested_at ts base)) * density) = 0%Z) ->
  exists out, sce topk ts base density = Ok out /\ shp out = length ts :: shp base /\ dat out = concat (map (fun _ => dat base) ts).
Proof.
  intros [Hne Hs] Hd Hk. exists {| shp := length ts :: shp base; dat := concat (map (fun _ => dat base) ts) |}. split.
  - unfold sce. rewrite (proj2 (same_shapes_iff ts base) Hs). destruct ts as [|t0 ts]; [congruence|]. destruct (Rlt_dec density 1); [|lra]. cbv zeta. rewrite (sce_k_contested _ _ _ Hne).
    destruct (Rle_dec density 0); [reflexivity|]. destruct Hk as [Hk|Hk]; [lra|]. rewrite Hk. reflexivity.
  - split; reflexivity.
Qed.
Corollary C57_single_refuted topk t base density : shp t = shp base -> density < 1 ->
  exists out, sce topk [t] base density = Ok out /\ shp out = 1%nat :: shp base.
Proof.
  intros Hs Hd. destruct (C57_shape_refuted topk [t] base density) as (out & E & S & _); [split; [discriminate|intros ? [<-|[]]; exact Hs]|exact Hd| |eauto].
  right. assert (E : contested_at [t] base = []).
  { unfold contested_at, contested. cbn [existsb]. induction (seq 0 (length (dat base))) as [|i l IH]; [reflexivity|]. cbn [filter]. destruct (Req_EM_T _ _); [exact IH|congruence]. }
  rewrite E. cbn [length INR]. rewrite Rmult_0_l. unfold trunc. now rewrite Ztrunc_IZR.
Qed.

(** ** Examples: four positions, the models differ at two of them; select_topk 1/2 keeps the one with the larger spread *)
Example C57_nonvacuous :
  let base := vec [0; 0; 0; 0] in let a := vec [4; 1; 3; 0] in let b := vec [2; 1; -1; 0] in
  let topk := fun l k => sort_topk (map Ropp l) k in
  takes_largest topk /\ compatible [a; b] base /\
  trunc (INR (length (contested_at [a; b] base)) * (1 / 2)) = 1%Z /\
  exists out, sce topk [a; b] base (1 / 2) = Ok out /\ nth 0 (dat out) 0 = 0 /\ nth 1 (dat out) 0 = 0 /\ nth 2 (dat out) 0 = 3 /\ nth 3 (dat out) 0 = 0.
Proof.
  set (base := vec [0; 0; 0; 0]). set (a := vec [4; 1; 3; 0]). set (b := vec [2; 1; -1; 0]). set (topk := fun l k => sort_topk (map Ropp l) k). cbv zeta.
  assert (Ht : takes_largest topk).
  { intros l k Hk. unfold topk. destruct (sort_is_topk (map Ropp l) k) as (T1 & T2 & T3 & T4); [rewrite map_length; exact Hk|]. rewrite map_length in T3, T4. repeat split; auto.
    intros i j Hi Hj Hn. specialize (T4 i j Hi Hj Hn). rewrite !(map_nth_in Ropp l _ 0 0) in T4 by auto. lra. }
  assert (Hc : compatible [a; b] base) by (split; [discriminate|intros t [<-|[<-|[]]]; reflexivity]).
  assert (C : contested_at [a; b] base = [0%nat; 2%nat]).
  { unfold contested_at, contested, a, b, vec. cbn [dat base vec length seq filter existsb nth].
    repeat match goal with |- context[Req_EM_T ?x ?y] => destruct (Req_EM_T x y); try (exfalso; lra) end; reflexivity. }
  assert (K : trunc (INR (length (contested_at [a; b] base)) * (1 / 2)) = 1%Z).
  { rewrite C. cbn [length INR]. replace ((1 + 1) * (1 / 2)) with (IZR 1) by (cbn; lra). unfold trunc. apply Ztrunc_IZR. }
  split; [exact Ht|]. split; [exact Hc|]. split; [exact K|].
  destruct (C57_selected topk [a; b] base (1 / 2) Ht Hc ltac:(lra)) as (out & sel & E & _ & _ & L & Hn & Hin & Hmax & V); [rewrite K; discriminate|].
  rewrite K in L. destruct sel as [|x [|y sel]]; cbn [length] in L; try lia. clear L.
  assert (S0 : spread [a; b] 0 = 1) by (unfold spread, mean; cbn; lra). assert (S2 : spread [a; b] 2 = 4) by (unfold spread, mean; cbn; lra).
  assert (x = 2%nat).
  { assert (Hx : In x [0%nat; 2%nat]) by (rewrite <- C; apply Hin; now left). destruct Hx as [<-|[<-|[]]]; [|reflexivity]. exfalso.
    specialize (Hmax 0%nat 2%nat (or_introl eq_refl) ltac:(cbn; lia) ltac:(intros [H|[]]; discriminate)). lra. }
  subst x. exists out. split; [exact E|]. rewrite !V by (cbn; lia). unfold sce_value. cbn [existsb Nat.eqb orb]. repeat split.
  set (sel := fun i : nat => ((i =? 2)%nat || false)%bool). unfold followers, elected. cbn [map].
  assert (D1 : delta base 2 a = 3) by (unfold delta; cbn; lra). assert (D2 : delta base 2 b = -1) by (unfold delta; cbn; lra). rewrite D1, D2.
  destruct (Rle_dec 0 (rsum [3; -1])) as [_|n]; [|contradiction n; cbn; lra]. cbn [filter]. rewrite D1, D2. unfold agrees.
  destruct (Rlt_dec 0 (1 * 3)) as [_|n]; [|contradiction n; lra]. destruct (Rlt_dec 0 (1 * -1)) as [n|_]; [lra|]. cbn [map]. rewrite D1.
  assert (Ea : energy sel base a = 9 / 4) by (unfold energy, sel, mean, delta; cbn; lra). assert (Eb : energy sel base b = 1 / 4) by (unfold energy, sel, mean, delta; cbn; lra).
  assert (Sh : share sel [a; b] base a = 9 / 10).
  { unfold share. cbn [map]. rewrite Ea, Eb. unfold rsum. cbn [fold_right]. destruct (Rlt_dec _ _) as [n|_]; [|lra]. assert (/ 10 ^ 6 <= 1) by (rewrite <- Rinv_1; apply Rinv_le_contravar; lra). lra. }
  rewrite Sh. unfold rsum. cbn [fold_right]. rewrite Rmax_left; [unfold base; cbn; lra|]. assert (/ 10 ^ 6 <= / 10) by (apply Rinv_le_contravar; lra). lra.
Qed.

Print Assumptions C57_selected.
Print Assumptions C57_bound.
