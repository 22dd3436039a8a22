(** Proofs about sparsification. *)
From Coq Require Import Reals Lra Psatz ZArith Permutation.
From Flocq Require Import Core.
From Verif.Base Require Import Py PyFacts RList.
From Verif.Sparsify Require Import Model Spec FloatProofs.
Local Open Scope list_scope.
Local Open Scope R_scope.

(** ** masks and rescaling *)
Lemma mask_at_length n idx : length (mask_at n idx) = n.
Proof. unfold mask_at. now rewrite map_length, seq_length. Qed.
Lemma mask_at_nth n idx i : (i < n)%nat -> (In i idx -> nth i (mask_at n idx) 0 = 1) /\ (~ In i idx -> nth i (mask_at n idx) 0 = 0).
Proof.
  intros Hi. unfold mask_at. rewrite (map_nth_in _ _ _ 0%nat) by (now rewrite seq_length). rewrite seq_nth by auto. cbn [Nat.add].
  assert (E : existsb (Nat.eqb i) idx = true <-> In i idx).
  { rewrite existsb_exists. split; [intros (x & Hx & E); apply Nat.eqb_eq in E; now subst|]. intros H. exists i. split; [auto|apply Nat.eqb_refl]. }
  destruct (existsb (Nat.eqb i) idx); split; intros H; try reflexivity; exfalso; [apply H; now apply E|].
  apply E in H. discriminate.
Qed.

Definition normf (n : rescale_norm) (x : list R) : R := match n with L1 => norm1 x | L2 => norm2 x | Linf => normi x end.
Lemma scale_of_Ok n x s : scale_of n x = Ok s -> s = normf n x.
Proof. destruct n; cbn; try congruence. destruct x; congruence. Qed.
Lemma normf_scale n c x : normf n (vscale c x) = Rabs c * normf n x.
Proof. destruct n; [apply norm1_scale|apply norm2_scale|apply normi_scale]. Qed.
Lemma eps_pos : 0 < eps.
Proof. unfold eps. lra. Qed.

Lemma rescaled_masked_Ok x m norm y : rescaled_masked x m norm = Ok y ->
  exists s, 0 < s /\ y = vscale s (vmul x m) /\
    match norm with
    | None => s = 1
    | Some n => (eps <= normf n x -> eps <= normf n (vmul x m) -> s = normf n x / normf n (vmul x m)) /\
                (normf n x < eps \/ normf n (vmul x m) < eps -> s = 1)
    end.
Proof.
  assert (H1 : forall v, v = vscale 1 v).
  { intros v. unfold vscale. rewrite <- (map_id v) at 1. apply map_ext. intros; lra. }
  unfold rescaled_masked. destruct norm as [n|].
  - intros E. destruct (scale_of n x) as [b|] eqn:Eb; [|discriminate]. destruct (scale_of n (vmul x m)) as [a|] eqn:Ea; [|discriminate].
    cbn [rbind] in E. apply scale_of_Ok in Eb, Ea. subst a b. pose proof eps_pos.
    destruct (Rlt_dec (normf n x) eps) as [Hb|Hb]; [|destruct (Rlt_dec (normf n (vmul x m)) eps) as [Ha|Ha]].
    + injection E as <-. exists 1. split; [lra|]. split; [apply H1|]. split; [lra|reflexivity].
    + injection E as <-. exists 1. split; [lra|]. split; [apply H1|]. split; [lra|reflexivity].
    + injection E as <-. exists (normf n x / normf n (vmul x m)).
      split; [apply Rdiv_lt_0_compat; lra|]. split; [unfold vscale; apply map_ext; intros; apply Rmult_comm|]. split; [reflexivity|lra].
  - intros [= <-]. exists 1. split; [lra|]. auto.
Qed.

Lemma select_mask x idx s y : NoDup idx -> (forall i, In i idx -> (i < length x)%nat) ->
  y = vscale s (vmul x (mask_at (length x) idx)) -> selects x idx s y.
Proof.
  intros Hnd Hlt ->. unfold vscale, vmul. split; [rewrite map_length, map2_length, mask_at_length; lia|]. split; [auto|]. split; [auto|].
  intros i Hi. rewrite (map_nth_in _ _ _ 0) by (rewrite map2_length, mask_at_length; lia).
  rewrite (map2_nth _ _ _ _ 0 0) by (rewrite ?mask_at_length; lia).
  destruct (mask_at_nth (length x) idx i Hi) as [H1 H2].
  split; intros H; [rewrite (H1 H)|rewrite (H2 H)]; lra.
Qed.

(** ** slices *)
Lemma In_segment {A} (l : list A) a m x d : In x (firstn m (skipn a l)) <-> exists k, (a <= k < a + m)%nat /\ (k < length l)%nat /\ nth k l d = x.
Proof.
  split.
  - intros H. apply (In_nth _ _ d) in H as (k & Hk & E). rewrite firstn_length, skipn_length in Hk.
    exists (a + k)%nat. rewrite <- E. split; [lia|]. split; [lia|].
    rewrite <- (firstn_skipn m (skipn a l)) in *. clear E.
    assert (Hn : nth k (firstn m (skipn a l)) d = nth k (skipn a l) d).
    { rewrite <- (firstn_skipn m (skipn a l)) at 2. rewrite app_nth1; [reflexivity|]. rewrite firstn_length, skipn_length. lia. }
    rewrite firstn_skipn. rewrite Hn. rewrite <- (firstn_skipn a l) at 1. rewrite app_nth2; rewrite firstn_length; [|lia].
    f_equal. lia.
  - intros (k & Hk & Hl & <-). replace k with (a + (k - a))%nat by lia.
    assert (E : nth (a + (k - a)) l d = nth (k - a) (firstn m (skipn a l)) d).
    { rewrite <- (firstn_skipn a l) at 1. rewrite app_nth2; rewrite firstn_length; [|lia].
      replace (a + (k - a) - Nat.min a (length l))%nat with (k - a)%nat by lia.
      rewrite <- (firstn_skipn m (skipn a l)) at 1. rewrite app_nth1; [reflexivity|]. rewrite firstn_length, skipn_length. lia. }
    rewrite E. apply nth_In. rewrite firstn_length, skipn_length. lia.
Qed.
Lemma NoDup_firstn {A} m (l : list A) : NoDup l -> NoDup (firstn m l).
Proof. intros H. rewrite <- (firstn_skipn m l) in H. now apply NoDup_app_inv in H. Qed.
Lemma NoDup_skipn {A} m (l : list A) : NoDup l -> NoDup (skipn m l).
Proof. intros H. rewrite <- (firstn_skipn m l) in H. now apply NoDup_app_inv in H. Qed.

Lemma perm_seq p n : Permutation p (seq 0 n) -> NoDup p /\ length p = n /\ (forall i, In i p <-> (i < n)%nat).
Proof.
  intros H. split; [eapply Permutation_NoDup; [symmetry; exact H|apply seq_NoDup]|]. split; [rewrite (Permutation_length H); apply seq_length|].
  intros i. rewrite H, in_seq. lia.
Qed.

(** a position of [order] kept by [order[a:b]] against one before or after *)
Lemma order_pos order n i : Permutation order (seq 0 n) -> (i < n)%nat -> exists q, (q < n)%nat /\ nth q order 0%nat = i.
Proof.
  intros Hp Hi. destruct (perm_seq order n Hp) as (_ & L & Hin). apply Hin in Hi. apply (In_nth _ _ 0%nat) in Hi as (q & Hq & E).
  exists q. split; [lia|auto].
Qed.

Lemma sort_keys_length c x : length (sort_keys c x) = length x.
Proof. apply map_length. Qed.
Lemma sort_keys_nth c x i : (i < length x)%nat -> nth i (sort_keys c x) 0 = if c then float32 (Rabs (nth i x 0)) else Rabs (nth i x 0).
Proof. intros Hi. unfold sort_keys. now rewrite (map_nth_in _ _ _ 0) by auto. Qed.
Lemma sort_keys_exact c x i : (i < length x)%nat -> (c = true -> Forall is_float32 x) -> nth i (sort_keys c x) 0 = Rabs (nth i x 0).
Proof.
  intros Hi Hc. rewrite sort_keys_nth by auto. destruct c; [|reflexivity]. apply float32_id, is_float32_abs.
  specialize (Hc eq_refl). rewrite Forall_forall in Hc. apply Hc. now apply nth_In.
Qed.

(** what the kept positions are, for a window [a, b) of a sorted order *)
Lemma window (order : list nat) n a b : Permutation order (seq 0 n) -> (a <= b <= n)%nat ->
  let keep := firstn (b - a) (skipn a order) in
  NoDup keep /\ length keep = (b - a)%nat /\ (forall i, In i keep -> (i < n)%nat) /\
  (forall i, In i keep <-> exists q, (a <= q < b)%nat /\ nth q order 0%nat = i).
Proof.
  intros Hp Hab keep. destruct (perm_seq order n Hp) as (Hnd & L & Hin).
  split; [apply NoDup_firstn; now apply NoDup_skipn|]. split; [unfold keep; rewrite firstn_length, skipn_length; lia|].
  assert (Hk : forall i, In i keep <-> exists q, (a <= q < b)%nat /\ nth q order 0%nat = i).
  { intros i. unfold keep. rewrite (In_segment _ _ _ _ 0%nat). split.
    - intros (k & H1 & H2 & E). exists k. split; [lia|auto].
    - intros (k & H1 & E). exists k. split; [lia|]. split; [lia|auto]. }
  split; [|exact Hk]. intros i Hi. apply Hk in Hi as (q & Hq & <-). apply Hin. apply nth_In. lia.
Qed.

(** ** expectations of draws *)
Lemma expect_const ps c : expect ps (fun _ => c) = c.
Proof. induction ps as [|p ps IH]; cbn; [reflexivity|]. rewrite IH. lra. Qed.
Lemma expect_ext ps f g : (forall l, f l = g l) -> expect ps f = expect ps g.
Proof. revert f g. induction ps as [|p ps IH]; intros f g H; cbn; [apply H|]. f_equal; f_equal; apply IH; intros; apply H. Qed.
Lemma expect_plus ps f g : expect ps (fun l => f l + g l) = expect ps f + expect ps g.
Proof. revert f g. induction ps as [|p ps IH]; intros f g; cbn; [reflexivity|]. rewrite !IH. lra. Qed.
Lemma expect_scale ps c f : expect ps (fun l => c * f l) = c * expect ps f.
Proof. revert f. induction ps as [|p ps IH]; intros f; cbn; [reflexivity|]. rewrite !IH. lra. Qed.
Lemma expect_kept ps : expect ps kept = rsum ps.
Proof.
  induction ps as [|p ps IH]; [reflexivity|]. cbn [expect]. rewrite rsum_cons.
  rewrite (expect_ext ps (fun l => kept (true :: l)) (fun l => 1 + kept l)).
  2:{ intros l. unfold kept. cbn [filter length]. rewrite S_INR. lra. }
  rewrite (expect_ext ps (fun l => kept (false :: l)) kept) by reflexivity.
  rewrite expect_plus, expect_const, IH. lra.
Qed.
Lemma expect_nth ps i : (i < length ps)%nat -> expect ps (fun l => if nth i l false then 1 else 0) = nth i ps 0.
Proof.
  revert i. induction ps as [|p ps IH]; intros [|i] Hi; cbn in *; try lia.
  - rewrite !expect_const. lra.
  - rewrite IH by lia. lra.
Qed.

(** ** ranks *)
Lemma increasing_perm (q : list nat) n : Permutation q (seq 0 n) ->
  (forall i j, (i < j < n)%nat -> (nth i q 0 < nth j q 0)%nat) -> forall i, (i < n)%nat -> nth i q 0%nat = i.
Proof.
  intros Hp Hs. destruct (perm_seq q n Hp) as (_ & L & Hin).
  assert (Hlo : forall i, (i < n)%nat -> (i <= nth i q 0)%nat).
  { induction i as [|i IH]; intros Hi; [lia|]. specialize (IH ltac:(lia)). pose proof (Hs i (S i) ltac:(lia)). lia. }
  assert (Hhi : forall k i, (i + k = n - 1)%nat -> (i < n)%nat -> (nth i q 0 <= i)%nat).
  { induction k as [|k IH]; intros i Hk Hi.
    - assert (In (nth i q 0%nat) q) by (apply nth_In; lia). apply Hin in H. lia.
    - pose proof (IH (S i) ltac:(lia) ltac:(lia)). pose proof (Hs i (S i) ltac:(lia)). lia. }
  intros i Hi. pose proof (Hlo i Hi). pose proof (Hhi (n - 1 - i)%nat i ltac:(lia) Hi). lia.
Qed.

(** the argsort of an argsort is the inverse permutation *)
Lemma ranks_inverse (w : list R) sorted ranks : ascending w sorted -> ascending (map INR sorted) ranks ->
  Permutation ranks (seq 0 (length w)) /\ (forall i, (i < length w)%nat -> nth (nth i ranks 0%nat) sorted 0%nat = i).
Proof.
  intros [Hp _] [Hr Hs]. set (n := length w) in *. rewrite map_length in *. destruct (perm_seq sorted n Hp) as (Hnd & L & Hin).
  rewrite L in *. split; [exact Hr|]. destruct (perm_seq ranks n Hr) as (Hndr & Lr & Hinr).
  assert (Hq : forall i, (i < n)%nat -> nth i (map (fun r => nth r sorted 0%nat) ranks) 0%nat = nth (nth i ranks 0%nat) sorted 0%nat).
  { intros i Hi. now rewrite (map_nth_in _ _ _ 0%nat) by lia. }
  intros i Hi. rewrite <- Hq by auto. apply (increasing_perm _ n); auto.
  - transitivity (map (fun r => nth r sorted 0%nat) (seq 0 n)).
    + now apply Permutation_map.
    + transitivity sorted; [|exact Hp]. replace (map (fun r => nth r sorted 0%nat) (seq 0 n)) with sorted; [reflexivity|].
      apply nth_ext with (d := 0%nat) (d' := 0%nat); [rewrite map_length, seq_length; lia|].
      intros k Hk. rewrite (map_nth_in _ _ _ 0%nat) by (rewrite seq_length; lia). rewrite seq_nth by lia. reflexivity.
  - intros a b Hab. rewrite !Hq by lia. specialize (Hs a b ltac:(lia)).
    assert (Ra : (nth a ranks 0 < n)%nat) by (apply Hinr, nth_In; lia). assert (Rb : (nth b ranks 0 < n)%nat) by (apply Hinr, nth_In; lia).
    rewrite !(map_nth_in _ _ _ 0%nat) in Hs by lia. apply INR_le in Hs.
    enough (nth (nth a ranks 0) sorted 0 <> nth (nth b ranks 0) sorted 0)%nat by lia.
    intros E. apply (NoDup_nth sorted 0%nat) in E; auto; try lia.
    apply (NoDup_nth ranks 0%nat) in E; auto; lia.
Qed.

Lemma row_min_le l x : In x l -> row_min l <= x.
Proof.
  unfold row_min. generalize (hd 0 l). induction l as [|y l IH]; intros d []; cbn; [subst; apply Rmin_l|].
  eapply Rle_trans; [apply Rmin_r|]. now apply IH.
Qed.
Lemma row_max_ge l x : In x l -> x <= row_max l.
Proof.
  unfold row_max. generalize (hd 0 l). induction l as [|y l IH]; intros d []; cbn; [subst; apply Rmax_l|].
  eapply Rle_trans; [|apply Rmax_r]. now apply IH.
Qed.
Lemma row_min_ge l b : l <> [] -> (forall x, In x l -> b <= x) -> b <= row_min l.
Proof.
  unfold row_min. intros Hl H. assert (Hd : b <= hd 0 l) by (destruct l; [congruence|apply H; now left]).
  revert Hd. generalize (hd 0 l). clear Hl. induction l as [|y l IH]; intros d Hd; cbn; [auto|].
  apply Rmin_glb; [apply H; now left|]. apply IH; auto. intros; apply H; now right.
Qed.
Lemma row_max_le l b : l <> [] -> (forall x, In x l -> x <= b) -> row_max l <= b.
Proof.
  unfold row_max. intros Hl H. assert (Hd : hd 0 l <= b) by (destruct l; [congruence|apply H; now left]).
  revert Hd. generalize (hd 0 l). clear Hl. induction l as [|y l IH]; intros d Hd; cbn; [auto|].
  apply Rmax_lub; [apply H; now left|]. apply IH; auto. intros; apply H; now right.
Qed.

Lemma row_extremes ranks n : (2 <= n)%nat -> Permutation ranks (seq 0 n) ->
  row_min (map (fun r => INR r + 1) ranks) = 1 /\ row_max (map (fun r => INR r + 1) ranks) = INR n.
Proof.
  intros Hn Hp. destruct (perm_seq ranks n Hp) as (_ & L & Hin). set (rk := map (fun r => INR r + 1) ranks).
  assert (Hne : rk <> []) by (unfold rk; destruct ranks; cbn in *; [lia|discriminate]).
  assert (Hrk : forall x, In x rk <-> exists r, (r < n)%nat /\ x = INR r + 1).
  { intros x. unfold rk. rewrite in_map_iff. split; [intros (r & <- & Hr); exists r; split; [now apply Hin|auto]|].
    intros (r & Hr & ->). exists r. split; [auto|now apply Hin]. }
  split; apply Rle_antisym.
  - apply row_min_le. apply Hrk. exists 0%nat. split; [lia|]. cbn. lra.
  - apply row_min_ge; auto. intros x Hx. apply Hrk in Hx as (r & _ & ->). pose proof (pos_INR r). lra.
  - apply row_max_le; auto. intros x Hx. apply Hrk in Hx as (r & Hr & ->). rewrite <- S_INR. apply le_INR. lia.
  - apply row_max_ge. apply Hrk. exists (n - 1)%nat. split; [lia|]. rewrite <- S_INR. f_equal. lia.
Qed.

Lemma row_probs_eq density epsilon ranks n : (2 <= n)%nat -> Permutation ranks (seq 0 n) ->
  row_probs density epsilon ranks = Ok (map (fun r => density - epsilon + 2 * epsilon * (INR r / (INR n - 1))) ranks).
Proof.
  intros Hn Hp. destruct (row_extremes ranks n Hn Hp) as [Emin Emax]. unfold row_probs.
  destruct (map (fun r => INR r + 1) ranks) as [|x l] eqn:El.
  { apply map_eq_nil in El. subst. apply Permutation_length in Hp. rewrite seq_length in Hp. cbn in Hp. lia. }
  rewrite <- El. rewrite <- El in Emin, Emax. assert (HN : 2 <= INR n) by (apply (le_INR 2); lia).
  destruct (Req_EM_T _ _) as [E|_]; [exfalso; lra|]. f_equal. rewrite Emin, Emax, map_map. apply map_ext_in.
  intros r Hr. destruct (perm_seq ranks n Hp) as (_ & _ & Hin). apply Hin in Hr.
  assert (Hr1 : INR r <= INR n - 1).
  { replace (INR n - 1) with (INR (n - 1)) by (rewrite minus_INR by lia; cbn; lra). apply le_INR. lia. }
  pose proof (pos_INR r). unfold clamp01. replace (INR r + 1 - 1) with (INR r) by lra.
  assert (0 <= INR r / (INR n - 1)) by (apply Rmult_le_pos; [lra|apply Rlt_le, Rinv_0_lt_compat; lra]).
  assert (INR r / (INR n - 1) <= 1) by (apply Rmult_le_reg_r with (INR n - 1); [lra|]; unfold Rdiv; rewrite Rmult_assoc, Rinv_l by lra; lra).
  rewrite Rmax_left by lra. rewrite Rmin_left by lra. lra.
Qed.
