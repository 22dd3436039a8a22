(** Subword and interpolation: lemmas. *)
From Coq Require Import Reals Lra.
From Verif.Base Require Import LinAlg RList Py PyFacts.
From Verif.TokenSurgeon Require Import Approx.
Local Open Scope list_scope.
Local Open Scope R_scope.

Lemma nthE_nth {A} (l : list A) i d : (i < length l)%nat -> nthE l i = Ok (nth i l d).
Proof. intros H. unfold nthE. rewrite (nth_error_nth' l d H). reflexivity. Qed.
Lemma nthE_err {A} (l : list A) i : (length l <= i)%nat -> nthE l i = Err IndexError.
Proof. intros H. unfold nthE. now rewrite (proj2 (nth_error_None l i) H). Qed.
Lemma nthE_ok {A} (l : list A) i d x : nthE l i = Ok x -> (i < length l)%nat /\ x = nth i l d.
Proof.
  intros H. destruct (Nat.lt_ge_cases i (length l)) as [L|L]; [|rewrite nthE_err in H by exact L; discriminate].
  rewrite (nthE_nth l i d L) in H. split; [exact L|congruence].
Qed.
Lemma rmapM_nthE {A} (l : list A) is d : (forall i, In i is -> (i < length l)%nat) -> rmapM (nthE l) is = Ok (map (fun i => nth i l d) is).
Proof.
  intros H. apply rmapM_Ok_Forall2. induction is as [|i is IH]; constructor; [apply nthE_nth, H; now left|apply IH; intros; apply H; now right].
Qed.
Lemma rmapM_nthE_inv {A} (l : list A) is d rs : rmapM (nthE l) is = Ok rs -> (forall i, In i is -> (i < length l)%nat) /\ rs = map (fun i => nth i l d) is.
Proof.
  intros H. apply rmapM_Ok_Forall2 in H. induction H as [|i x is rs Hx _ (IH1 & IH2)]; [split; [intros ? []|reflexivity]|].
  apply (nthE_ok l i d) in Hx as (L & ->). split; [intros j [<-|Hj]; auto|cbn; now rewrite IH2].
Qed.
Lemma rmapM_nthE_err {A} (l : list A) is i : In i is -> (length l <= i)%nat -> rmapM (nthE l) is = Err IndexError.
Proof.
  intros H Hi. destruct (rmapM (nthE l) is) as [rs|e] eqn:E.
  - exfalso. apply rmapM_Ok_Forall2 in E. clear -E H Hi. induction E as [|j x is rs Hx _ IH]; [destruct H|]. destruct H as [->|H]; [|auto]. rewrite nthE_err in Hx by exact Hi. discriminate.
  - apply rmapM_Err in E as (j & _ & E). unfold nthE in E. destruct (nth_error l j); congruence.
Qed.

Lemma last_In {A} (l : list A) d : l <> [] -> In (last l d) l.
Proof. destruct l as [|a l _] using rev_ind; [congruence|]. intros _. rewrite last_last. apply in_or_app. right. now left. Qed.
Lemma wsum_ones rs x : wsum (map (fun _ => 1) rs) rs x = rsum (map (fun r : row => r x) rs).
Proof. unfold wsum. f_equal. induction rs as [|r rs IH]; cbn; [reflexivity|]. rewrite IH. f_equal. ring. Qed.
Lemma wsum_cons w ws r rs x : wsum (w :: ws) (r :: rs) x = w * r x + wsum ws rs x.
Proof. reflexivity. Qed.

(** a weighted average stays within bounds *)
Lemma wsum_bounds x lo hi : forall ws rs, length ws = length rs -> (forall w, In w ws -> 0 <= w) -> (forall r, In r rs -> lo <= r x <= hi) ->
  lo * rsum ws <= wsum ws rs x <= hi * rsum ws.
Proof.
  induction ws as [|w ws IH]; destruct rs as [|r rs]; intros L Hw Hr; try discriminate; [cbn; lra|].
  rewrite wsum_cons, rsum_cons. destruct (IH rs ltac:(now injection L) ltac:(intros; apply Hw; now right) ltac:(intros; apply Hr; now right)) as (A & B).
  pose proof (Hw w (or_introl eq_refl)) as W. destruct (Hr r (or_introl eq_refl)) as (C & D).
  pose proof (Rmult_le_compat_l w lo (r x) W C). pose proof (Rmult_le_compat_l w (r x) hi W D). lra.
Qed.

Lemma counting_length n : length (counting n) = n.
Proof. unfold counting. now rewrite map_length, seq_length. Qed.
Lemma counting_pos n w : In w (counting n) -> 0 < w.
Proof. intros H. apply in_map_iff in H as (i & <- & _). apply lt_0_INR. lia. Qed.
Lemma counting_sum n : rsum (counting n) = INR n * (INR n + 1) / 2.
Proof.
  induction n as [|n IH]; [cbn; lra|]. unfold counting in *. rewrite seq_S, map_app, rsum_app, IH. cbn [map]. rewrite rsum_cons. cbn [rsum fold_right plus].
  rewrite S_INR. unfold rsum. cbn. lra.
Qed.
Lemma counting_nth n i : (i < n)%nat -> nth i (counting n) 0 = INR i + 1.
Proof. intros H. unfold counting. rewrite (map_nth_in _ _ _ 0%nat) by (rewrite seq_length; lia). rewrite seq_nth by lia. now rewrite S_INR. Qed.

Lemma wsum_seq ws rs x : length ws = length rs -> wsum ws rs x = rsum (map (fun p => nth p ws 0 * nth p rs rzero x) (seq 0 (length rs))).
Proof.
  intros L. unfold wsum. f_equal. apply nth_ext_R; [rewrite map2_length, map_length, seq_length; lia|].
  intros i Hi. rewrite map2_length in Hi. rewrite (map2_nth _ _ _ i 0 rzero) by lia. rewrite (map_nth_in _ _ _ 0%nat) by (rewrite seq_length; lia). now rewrite seq_nth by lia.
Qed.

(** ** weights *)
Lemma tiny_pos : 0 < tiny.
Proof. unfold tiny. apply Rinv_0_lt_compat. apply pow_lt. lra. Qed.
Lemma rsum_div ws c : rsum (map (fun w => w / c) ws) = rsum ws / c.
Proof. induction ws as [|w ws IH]; cbn [map]; rewrite ?rsum_cons; [unfold rsum; cbn; lra|]. rewrite IH. lra. Qed.
Lemma inv_pos d : 0 < / Rmax d tiny.
Proof. apply Rinv_0_lt_compat. pose proof tiny_pos. pose proof (Rmax_r d tiny). lra. Qed.
Lemma rsum_pos (ws : list R) : ws <> [] -> (forall w, In w ws -> 0 < w) -> 0 < rsum ws.
Proof.
  intros Hn H. destruct ws as [|w ws]; [congruence|]. rewrite rsum_cons. pose proof (H w (or_introl eq_refl)).
  pose proof (rsum_nonneg ws ltac:(intros y Hy; specialize (H y (or_intror Hy)); lra)). lra.
Qed.
Lemma weights_pos ds w : In w (landmark_weights false ds) -> 0 < w.
Proof.
  unfold landmark_weights. cbv zeta. intros H. apply in_map_iff in H as (v & <- & H). apply in_map_iff in H as (d & <- & _).
  apply Rdiv_lt_0_compat; [apply inv_pos|]. pose proof tiny_pos. match goal with |- 0 < Rmax ?a ?b => pose proof (Rmax_r a b) end. lra.
Qed.
Lemma weights_length c ds : length (landmark_weights c ds) = length ds.
Proof. unfold landmark_weights. now rewrite !map_length. Qed.
Lemma weights_sum ds d : In d ds -> d <= 10 ^ 6 -> rsum (landmark_weights false ds) = 1.
Proof.
  intros Hd Hle. unfold landmark_weights. cbv zeta. rewrite rsum_div. set (ws := map _ ds).
  assert (Hs : tiny <= rsum ws).
  { assert (Hin : In (/ Rmax d tiny) ws) by (apply in_map_iff; now exists d).
    apply in_split in Hin as (l1 & l2 & E).
    assert (Hp : forall w, In w ws -> 0 <= w) by (intros w Hw; apply in_map_iff in Hw as (e & <- & _); pose proof (inv_pos e); lra).
    assert (Hr : rsum ws = rsum l1 + (/ Rmax d tiny + rsum l2)) by (rewrite E, rsum_app, rsum_cons; reflexivity).
    rewrite Hr. pose proof (rsum_nonneg l1 ltac:(intros y Hy; apply Hp; rewrite E; apply in_or_app; now left)).
    pose proof (rsum_nonneg l2 ltac:(intros y Hy; apply Hp; rewrite E; apply in_or_app; right; now right)).
    assert (tiny <= / Rmax d tiny); [|lra]. unfold tiny at 1. apply Rinv_le_contravar; [pose proof tiny_pos; pose proof (Rmax_r d tiny); lra|].
    assert (H1 : 1 <= 10 ^ 6) by (cbn; lra). apply Rmax_lub; [exact Hle|]. apply Rle_trans with (/ 1); [apply Rinv_le_contravar; lra|lra]. }
  rewrite Rmax_left by exact Hs. field. pose proof tiny_pos. lra.
Qed.
Lemma weights_mono ds i j : (i < length ds)%nat -> (j < length ds)%nat -> nth i ds 0 <= nth j ds 0 ->
  nth j (landmark_weights false ds) 0 <= nth i (landmark_weights false ds) 0.
Proof.
  intros Hi Hj H. unfold landmark_weights. cbv zeta. set (c := Rmax _ _).
  assert (Hc : 0 < c) by (unfold c; pose proof tiny_pos; match goal with |- 0 < Rmax ?a ?b => pose proof (Rmax_r a b) end; lra). clearbody c.
  assert (N : forall n, (n < length ds)%nat -> nth n (map (fun w => w / c) (map (fun d => / Rmax d tiny) ds)) 0 = / Rmax (nth n ds 0) tiny / c).
  { intros n Hn. rewrite (map_nth_in _ _ _ 0) by (rewrite map_length; assumption). now rewrite (map_nth_in _ ds _ 0) by assumption. }
  rewrite !N by assumption.
  unfold Rdiv. apply Rmult_le_compat_r; [left; now apply Rinv_0_lt_compat|]. apply Rinv_le_contravar; [pose proof tiny_pos; pose proof (Rmax_r (nth i ds 0) tiny); lra|].
  apply Rle_max_compat_r. exact H.
Qed.
