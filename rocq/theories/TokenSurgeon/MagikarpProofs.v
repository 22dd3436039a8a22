(** Lemmas for C80. *)
From Coq Require Import Reals Lra Lia Sorting.Permutation Sorting.Sorted.
From Verif.Base Require Import LinAlg RList Py PyFacts.
From Verif.TokenSurgeon Require Import Model Approx Magikarp MagikarpSpec.
Local Open Scope string_scope.
Local Open Scope list_scope.
Local Open Scope R_scope.

(** ** Names and ids *)
Lemma starts_with_app p t : starts_with p t = true <-> exists b, t = p ++ b.
Proof.
  revert t. induction p as [|a p IH]; intros t; cbn; [split; eauto|]. destruct t as [|b t].
  - split; [discriminate|]. intros (? & H). discriminate.
  - rewrite andb_true_iff, IH, N.eqb_eq. split; [intros (-> & c & ->); eauto|]. intros (c & H). injection H as -> ->. eauto.
Qed.
Lemma contains_mentions a b : contains a b = true <-> mentions a b.
Proof.
  unfold mentions. induction b as [|c b IH]; cbn [contains]; rewrite orb_true_iff, starts_with_app.
  - split; [intros [(x & H)|]; [exists [], x; exact H|discriminate]|]. intros (x & y & H). symmetry in H. apply app_eq_nil in H as (-> & H). left. exists y. now symmetry.
  - rewrite IH. split.
    + intros [(x & H)|(x & y & ->)]; [exists [], x; exact H|exists (c :: x), y; reflexivity].
    + intros (x & y & H). destruct x as [|c' x]; [left; eauto|]. injection H as -> ->. right. eauto.
Qed.

Lemma unused_spec vocab rows listed i : NoDup (dkeys vocab) ->
  In i (unused_indices vocab rows listed) <-> stands_for_nothing vocab rows listed i.
Proof.
  intros Hv. unfold unused_indices. rewrite dedup_In, !in_app_iff, filter_In, in_seq, negb_true_iff, mem_nIn, in_flat_map, in_map_iff.
  unfold stands_for_nothing. split.
  - intros [[Hi Hn]|[(t & Ht & Hi)|((t & i') & Hi' & Hf)]].
    + left. split; [lia|]. intros t Ht. apply Hn. apply in_map_iff. exists (t, i). auto.
    + right. destruct (dget vocab t) as [i'|] eqn:E; [|destruct Hi]. destruct Hi as [->|[]]. apply dget_In in E. eauto.
    + right. cbn [snd] in Hi'. subst i'. apply filter_In in Hf as [H1 H2]. cbn [fst] in H2. unfold placeholder in H2.
      rewrite orb_true_iff, !contains_mentions in H2. eauto.
  - intros [[Hi Hn]|(t & Ht & H)].
    + left. split; [lia|]. intros H. apply in_map_iff in H as ((t & i') & Hs & Hin). cbn in Hs. subst i'. exact (Hn t Hin).
    + right. destruct H as [H|H].
      * left. exists t. split; [exact H|]. rewrite (dget_In_NoDup vocab t i Hv Ht). now left.
      * right. exists (t, i). split; [reflexivity|]. apply filter_In. split; [exact Ht|]. cbn [fst]. unfold placeholder. rewrite orb_true_iff, !contains_mentions. exact H.
Qed.
Lemma unused_NoDup vocab rows listed : NoDup (unused_indices vocab rows listed).
Proof. apply dedup_NoDup. Qed.

(** ** Sorting *)
Lemma rinsert_perm x l : Permutation (rinsert x l) (x :: l).
Proof. induction l as [|y l IH]; cbn; [reflexivity|]. destruct (Rle_dec x y); [reflexivity|]. rewrite IH. apply perm_swap. Qed.
Lemma rsort_perm l : Permutation (rsort l) l.
Proof. induction l as [|x l IH]; cbn; [reflexivity|]. rewrite rinsert_perm. now constructor. Qed.
Lemma rinsert_sorted x l : StronglySorted Rle l -> StronglySorted Rle (rinsert x l).
Proof.
  induction l as [|y l IH]; intros H; cbn; [repeat constructor|]. inversion_clear H. destruct (Rle_dec x y) as [L|L].
  - constructor; [now constructor|]. constructor; [exact L|]. rewrite Forall_forall in *. intros z Hz. specialize (H1 z Hz). lra.
  - constructor; [now apply IH|]. rewrite Forall_forall in *. intros z Hz. apply (Permutation_in _ (rinsert_perm x l)) in Hz as [<-|Hz]; [lra|auto].
Qed.
Lemma rsort_sorted l : StronglySorted Rle (rsort l).
Proof. induction l; cbn; [constructor|]. now apply rinsert_sorted. Qed.
Lemma sorted_unique l l' : StronglySorted Rle l -> StronglySorted Rle l' -> Permutation l l' -> l = l'.
Proof.
  revert l'. induction l as [|x l IH]; intros l' H H' P; [now apply Permutation_nil in P|].
  destruct l' as [|y l']; [apply Permutation_sym, Permutation_nil in P; discriminate|].
  inversion_clear H. inversion_clear H'. rewrite Forall_forall in *.
  assert (E : x = y).
  { apply Rle_antisym.
    - assert (Hy : In y (x :: l)) by (apply (Permutation_in _ (Permutation_sym P)); now left). destruct Hy as [->|Hy]; [lra|auto].
    - assert (Hx : In x (y :: l')) by (apply (Permutation_in _ P); now left). destruct Hx as [->|Hx]; [lra|auto]. }
  subst y. f_equal. apply IH; auto. exact (Permutation_cons_inv P).
Qed.
Lemma sorted_nth l a b : StronglySorted Rle l -> (a <= b)%nat -> (b < length l)%nat -> nth a l 0 <= nth b l 0.
Proof.
  intros H. revert a b. induction H as [|x l Hl IH Hx]; intros a b Hab Hb; cbn in Hb; [lia|].
  destruct a, b; cbn [nth]; [lra| |lia|apply IH; lia]. rewrite Forall_forall in Hx. apply Hx, nth_In. lia.
Qed.

(** ** Quantiles *)
Lemma floor_spec x : 0 <= x -> INR (floor_nat x) <= x < INR (floor_nat x) + 1.
Proof.
  intros Hx. unfold floor_nat. destruct (base_Int_part x) as (H1 & H2).
  assert (Hz : (0 <= Int_part x)%Z). { apply le_IZR. cbn. assert (IZR (Int_part x) > -1) by lra. replace (-1) with (IZR (-1)) in H by reflexivity. apply lt_IZR in H. apply IZR_le. lia. }
  rewrite INR_IZR_INZ, Z2Nat.id by exact Hz. lra.
Qed.
Lemma floor_unique x k : INR k <= x < INR k + 1 -> floor_nat x = k.
Proof.
  intros (H1 & H2). pose proof (pos_INR k). destruct (floor_spec x ltac:(lra)) as (H3 & H4).
  rewrite <- S_INR in *. assert (INR k < INR (S (floor_nat x))) by lra. assert (INR (floor_nat x) < INR (S k)) by lra. apply INR_lt in H0, H5. lia.
Qed.
(** the upper rank is the next one unless the rank is whole *)
Lemma ceil_spec x : 0 <= x -> (x = INR (floor_nat x) /\ ceil_nat x = floor_nat x) \/ (INR (floor_nat x) < x /\ ceil_nat x = S (floor_nat x)).
Proof.
  intros Hx. destruct (floor_spec x Hx) as (H1 & H2). unfold ceil_nat. destruct (base_Int_part (- x)) as (H3 & H4).
  set (z := Int_part (- x)) in *. set (f := floor_nat x) in *. clearbody z f.
  assert (Hz : IZR (- z) - 1 < x <= IZR (- z)) by (rewrite opp_IZR; lra). rewrite INR_IZR_INZ in *.
  assert (H5 : IZR (- z) < IZR (Z.of_nat f) + 2) by lra. rewrite <- plus_IZR in H5. apply lt_IZR in H5.
  assert (H6 : IZR (Z.of_nat f) <= IZR (- z)) by lra. apply le_IZR in H6.
  destruct (Req_dec x (IZR (Z.of_nat f))) as [E|E].
  - left. split; [exact E|]. assert (IZR (- z) < IZR (Z.of_nat f) + 1) by lra. rewrite <- plus_IZR in H. apply lt_IZR in H. lia.
  - right. split; [lra|]. assert (IZR (Z.of_nat f) < IZR (- z)) by lra. apply lt_IZR in H. lia.
Qed.

Lemma map_nth_seq {A} (l : list A) d : map (fun i => nth i l d) (seq 0 (length l)) = l.
Proof.
  apply nth_ext with (d := d) (d' := d); rewrite map_length, seq_length; [reflexivity|]. intros i Hi.
  rewrite (nth_indep _ d (nth 0 l d)), (map_nth (fun i => nth i l d)) by (rewrite map_length, seq_length; exact Hi). rewrite seq_nth by exact Hi. reflexivity.
Qed.
Lemma quantile_spec n f q t : is_quantile n f q t -> forall t', is_quantile n f q t' -> t = t'.
Proof.
  intros (s & k & P & S & Hk & R & ->) t' (s' & k' & P' & S' & Hk' & R' & ->).
  assert (s = s') as -> by (apply sorted_unique; auto; now rewrite P, P').
  assert (k = k') as -> by (rewrite <- (floor_unique _ _ R), <- (floor_unique _ _ R'); reflexivity). reflexivity.
Qed.
Lemma is_quantile_ext n f g q t : (forall i, (i < n)%nat -> f i = g i) -> is_quantile n f q t -> is_quantile n g q t.
Proof.
  intros E (s & k & P & H). exists s, k. split; [|exact H]. rewrite P. erewrite map_ext_in; [reflexivity|]. intros i Hi. apply in_seq in Hi. apply E. lia.
Qed.
Lemma quantile_ok xs q : 0 <= q <= 1 -> xs <> [] -> exists t, quantile xs q = Ok t /\ is_quantile (length xs) (fun i => nth i xs 0) q t.
Proof.
  intros Hq Hne. unfold quantile. destruct (Rle_dec 0 q) as [_|]; [|lra]. destruct (Rle_dec q 1) as [_|]; [|lra].
  destruct xs as [|x xs]; [congruence|]. set (l := x :: xs) in *. eexists. split; [reflexivity|].
  assert (Hl : (0 < length l)%nat) by (cbn; lia). clearbody l. clear x xs Hne.
  assert (En : INR (length l - 1) = INR (length l) - 1) by (rewrite minus_INR by lia; reflexivity). rewrite En in *.
  pose proof (lt_INR 0 _ Hl) as Hpos. cbn in Hpos.
  assert (Hr : 0 <= q * (INR (length l) - 1) <= INR (length l) - 1).
  { rewrite <- En. pose proof (pos_INR (length l - 1)). split; nra. }
  pose proof (floor_spec _ (proj1 Hr)) as Hf. set (r := q * (INR (length l) - 1)) in *.
  exists (rsort l), (floor_nat r). split; [rewrite map_nth_seq; apply rsort_perm|]. split; [apply rsort_sorted|].
  assert (Hk : (floor_nat r < length l)%nat) by (apply INR_lt; lra).
  split; [exact Hk|]. split; [exact Hf|].
  destruct (ceil_spec r (proj1 Hr)) as [(E & ->)|(E & ->)]; fold r;
    [replace (r - INR (floor_nat r)) with 0 by lra; ring|].
  assert (H2 : (S (floor_nat r) < length (rsort l))%nat). { rewrite (Permutation_length (rsort_perm l)). apply INR_lt. rewrite S_INR. lra. }
  rewrite (nth_indep (rsort l) (nth (floor_nat r) (rsort l) 0) 0 H2). reflexivity.
Qed.
Lemma quantile_fails xs q t : quantile xs q = Ok t -> 0 <= q <= 1 /\ xs <> [].
Proof. unfold quantile. destruct (Rle_dec 0 q); [|discriminate]. destruct (Rle_dec q 1); [|discriminate]. destruct xs; [discriminate|]. intros _. split; [lra|discriminate]. Qed.

(** ** How many are below or above a quantile *)
Lemma few_in_filter n (f : nat -> R) (P : R -> bool) l : NoDup l -> (forall i, In i l -> (i < n)%nat /\ P (f i) = true) ->
  (length l <= length (filter P (map f (seq 0 n))))%nat.
Proof.
  intros Hn H. transitivity (length (filter (fun i => P (f i)) (seq 0 n))).
  - apply NoDup_incl_length; [exact Hn|]. intros i Hi. apply filter_In. destruct (H i Hi). split; [apply in_seq; lia|assumption].
  - generalize (seq 0 n). intros s. induction s as [|a s IH]; cbn; [lia|]. destruct (P (f a)); cbn; lia.
Qed.
Lemma filter_length_perm {A} (P : A -> bool) l l' : Permutation l l' -> length (filter P l) = length (filter P l').
Proof. induction 1; cbn; try congruence; repeat destruct (P _); cbn; congruence. Qed.
Lemma filter_none {A} (P : A -> bool) l : (forall x, In x l -> P x = false) -> filter P l = [].
Proof. induction l as [|x l IH]; cbn; intros H; [reflexivity|]. rewrite (H x) by now left. apply IH. auto. Qed.
Lemma filter_length_le' {A} (P : A -> bool) l : (length (filter P l) <= length l)%nat.
Proof. induction l as [|x l IH]; cbn; [lia|]. destruct (P x); cbn; lia. Qed.

Lemma few_below n f q t l : is_quantile n f q t -> NoDup l -> (forall i, In i l -> (i < n)%nat /\ f i < t) -> INR (length l) < q * (INR n - 1) + 1.
Proof.
  intros (s & k & P & Hs & Hk & (R1 & R2) & ->) Hl H.
  assert (Ln : length s = n) by (rewrite (Permutation_length P), map_length, seq_length; reflexivity).
  set (r := q * (INR n - 1)) in *. set (t := nth k s 0 + _) in *.
  assert (Hh : exists h, (h < n)%nat /\ t <= nth h s 0 /\ INR h < r + 1).
  { destruct (Req_dec r (INR k)) as [E|E].
    - exists k. split; [exact Hk|]. split; [unfold t; rewrite E; lra|lra].
    - destruct (Nat.lt_ge_cases (S k) n) as [L|L].
      + exists (S k). split; [exact L|]. rewrite S_INR. split; [|lra]. unfold t.
        rewrite (nth_indep s (nth k s 0) 0) by (rewrite Ln; exact L).
        pose proof (sorted_nth s k (S k) Hs ltac:(lia) ltac:(lia)). nra.
      + exists k. split; [exact Hk|]. split; [unfold t; rewrite (nth_overflow s (nth k s 0)) by lia; lra|lra]. }
  destruct Hh as (h & Hh & Ht & Hr). apply Rle_lt_trans with (INR h); [|exact Hr]. apply le_INR.
  etransitivity; [apply (few_in_filter n f (fun x => if Rlt_dec x t then true else false) l Hl)|].
  - intros i Hi. destruct (H i Hi) as (H1 & H2). split; [exact H1|]. destruct (Rlt_dec (f i) t); [reflexivity|contradiction].
  - rewrite (filter_length_perm _ _ _ (Permutation_sym P)), <- (firstn_skipn h s), filter_app, app_length.
    rewrite (filter_none _ (skipn h s)).
    + cbn. pose proof (filter_length_le' (fun x => if Rlt_dec x t then true else false) (firstn h s)). rewrite firstn_length in *. lia.
    + intros x Hx. destruct (Rlt_dec x t) as [L|]; [|reflexivity]. exfalso. apply (In_nth _ _ 0) in Hx as (j & Hj & <-).
      rewrite skipn_length in Hj. assert (En : nth j (skipn h s) 0 = nth (h + j) s 0) by (rewrite <- (firstn_skipn h s) at 2; rewrite app_nth2; rewrite firstn_length; [f_equal; lia|lia]).
      rewrite En in L. pose proof (sorted_nth s h (h + j) Hs ltac:(lia) ltac:(lia)). lra.
Qed.
Lemma few_above n f q t l : is_quantile n f (1 - q) t -> NoDup l -> (forall i, In i l -> (i < n)%nat /\ t < f i) -> INR (length l) < q * (INR n - 1) + 1.
Proof.
  intros (s & k & P & Hs & Hk & (R1 & R2) & ->) Hl H.
  assert (Ln : length s = n) by (rewrite (Permutation_length P), map_length, seq_length; reflexivity).
  set (r := (1 - q) * (INR n - 1)) in *. set (t := nth k s 0 + _) in *.
  assert (Ht : nth k s 0 <= t).
  { unfold t. destruct (Nat.lt_ge_cases (S k) n) as [L|L].
    - rewrite (nth_indep s (nth k s 0) 0) by (rewrite Ln; exact L). pose proof (sorted_nth s k (S k) Hs ltac:(lia) ltac:(lia)). nra.
    - rewrite (nth_overflow s (nth k s 0)) by lia. lra. }
  apply Rle_lt_trans with (INR (n - 1 - k)).
  - apply le_INR. etransitivity; [apply (few_in_filter n f (fun x => if Rlt_dec t x then true else false) l Hl)|].
    + intros i Hi. destruct (H i Hi) as (H1 & H2). split; [exact H1|]. destruct (Rlt_dec t (f i)); [reflexivity|contradiction].
    + rewrite (filter_length_perm _ _ _ (Permutation_sym P)), <- (firstn_skipn (S k) s), filter_app, app_length.
      rewrite (filter_none _ (firstn (S k) s)).
      * pose proof (filter_length_le' (fun x => if Rlt_dec t x then true else false) (skipn (S k) s)). rewrite skipn_length in *. cbn [length plus]. lia.
      * intros x Hx. destruct (Rlt_dec t x) as [L|]; [|reflexivity]. exfalso. apply (In_nth _ _ 0) in Hx as (j & Hj & <-).
        rewrite firstn_length in Hj. assert (En : nth j (firstn (S k) s) 0 = nth j s 0) by (rewrite <- (firstn_skipn (S k) s) at 2; rewrite app_nth1; [reflexivity|rewrite firstn_length; lia]).
        rewrite En in L. pose proof (sorted_nth s j k Hs ltac:(lia) ltac:(lia)). lra.
  - rewrite !minus_INR by lia. cbn [INR]. unfold r in R2. lra.
Qed.
