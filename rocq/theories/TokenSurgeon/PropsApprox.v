(** * C51, C52: the rows token surgery makes up *)
From Coq Require Import Reals Lra.
From Verif.Base Require Import LinAlg RList Py PyFacts.
From Verif.TokenSurgeon Require Import Approx ApproxSpec ApproxProofs ApproxInst.
Local Open Scope list_scope.
Local Open Scope R_scope.

(** ** C51 subword *)
(** coordinate x of the rows of the subwords, in order *)
Definition subword_coords (embed : list row) (ids : list nat) (x : nat) : list R := map (fun i => nth i embed rzero x) ids.

(** mean and sum: of all subwords, whichever matrix is being built *)
Theorem C51_mean : forall head embed ids, ids <> [] -> (forall i, In i ids -> (i < length embed)%nat) ->
  exists r, subword SMean head embed ids = Ok r /\ forall x, r x = rsum (subword_coords embed ids x) / INR (length ids).
Proof.
  intros head embed ids Hn H. unfold subword, rows_at. rewrite (rmapM_nthE embed ids rzero H). cbn [rbind]. eexists. split; [reflexivity|].
  intros x. transitivity (rscale (/ INR (length ids)) (wsum (map (fun _ => 1) (map (fun i => nth i embed rzero) ids)) (map (fun i => nth i embed rzero) ids)) x);
    [destruct ids; [congruence|reflexivity]|]. unfold rscale. rewrite wsum_ones, map_map. unfold subword_coords, Rdiv. ring.
Qed.
Theorem C51_sum : forall head embed ids, (forall i, In i ids -> (i < length embed)%nat) ->
  exists r, subword SSum head embed ids = Ok r /\ forall x, r x = rsum (subword_coords embed ids x).
Proof.
  intros head embed ids H. unfold subword, rows_at. rewrite (rmapM_nthE embed ids rzero H). cbn [rbind]. eexists. split; [reflexivity|].
  intros x. rewrite wsum_ones, map_map. reflexivity.
Qed.
(** weighted mean: the p-th of n subwords (from 0) has weight p+1 for the output head and n-p for the embeddings, out of n(n+1)/2 *)
Theorem C51_weighted : forall head embed ids, ids <> [] -> (forall i, In i ids -> (i < length embed)%nat) ->
  exists r, subword SWeighted head embed ids = Ok r /\ forall x, r x =
    rsum (map (fun p => (if head : bool then INR p + 1 else INR (length ids) - INR p) * nth (nth p ids 0%nat) embed rzero x) (seq 0 (length ids)))
    / (INR (length ids) * (INR (length ids) + 1) / 2).
Proof.
  intros head embed ids Hn H. unfold subword, rows_at. rewrite (rmapM_nthE embed ids rzero H). cbn [rbind]. eexists. split; [reflexivity|].
  intros x. set (ws := if head then _ else _). set (rs := map (fun i => nth i embed rzero) ids).
  assert (Hrs : rs <> []) by (intros E; apply Hn; now apply map_eq_nil in E).
  assert (Lw : length ws = length ids) by (unfold ws; destruct head; rewrite ?rev_length; apply counting_length).
  assert (Sw : rsum ws = INR (length ids) * (INR (length ids) + 1) / 2).
  { unfold ws. destruct head; [apply counting_sum|]. rewrite <- (rsum_Permutation _ _ (Permutation.Permutation_rev _)). apply counting_sum. }
  assert (Lr : length rs = length ids) by (unfold rs; apply map_length).
  transitivity (rscale (/ rsum ws) (wsum ws rs) x); [destruct rs; [congruence|reflexivity]|].
  unfold rscale. rewrite Sw, wsum_seq by congruence. rewrite Lr, Rmult_comm. change (?a * / ?b) with (a / b). apply (f_equal (fun v => v / _)). apply rsum_ext.
  intros p Hp. apply in_seq in Hp. unfold rs. rewrite (map_nth_in _ ids p 0%nat) by lia. f_equal. unfold ws. destruct head.
  - apply counting_nth. lia.
  - rewrite rev_nth by (rewrite counting_length; lia). rewrite counting_length, counting_nth by lia. rewrite minus_INR by lia. rewrite S_INR. ring.
Qed.
(** first for the output head, last for the embeddings *)
Theorem C51_first_last : forall embed i ids, (forall j, In j (i :: ids) -> (j < length embed)%nat) ->
  subword SFirstLast true embed (i :: ids) = Ok (nth i embed rzero) /\
  subword SFirstLast false embed (i :: ids) = Ok (nth (last (i :: ids) i) embed rzero).
Proof.
  intros embed i ids H. split; [apply nthE_nth, H; now left|]. cbn [subword]. apply nthE_nth, H, last_In. discriminate.
Qed.
(** a token that is one token of the original vocabulary gets that token's row *)
Theorem C51_single : forall m head embed i, (i < length embed)%nat ->
  exists r, subword m head embed [i] = Ok r /\ forall x, r x = nth i embed rzero x.
Proof.
  intros m head embed i H. assert (H' : forall j, In j [i] -> (j < length embed)%nat) by (intros j [<-|[]]; exact H). destruct m.
  - destruct (C51_mean head embed [i] ltac:(discriminate) H') as (r & E & Hr). exists r. split; [exact E|]. intros x. rewrite Hr. unfold subword_coords, rsum. cbn. field.
  - destruct (C51_sum head embed [i] H') as (r & E & Hr). exists r. split; [exact E|]. intros x. rewrite Hr. unfold subword_coords, rsum. cbn. ring.
  - destruct (C51_weighted head embed [i] ltac:(discriminate) H') as (r & E & Hr). exists r. split; [exact E|]. intros x. rewrite Hr. unfold rsum. cbn. destruct head; field.
  - exists (nth i embed rzero). split; [|reflexivity]. destruct head; apply nthE_nth; exact H.
Qed.
(** all methods but the sum stay between the rows they combine *)
Theorem C51_between : forall m head embed ids r x lo hi, m <> SSum -> ids <> [] ->
  subword m head embed ids = Ok r -> (forall i, In i ids -> lo <= nth i embed rzero x <= hi) -> lo <= r x <= hi.
Proof.
  intros m head embed ids r x lo hi Hm Hn E Hb.
  assert (Div : forall s v, 0 < s -> lo * s <= v <= hi * s -> lo <= / s * v <= hi).
  { intros s v Hs (A & B). pose proof (Rinv_0_lt_compat s Hs) as Hi. split.
    - apply (Rmult_le_compat_l (/ s)) in A; [|lra]. replace (/ s * (lo * s)) with lo in A by (field; lra). exact A.
    - apply (Rmult_le_compat_l (/ s)) in B; [|lra]. replace (/ s * (hi * s)) with hi in B by (field; lra). exact B. }
  assert (Rb : forall rs, rows_at embed ids = Ok rs -> length rs = length ids /\ forall q, In q rs -> lo <= q x <= hi).
  { intros rs Hr. apply (rmapM_nthE_inv embed ids rzero) in Hr as (_ & ->). split; [apply map_length|]. intros q Hq. apply in_map_iff in Hq as (i & <- & Hi). auto. }
  assert (Lp : 0 < INR (length ids)) by (apply lt_0_INR; destruct ids; [congruence|cbn; lia]).
  destruct m; [|congruence| |]; cbn [subword] in E.
  - destruct (rows_at embed ids) as [rs|] eqn:Er; [|discriminate]. destruct (Rb rs eq_refl) as (L & B). cbn [rbind] in E.
    assert (r = rscale (/ INR (length ids)) (wsum (map (fun _ => 1) rs) rs)) as -> by (destruct rs; [destruct ids; [congruence|discriminate L]|congruence]).
    unfold rscale. apply Div; [exact Lp|]. pose proof (wsum_bounds x lo hi (map (fun _ => 1) rs) rs (map_length _ _) ltac:(intros w Hw; apply in_map_iff in Hw as (? & <- & _); lra) B) as W.
    rewrite rsum_const, L, Rmult_1_r in W. exact W.
  - destruct (rows_at embed ids) as [rs|] eqn:Er; [|discriminate]. destruct (Rb rs eq_refl) as (L & B). cbn [rbind] in E. set (ws := if head then _ else _) in E.
    assert (r = rscale (/ rsum ws) (wsum ws rs)) as -> by (destruct rs; [destruct ids; [congruence|discriminate L]|congruence]).
    assert (P : forall w, In w ws -> 0 < w) by (intros w Hw; unfold ws in Hw; destruct head; [|apply in_rev in Hw]; eapply counting_pos; exact Hw).
    assert (Lw : length ws = length ids) by (unfold ws; destruct head; rewrite ?rev_length; apply counting_length).
    unfold rscale. apply Div; [apply rsum_pos; [destruct ws; [destruct ids; [congruence|discriminate Lw]|discriminate]|exact P]|].
    apply wsum_bounds; [exact (eq_trans Lw (eq_sym L))|intros w Hw; specialize (P w Hw); lra|exact B].
  - destruct ids as [|i ids]; [congruence|]. apply (nthE_ok _ _ rzero) in E as (_ & ->). apply Hb. destruct head; [now left|]. apply last_In. discriminate.
Qed.
(** no subwords: a zero row; a subword beyond the rows of the matrix: IndexError *)
Theorem C51_empty : forall m head embed, exists r, subword m head embed [] = Ok r /\ forall x, r x = 0.
Proof. intros [] head embed; eexists; (split; [reflexivity|]); intros x; reflexivity. Qed.
Theorem C51_out_of_range : forall m head embed ids i, m <> SFirstLast -> In i ids -> (length embed <= i)%nat -> subword m head embed ids = Err IndexError.
Proof. intros [] head embed ids i Hm Hi L; try congruence; cbn [subword]; unfold rows_at; now rewrite (rmapM_nthE_err embed ids i Hi L). Qed.
(** for the embeddings the comment asks for the last subword to weigh most: the first does, and for the head the last does *)
Theorem C51_weight_order_refuted : forall embed i j, (i < length embed)%nat -> (j < length embed)%nat ->
  (exists r, subword SWeighted false embed [i; j] = Ok r /\ forall x, r x = 2 / 3 * nth i embed rzero x + 1 / 3 * nth j embed rzero x) /\
  (exists r, subword SWeighted true embed [i; j] = Ok r /\ forall x, r x = 1 / 3 * nth i embed rzero x + 2 / 3 * nth j embed rzero x).
Proof.
  intros embed i j Hi Hj. assert (H : forall k, In k [i; j] -> (k < length embed)%nat) by (intros k [<-|[<-|[]]]; assumption).
  split; [destruct (C51_weighted false embed [i; j] ltac:(discriminate) H) as (r & E & Hr)|destruct (C51_weighted true embed [i; j] ltac:(discriminate) H) as (r & E & Hr)];
  exists r; (split; [exact E|]); intros x; rewrite Hr; unfold rsum; cbn; field.
Qed.
Example C51_nonvacuous : exists r, subword SMean false [fun _ => 1; fun _ => 5; fun _ => 3] [0; 1]%nat = Ok r /\ r 0%nat = 3.
Proof.
  destruct (C51_mean false [fun _ => 1; fun _ => 5; fun _ => 3] [0; 1]%nat ltac:(discriminate) ltac:(intros i [<-|[<-|[]]]; cbn; lia)) as (r & E & Hr).
  exists r. split; [exact E|]. rewrite Hr. unfold subword_coords, rsum. cbn. lra.
Qed.

(** ** C52 interpolation between the nearest shared tokens *)
(** Euclidean metric: the row is an average, with positive weights, of the original rows of k different shared tokens; no other
    shared token is nearer to the target than a chosen one; a nearer token never weighs less. The weights add up to one if
    some chosen token is within 10^6 of the target. *)
Theorem C52_average : forall topk D k donor orig target r, is_topk topk -> length orig = length donor ->
  interpolate topk false D k donor orig target = Ok r ->
  exists idx ws, length idx = k /\ length ws = k /\ NoDup idx /\ (forall i, In i idx -> (i < length donor)%nat) /\
  (let dist i := distance false D target (nth i donor rzero) in
   (forall i j, In i idx -> (j < length donor)%nat -> ~ In j idx -> dist i <= dist j) /\
   (forall p q, (p < k)%nat -> (q < k)%nat -> dist (nth p idx 0%nat) <= dist (nth q idx 0%nat) -> nth q ws 0 <= nth p ws 0) /\
   (forall i, In i idx -> dist i <= 10 ^ 6 -> rsum ws = 1)) /\
  (forall w, In w ws -> 0 < w) /\
  forall x, r x = rsum (map (fun p => nth p ws 0 * nth (nth p idx 0%nat) orig rzero x) (seq 0 k)).
Proof.
  intros topk D k donor orig target r Ht Lo E. unfold interpolate in E. destruct (Nat.eqb k 0); [discriminate|].
  destruct (Nat.ltb_spec (length donor) k) as [|Hk]; [discriminate|]. cbv zeta in E. set (ds := map (distance false D target) donor) in E.
  assert (Ld : length ds = length donor) by apply map_length. destruct (Ht ds k ltac:(lia)) as (T1 & T2 & T3 & T4). set (idx := topk ds k) in *. clearbody idx.
  destruct (rmapM (nthE ds) idx) as [near|] eqn:En; [|discriminate]. apply (rmapM_nthE_inv ds idx 0) in En as (_ & ->). cbn [rbind] in E.
  destruct (rmapM (nthE orig) idx) as [rs|] eqn:Er; [|discriminate]. apply (rmapM_nthE_inv orig idx rzero) in Er as (_ & ->). cbn [rbind] in E.
  assert (Nd : forall i, (i < length donor)%nat -> nth i ds 0 = distance false D target (nth i donor rzero)) by (intros i Hi; unfold ds; now apply map_nth_in).
  set (ws := landmark_weights false (map (fun i => nth i ds 0) idx)) in E.
  assert (Lw : length ws = k) by (unfold ws; now rewrite weights_length, map_length).
  exists idx, ws. split; [exact T1|]. split; [exact Lw|]. split; [exact T2|]. split; [intros i Hi; rewrite <- Ld; auto|]. split; [|split].
  - cbv zeta. split; [|split].
    + intros i j Hi Hj Hn. rewrite <- !Nd by (try assumption; rewrite <- Ld; auto). apply T4; [exact Hi|lia|exact Hn].
    + intros p q Hp Hq H. assert (Np : forall p, (p < k)%nat -> (nth p idx 0 < length donor)%nat) by (intros n Hn; rewrite <- Ld; apply T3, nth_In; lia).
      apply weights_mono; [rewrite map_length; lia|rewrite map_length; lia|]. rewrite !(map_nth_in _ idx _ 0%nat) by lia. rewrite !Nd by auto. exact H.
    + intros i Hi Hle. apply (weights_sum _ (nth i ds 0)); [apply in_map_iff; now exists i|]. rewrite Nd; [exact Hle|rewrite <- Ld; auto].
  - intros w Hw. eapply weights_pos. exact Hw.
  - intros x. injection E as <-. rewrite wsum_seq by (rewrite map_length; congruence). rewrite map_length, T1. apply rsum_ext. intros p Hp. apply in_seq in Hp.
    now rewrite (map_nth_in _ idx p 0%nat) by lia.
Qed.
(** hence every coordinate lies between those of the chosen tokens *)
Theorem C52_between : forall topk D k donor orig target r x lo hi, is_topk topk -> length orig = length donor ->
  interpolate topk false D k donor orig target = Ok r ->
  (forall i, (i < length donor)%nat -> distance false D target (nth i donor rzero) <= 10 ^ 6) ->
  (forall i, (i < length orig)%nat -> lo <= nth i orig rzero x <= hi) -> lo <= r x <= hi.
Proof.
  intros topk D k donor orig target r x lo hi Ht Lo E Hd Hb.
  assert (Hk : (0 < k)%nat) by (unfold interpolate in E; destruct (Nat.eqb_spec k 0); [discriminate|lia]).
  destruct (C52_average topk D k donor orig target r Ht Lo E) as (idx & ws & L1 & L2 & _ & Hin & (_ & _ & Hs) & Hp & Hr).
  assert (Hi0 : In (nth 0 idx 0%nat) idx) by (apply nth_In; lia). specialize (Hs _ Hi0 (Hd _ (Hin _ Hi0))).
  pose proof (wsum_bounds x lo hi ws (map (fun i => nth i orig rzero) idx) ltac:(rewrite map_length; congruence) ltac:(intros w Hw; specialize (Hp w Hw); lra)
    ltac:(intros q Hq; apply in_map_iff in Hq as (i & <- & Hi); apply Hb; rewrite Lo; auto)) as W.
  rewrite Hs, wsum_seq, map_length, L1 in W by (rewrite map_length; congruence). rewrite Hr.
  rewrite !Rmult_1_r in W. erewrite rsum_ext in W; [exact W|]. intros p Hpp. apply in_seq in Hpp. cbv beta. now rewrite (map_nth_in _ idx p 0%nat) by lia.
Qed.
(** k = 1 copies the nearest shared token *)
Theorem C52_nearest : forall topk D donor orig target r, is_topk topk -> length orig = length donor ->
  interpolate topk false D 1 donor orig target = Ok r ->
  (forall i, (i < length donor)%nat -> distance false D target (nth i donor rzero) <= 10 ^ 6) ->
  exists i, (i < length donor)%nat /\ (forall j, (j < length donor)%nat -> distance false D target (nth i donor rzero) <= distance false D target (nth j donor rzero)) /\
  forall x, r x = nth i orig rzero x.
Proof.
  intros topk D donor orig target r Ht Lo E Hd.
  destruct (C52_average topk D 1 donor orig target r Ht Lo E) as (idx & ws & L1 & L2 & _ & Hin & (Hn & _ & Hs) & Hp & Hr).
  destruct idx as [|i [|]]; try discriminate. destruct ws as [|w [|]]; try discriminate. exists i. split; [apply Hin; now left|]. split.
  - intros j Hj. destruct (Nat.eq_dec j i) as [->|Hne]; [lra|]. apply Hn; [now left|exact Hj|intros [H|[]]; congruence].
  - specialize (Hs i (or_introl eq_refl) (Hd i (Hin i (or_introl eq_refl)))). unfold rsum in Hs. cbn in Hs. intros x. rewrite Hr. unfold rsum. cbn. replace w with 1 by lra. ring.
Qed.
(** fewer shared tokens than k: the run fails *)
Theorem C52_too_few : forall topk c D k donor orig target, (length donor < k)%nat -> interpolate topk c D k donor orig target = Err RuntimeError.
Proof. intros. unfold interpolate. destruct (Nat.eqb_spec k 0); [lia|]. destruct (Nat.ltb_spec (length donor) k); [reflexivity|lia]. Qed.
(** cosine metric: weights are similarities over their sum clamped at 10^-6, so tokens pointing away from the target give huge
    negative weights *)
Theorem C52_cosine_refuted : landmark_weights true [3 / 2; 3 / 2] = [-500000; -500000].
Proof. unfold landmark_weights, rsum. cbn [map fold_right]. rewrite Rmax_right by (unfold tiny; cbn; lra). unfold tiny. cbn. f_equal; [field|f_equal; field]. Qed.
(** Euclidean metric, far away: the weights do not add up to one *)
Theorem C52_far_refuted : rsum (landmark_weights false [10 ^ 13]) = / 10 ^ 7.
Proof.
  unfold landmark_weights. cbv zeta. cbn [map]. unfold rsum. cbn [fold_right]. assert (H : tiny <= 10 ^ 13) by (unfold tiny; cbn; lra).
  rewrite (Rmax_left _ _ H). rewrite Rmax_right; unfold tiny; [field|]; cbn; lra.
Qed.
(** in one dimension: shared tokens at 0, 1 and 9 with original rows 5, 7 and 100, target at 1/4, two neighbours *)
Example C52_nonvacuous : exists r,
  interpolate sort_topk false 1 2 [fun _ => 0; fun _ => 1; fun _ => 9] [fun _ => 5; fun _ => 7; fun _ => 100] (fun _ => / 4) = Ok r.
Proof.
  unfold interpolate. cbn [Nat.eqb length Nat.ltb Nat.leb]. cbv zeta. set (ds := map _ _).
  destruct (sort_is_topk ds 2%nat ltac:(cbn; lia)) as (_ & _ & H & _).
  rewrite (rmapM_nthE ds _ 0) by exact H. cbn [rbind]. rewrite (rmapM_nthE _ _ rzero); [|intros i Hi; exact (H i Hi)]. cbn [rbind]. eauto.
Qed.
Print Assumptions C51_weighted.
Print Assumptions C52_average.
Print Assumptions C52_between.
