(** C80: the tokens assumed to be well trained. *)
From Coq Require Import Reals Lra Lia Sorting.Permutation Sorting.Sorted.
From Verif.Base Require Import LinAlg RList Py PyFacts.
From Verif.TokenSurgeon Require Import Model Spec Approx Magikarp MagikarpSpec MagikarpProofs Proofs Props.
Local Open Scope string_scope.
Local Open Scope list_scope.
Local Open Scope R_scope.

Lemma rsum_perm l l' : Permutation l l' -> rsum l = rsum l'.
Proof. unfold rsum. induction 1; cbn; try lra. Qed.
Lemma mean_of_unique m ids a b : mean_of m ids a -> mean_of m ids b -> forall j, a j = b j.
Proof.
  intros (l & N & I & _ & Ha) (l' & N' & I' & _ & Hb) j. rewrite Ha, Hb.
  assert (P : Permutation l l') by (apply NoDup_Permutation; [exact N|exact N'|]; intros x; now rewrite I, I').
  rewrite (Permutation_length P). f_equal. apply rsum_perm. now apply Permutation_map.
Qed.
Lemma cosine_ext D x y y' : (forall j, y j = y' j) -> cosine D x y = cosine D x y'.
Proof.
  intros E. unfold cosine. rewrite (Sum_ext D (fun j => x j * y j) (fun j => x j * y' j)) by (intros; now rewrite E).
  rewrite (Sum_ext D (fun j => y j * y j) (fun j => y' j * y' j)) by (intros; now rewrite !E). reflexivity.
Qed.

Lemma nthE_rows m l rs : rmapM (nthE m) l = Ok rs -> rs = map (row_at m) l /\ forall i, In i l -> (i < length m)%nat.
Proof.
  intros H. apply rmapM_Ok_Forall2 in H. induction H as [|i r l rs Hi _ (-> & IH)]; [split; [reflexivity|intros ? []]|].
  unfold nthE in Hi. destruct (nth_error m i) as [r'|] eqn:E; [|discriminate]. injection Hi as ->. split.
  - cbn. f_equal. unfold row_at. symmetry. now apply nth_error_nth.
  - intros j [<-|Hj]; [|auto]. apply nth_error_Some. congruence.
Qed.
Lemma nthE_total m l : (forall i, In i l -> (i < length m)%nat) -> rmapM (nthE m) l = Ok (map (row_at m) l).
Proof.
  intros H. apply rmapM_Ok_Forall2. induction l as [|i l IH]; [constructor|]. constructor; [|apply IH; intros; apply H; now right].
  unfold nthE. rewrite (nth_error_nth' m rzero) by (apply H; now left). reflexivity.
Qed.

Section Run.
Variable listing : list nat -> list nat.
Hypothesis Hlisting : forall l, Permutation (listing l) l.

Lemma mean_unused_ok m us mean : NoDup us -> us <> [] -> mean_unused listing m us = Ok mean ->
  mean_of m (fun i => In i us) mean /\ forall i, In i us -> (i < length m)%nat.
Proof.
  intros N Hne H. unfold mean_unused in H. destruct (rmapM (nthE m) (listing us)) as [rs|] eqn:E; [|discriminate]. cbn [rbind] in H. injection H as <-.
  apply nthE_rows in E as (-> & Hb). split.
  - exists (listing us). split; [apply (Permutation_NoDup (Permutation_sym (Hlisting us)) N)|]. split; [|split].
    + intros i. split; apply Permutation_in; [apply Hlisting|apply Permutation_sym, Hlisting].
    + intros E. apply Hne. apply Permutation_nil. rewrite <- E. apply Hlisting || apply Permutation_sym, Hlisting.
    + intros j. rewrite map_map, map_length. reflexivity.
  - intros i Hi. apply Hb. apply (Permutation_in _ (Permutation_sym (Hlisting us)) Hi).
Qed.
Lemma mean_unused_total m us : (forall i, In i us -> (i < length m)%nat) -> exists mean, mean_unused listing m us = Ok mean.
Proof.
  intros H. unfold mean_unused. rewrite nthE_total; [cbn [rbind]; eauto|]. intros i Hi. apply H. apply (Permutation_in _ (Hlisting us) Hi).
Qed.

Lemma low_norm_spec D m q low : low_norm D m q = Ok low -> NoDup low /\ (forall i, In i low <-> short D m q i) /\ INR (length low) < q * (INR (length m) - 1) + 1 /\ m <> [] /\ 0 <= q <= 1.
Proof.
  unfold low_norm. cbv zeta. intros H. destruct (quantile (map (nrm D) m) q) as [t|] eqn:E; [|discriminate]. cbn [rbind] in H. injection H as <-.
  destruct (quantile_fails _ _ _ E) as (Hq & Hne). destruct (quantile_ok _ q Hq Hne) as (t' & E' & Ht). rewrite E in E'. injection E' as <-.
  rewrite map_length in Ht.
  assert (En : forall i, (i < length m)%nat -> nth i (map (nrm D) m) 0 = sqrt (Sum D (fun j => row_at m i j * row_at m i j))).
  { intros i Hi. rewrite (nth_indep _ 0 (nrm D rzero)), map_nth by (rewrite map_length; exact Hi). reflexivity. }
  apply (is_quantile_ext _ _ _ _ _ En) in Ht.
  assert (N : NoDup (filter (fun i => if Rlt_dec (nth i (map (nrm D) m) 0) t then true else false) (seq 0 (length m)))) by (apply NoDup_filter, seq_NoDup).
  assert (I : forall i, In i (filter (fun i => if Rlt_dec (nth i (map (nrm D) m) 0) t then true else false) (seq 0 (length m))) <->
     (i < length m)%nat /\ sqrt (Sum D (fun j => row_at m i j * row_at m i j)) < t).
  { intros i. rewrite filter_In, in_seq. split.
    - intros (Hi & L). split; [lia|]. rewrite <- En by lia. destruct (Rlt_dec _ t); [assumption|discriminate].
    - intros (Hi & L). split; [lia|]. rewrite En by lia. destruct (Rlt_dec _ t); [reflexivity|contradiction]. }
  split; [exact N|]. split; [|split; [|split; [intros ->; now apply Hne|exact Hq]]].
  - intros i. rewrite I. unfold short. split.
    + intros (Hi & L). split; [exact Hi|]. cbv zeta. eauto.
    + intros (Hi & t' & Ht' & L). split; [exact Hi|]. rewrite (quantile_spec _ _ _ _ Ht _ Ht'). exact L.
  - apply (few_below _ _ _ _ _ Ht N). intros i Hi. now apply I.
Qed.
Lemma too_similar_spec D m ids mean q l : mean_of m ids mean -> too_similar D m mean q = Ok l ->
  NoDup l /\ (forall i, In i l <-> like_unused D m ids q i) /\ INR (length l) < q * (INR (length m) - 1) + 1 /\ m <> [] /\ 0 <= q <= 1.
Proof.
  unfold too_similar. cbv zeta. intros Hm H. set (sims := map (fun r => similarity D r mean) m) in *.
  destruct (quantile sims (1 - q)) as [t|] eqn:E; [|discriminate]. cbn [rbind] in H. injection H as <-.
  destruct (quantile_fails _ _ _ E) as (Hq & Hne). destruct (quantile_ok _ _ Hq Hne) as (t' & E' & Ht). rewrite E in E'. injection E' as <-.
  assert (En : forall i, (i < length m)%nat -> nth i sims 0 = cosine D (row_at m i) mean).
  { intros i Hi. unfold sims. rewrite (nth_indep _ 0 (similarity D rzero mean)) by (rewrite map_length; exact Hi). rewrite (map_nth (fun r => similarity D r mean)). reflexivity. }
  unfold sims at 1 in Ht. rewrite map_length in Ht. apply (is_quantile_ext _ _ _ _ _ En) in Ht.
  set (t2 := if Rlt_dec t (/ 2) then / 2 else t).
  assert (H2 : forall x, t2 < x <-> t < x /\ / 2 < x) by (intros x; unfold t2; destruct (Rlt_dec t (/ 2)); lra).
  set (l := filter _ _).
  assert (N : NoDup l) by (apply NoDup_filter, seq_NoDup).
  assert (I : forall i, In i l <-> (i < length m)%nat /\ t < cosine D (row_at m i) mean /\ / 2 < cosine D (row_at m i) mean).
  { intros i. unfold l. rewrite filter_In, in_seq. rewrite <- H2. split.
    - intros (Hi & L). split; [lia|]. rewrite <- En by lia. destruct (Rlt_dec t2 _); [assumption|discriminate].
    - intros (Hi & L). split; [lia|]. rewrite En by lia. destruct (Rlt_dec t2 _); [reflexivity|contradiction]. }
  split; [exact N|]. split; [|split; [|split; [intros ->; now apply Hne|lra]]].
  - intros i. rewrite I. unfold like_unused. split.
    + intros (Hi & L). split; [exact Hi|]. exists mean, t. auto.
    + intros (Hi & mean' & t' & Hm' & Ht' & L). split; [exact Hi|].
      assert (Ec : forall x, cosine D x mean' = cosine D x mean) by (intros x; apply cosine_ext; exact (mean_of_unique m ids _ _ Hm' Hm)).
      rewrite Ec in L. apply (is_quantile_ext _ _ (fun k => cosine D (row_at m k) mean)) in Ht'; [|intros; apply Ec].
      rewrite (quantile_spec _ _ _ _ Ht _ Ht'). exact L.
  - apply (few_above _ _ _ _ _ Ht N). intros i Hi. apply I in Hi. tauto.
Qed.
Lemma mean_of_iff m (P Q : nat -> Prop) mean : (forall i, P i <-> Q i) -> mean_of m P mean -> mean_of m Q mean.
Proof. intros E (l & N & I & H). exists l. split; [exact N|]. split; [|exact H]. intros i. now rewrite I. Qed.
Lemma like_none D m ids q i : (forall k, ~ ids k) -> ~ like_unused D m ids q i.
Proof. intros H (_ & mean & t & (l & _ & I & Hne & _) & _). destruct l as [|k l]; [congruence|]. apply (H k), I. now left. Qed.

Variables (D D' : nat) (vocab : dict ntok nat) (embed : list row) (head : option (list row)) (listed : list ntok) (q : R).
Hypothesis Hvocab : NoDup (dkeys vocab).
Notation nothing := (stands_for_nothing vocab (length embed) listed).

Lemma run good : well_trained listing D D' vocab embed head listed q = Ok good ->
  exists bad low sim simo, good = map fst (filter (fun ti => negb (mem (snd ti) bad)) vocab) /\
    (forall i, In i bad <-> nothing i \/ In i low \/ In i sim \/ In i simo) /\
    (forall i, In i low <-> head <> None /\ short D embed q i) /\
    (forall i, In i sim <-> like_unused D embed nothing q i) /\
    (forall i, In i simo <-> exists h, head = Some h /\ like_unused D' h nothing q i) /\
    (forall i, nothing i -> (i < length embed)%nat /\ forall h, head = Some h -> (i < length h)%nat) /\
    (head <> None \/ (exists i, nothing i) -> embed <> [] /\ 0 <= q <= 1) /\
    (low = [] \/ INR (length low) < q * (INR (length embed) - 1) + 1) /\
    (sim = [] \/ INR (length sim) < q * (INR (length embed) - 1) + 1) /\
    (simo = [] \/ exists h, head = Some h /\ INR (length simo) < q * (INR (length h) - 1) + 1).
Proof.
  unfold well_trained. cbv zeta. pose proof (unused_spec vocab (length embed) listed) as HU. pose proof (unused_NoDup vocab (length embed) listed) as HN.
  set (us := unused_indices vocab (length embed) listed) in *. clearbody us. intros H.
  destruct us as [|u0 us'].
  - cbn [rbind] in H. assert (Hno : forall k, ~ nothing k) by (intros k Hk; apply (HU k Hvocab) in Hk; destruct Hk).
    destruct head as [h|].
    + destruct (low_norm D embed q) as [low|] eqn:El; [|discriminate]. cbn [rbind] in H. injection H as <-.
      destruct (low_norm_spec _ _ _ _ El) as (_ & L1 & L2 & L3 & L4).
      exists ([] ++ low ++ [] ++ []), low, [], []. split; [reflexivity|]. split; [intros i; rewrite !in_app_iff; split; [tauto|intros [K|K]; [destruct (Hno _ K)|tauto]]|].
      split; [intros i; rewrite L1; split; [split; [discriminate|assumption]|tauto]|].
      split; [intros i; split; [intros []|intros K; destruct (like_none _ _ _ _ _ Hno K)]|].
      split; [intros i; split; [intros []|intros (h' & _ & K); destruct (like_none _ _ _ _ _ Hno K)]|].
      split; [intros i K; destruct (Hno _ K)|]. split; [auto|]. auto.
    + cbn [rbind] in H. injection H as <-. exists [], [], [], []. split; [reflexivity|].
      split; [intros i; cbn; split; [tauto|intros [K|K]; [destruct (Hno _ K)|tauto]]|]. split; [intros i; split; [intros []|tauto]|].
      split; [intros i; split; [intros []|intros K; destruct (like_none _ _ _ _ _ Hno K)]|].
      split; [intros i; split; [intros []|intros (h' & [=] & _)]|].
      split; [intros i K; destruct (Hno _ K)|]. split; [intros [K|(i & K)]; [congruence|destruct (Hno _ K)]|]. auto.
  - set (us := u0 :: us') in *. assert (Hne : us <> []) by discriminate. clearbody us.
    change (match us with [] => _ | _ => ?x end) with (match us with [] => Ok None | _ => x end) in H || idtac.
    destruct (mean_unused listing embed us) as [mi|] eqn:Ei; [|destruct us; [congruence|discriminate]].
    destruct (mean_unused_ok _ _ _ HN Hne Ei) as (Mi & Bi). apply (mean_of_iff _ _ nothing _ (fun i => HU i Hvocab)) in Mi.
    destruct head as [h|].
    + destruct (mean_unused listing h us) as [mo|] eqn:Eo; [|destruct us; [congruence|discriminate]].
      destruct (mean_unused_ok _ _ _ HN Hne Eo) as (Mo & Bo). apply (mean_of_iff _ _ nothing _ (fun i => HU i Hvocab)) in Mo.
      replace (match us with [] => Ok None | _ :: _ => _ end) with (@Ok (option (row * option row)) (Some (mi, Some mo))) in H by (destruct us; [congruence|reflexivity]).
      cbn [rbind] in H. destruct (low_norm D embed q) as [low|] eqn:El; [|discriminate]. cbn [rbind] in H.
      destruct (too_similar D embed mi q) as [sim|] eqn:Es; [|discriminate]. cbn [rbind] in H.
      destruct (too_similar D' h mo q) as [simo|] eqn:Eso; [|discriminate]. cbn [rbind] in H. injection H as <-.
      destruct (low_norm_spec _ _ _ _ El) as (_ & L1 & L2 & L3 & L4). destruct (too_similar_spec _ _ _ _ _ _ Mi Es) as (_ & S1 & S2 & _).
      destruct (too_similar_spec _ _ _ _ _ _ Mo Eso) as (_ & T1 & T2 & _).
      exists (us ++ low ++ sim ++ simo), low, sim, simo. split; [reflexivity|].
      split; [intros i; rewrite !in_app_iff, (HU i Hvocab); tauto|].
      split; [intros i; rewrite L1; split; [split; [discriminate|assumption]|tauto]|]. split; [exact S1|].
      split; [intros i; rewrite T1; split; [eauto|intros (h' & [= <-] & K); exact K]|].
      split; [intros i K; apply (HU i Hvocab) in K; split; [auto|]; intros h' [= <-]; auto|]. split; [auto|]. eauto 8.
    + replace (match us with [] => Ok None | _ :: _ => _ end) with (@Ok (option (row * option row)) (Some (mi, None))) in H by (destruct us; [congruence|reflexivity]).
      cbn [rbind] in H.
      destruct (too_similar D embed mi q) as [sim|] eqn:Es; [|discriminate]. cbn [rbind] in H. injection H as <-.
      destruct (too_similar_spec _ _ _ _ _ _ Mi Es) as (_ & S1 & S2 & S3 & S4).
      exists (us ++ [] ++ sim ++ []), [], sim, []. split; [reflexivity|].
      split; [intros i; rewrite !in_app_iff, (HU i Hvocab); cbn; tauto|].
      split; [intros i; split; [intros []|intros (K & _); congruence]|]. split; [exact S1|].
      split; [intros i; split; [intros []|intros (h' & [=] & K)]|].
      split; [intros i K; apply (HU i Hvocab) in K; split; [auto|]; intros h' [=]|]. split; [auto|]. auto.
Qed.

(** The tokens returned are those of the vocabulary, in its order, whose id stands for something, whose row is not among the
    shortest (if there is an output matrix), and whose rows do not look like those that stand for nothing. *)
Theorem C80_kept good : well_trained listing D D' vocab embed head listed q = Ok good ->
  exists keep, good = map fst (filter keep vocab) /\
  forall t i, In (t, i) vocab ->
    (keep (t, i) = true <-> ~ nothing i /\ (head <> None -> ~ short D embed q i) /\
                            ~ like_unused D embed nothing q i /\ forall h, head = Some h -> ~ like_unused D' h nothing q i).
Proof.
  intros H. destruct (run good H) as (bad & low & sim & simo & -> & Hb & Hl & Hs & Ho & _). eexists. split; [reflexivity|].
  intros t i Hin. cbn [snd]. rewrite negb_true_iff, mem_nIn, Hb, Hl, Hs, Ho. split.
  - intros K. repeat split; try tauto. intros h Eh K'. apply K. right. right. right. eauto.
  - intros (K1 & K2 & K3 & K4) [K|[(K & K')|[K|(h & Eh & K)]]]; [tauto|exact (K2 K K')|tauto|exact (K4 h Eh K)].
Qed.

(** It fails exactly when a matrix has no row for an id that stands for nothing, or a quantile cannot be taken. *)
Theorem C80_succeeds : (exists good, well_trained listing D D' vocab embed head listed q = Ok good) <->
  (forall i, nothing i -> (i < length embed)%nat /\ forall h, head = Some h -> (i < length h)%nat) /\
  (head <> None \/ (exists i, nothing i) -> embed <> [] /\ 0 <= q <= 1).
Proof.
  split.
  - intros (good & H). destruct (run good H) as (bad & low & sim & simo & _ & _ & _ & _ & _ & H1 & H2 & _). auto.
  - intros (H1 & H2). unfold well_trained. cbv zeta. pose proof (unused_spec vocab (length embed) listed) as HU.
    set (us := unused_indices vocab (length embed) listed) in *. clearbody us.
    assert (Hq : forall xs q', (xs : list R) <> [] -> 0 <= q' <= 1 -> exists t, quantile xs q' = Ok t) by (intros xs q' A B; destruct (quantile_ok xs q' B A) as (t & Et & _); eauto).
    assert (Hlow : embed <> [] -> 0 <= q <= 1 -> exists l, low_norm D embed q = Ok l).
    { intros A B. unfold low_norm. cbv zeta. destruct (Hq (map (nrm D) embed) q) as (t & ->); [destruct embed; [congruence|discriminate]|exact B|]. cbn [rbind]. eauto. }
    assert (Hsim : forall D m mean, m <> [] -> 0 <= q <= 1 -> exists l, too_similar D m mean q = Ok l).
    { intros D0 m mean A B. unfold too_similar. cbv zeta. destruct (Hq (map (fun r => similarity D0 r mean) m) (1 - q)) as (t & ->); [destruct m; [congruence|discriminate]|lra|]. cbn [rbind]. eauto. }
    destruct us as [|u0 us'].
    + cbn [rbind]. destruct head as [h|]; [|cbn [rbind]; eauto]. destruct H2 as (A & B); [left; discriminate|]. destruct (Hlow A B) as (l & ->). cbn [rbind]. eauto.
    + assert (Hn : nothing u0) by (apply (HU u0 Hvocab); now left). destruct H2 as (A & B); [eauto|].
      destruct (mean_unused_total embed (u0 :: us')) as (mi & ->); [intros i Hi; exact (proj1 (H1 i (proj1 (HU i Hvocab) Hi)))|].
      destruct head as [h|].
      * destruct (mean_unused_total h (u0 :: us')) as (mo & ->); [intros i Hi; exact (proj2 (H1 i (proj1 (HU i Hvocab) Hi)) h eq_refl)|].
        cbn [rbind]. destruct (Hlow A B) as (l & ->). cbn [rbind]. destruct (Hsim D embed mi A B) as (l1 & ->). cbn [rbind].
        destruct (Hsim D' h mo) as (l2 & ->); [|exact B|cbn [rbind]; eauto]. intros ->. pose proof (proj2 (H1 u0 Hn) [] eq_refl) as K. cbn in K. lia.
      * cbn [rbind]. destruct (Hsim D embed mi A B) as (l1 & ->). cbn [rbind]. eauto.
Qed.

(** Few tokens with a meaning are discarded: for each of the up to three filters, less than one more than the share q of the
    other rows. *)
Theorem C80_few_discarded good ts : well_trained listing D D' vocab embed head listed q = Ok good -> NoDup (dvals vocab) ->
  NoDup ts -> (forall t, In t ts -> ~ In t good /\ exists i, In (t, i) vocab /\ ~ nothing i) ->
  match head with
  | None => ts = [] \/ INR (length ts) < q * (INR (length embed) - 1) + 1
  | Some h => ts = [] \/ INR (length ts) < 2 * (q * (INR (length embed) - 1) + 1) + (q * (INR (length h) - 1) + 1)
  end.
Proof.
  intros H Hinj Hts Hin. destruct (run good H) as (bad & low & sim & simo & -> & Hb & Hl & Hs & Ho & _ & Hc & B1 & B2 & B3).
  assert (Hi : exists is_, length is_ = length ts /\ NoDup is_ /\ forall i, In i is_ -> In i low \/ In i sim \/ In i simo).
  { exists (map (fun t => match dget vocab t with Some i => i | None => O end) ts). rewrite map_length. split; [reflexivity|]. split.
    - assert (Hd : forall t, In t ts -> exists i, In (t, i) vocab) by (intros t Ht; destruct (Hin t Ht) as (_ & i & Hi & _); eauto).
      clear -Hts Hd Hinj Hvocab. induction Hts as [|t ts Hn _ IH]; cbn; [constructor|]. constructor; [|apply IH; intros; apply Hd; now right].
      intros K. apply in_map_iff in K as (t' & E & Ht'). apply Hn. destruct (Hd t (or_introl eq_refl)) as (i & Hi). destruct (Hd t' (or_intror Ht')) as (i' & Hi').
      rewrite (dget_In_NoDup vocab t i Hvocab Hi), (dget_In_NoDup vocab t' i' Hvocab Hi') in E. subst i'.
      enough (t' = t) as -> by exact Ht'. clear -Hinj Hi Hi'. unfold dvals in Hinj. induction vocab as [|[a b] v IH]; [destruct Hi|]. cbn in Hinj. inversion_clear Hinj.
      destruct Hi as [E1|Hi], Hi' as [E2|Hi']; [congruence| | |auto]; exfalso; apply H; apply in_map_iff; [exists (t', i)|exists (t, i)]; split; try assumption; cbn; congruence.
    - intros i K. apply in_map_iff in K as (t & <- & Ht). destruct (Hin t Ht) as (Hg & i & Hi & Hn). rewrite (dget_In_NoDup vocab t i Hvocab Hi).
      destruct (mem i bad) eqn:Em; [apply mem_In, Hb in Em; tauto|]. exfalso. apply Hg. apply in_map_iff. exists (t, i). split; [reflexivity|]. apply filter_In. cbn [snd]. rewrite Em. auto. }
  destruct Hi as (l & <- & Nl & Il). destruct ts as [|t0 ts'] eqn:Ets.
  { destruct head; left; reflexivity. }
  assert (Hlen : (length l <= length low + length sim + length simo)%nat).
  { rewrite <- app_length, <- app_length. apply NoDup_incl_length; [exact Nl|]. intros i Hi. rewrite !in_app_iff. specialize (Il i Hi). tauto. }
  apply le_INR in Hlen. rewrite !plus_INR in Hlen.
  destruct (list_eq_dec Nat.eq_dec (low ++ sim ++ simo) []) as [En|En].
  { exfalso. destruct (Hin t0 (or_introl eq_refl)) as (Hg & i & Hi & Hn). apply Hg. apply in_map_iff. exists (t0, i). split; [reflexivity|]. apply filter_In.
    split; [exact Hi|]. cbn [snd]. rewrite negb_true_iff, mem_nIn, Hb. intros [K|K]; [exact (Hn K)|]. rewrite <- !in_app_iff, En in K. destruct K. }
  assert (He : embed <> [] /\ 0 <= q <= 1).
  { apply Hc. destruct head as [h|]; [left; discriminate|]. right.
    assert (Hx : exists i, In i sim).
    { destruct low as [|i low]; [|destruct (proj1 (proj1 (Hl i) (or_introl eq_refl)) eq_refl)]. destruct simo as [|i simo]; [|destruct (proj1 (Ho i) (or_introl eq_refl)) as (h & [=] & _)].
      destruct sim as [|i sim]; [now destruct En|]. exists i. now left. }
    destruct Hx as (i & Hx). apply Hs in Hx as (_ & mean & t & (l0 & _ & I0 & Hne & _) & _). destruct l0 as [|k l0]; [congruence|]. exists k. apply I0. now left. }
  destruct He as (He & Hq).
  assert (Hn1 : 0 <= INR (length embed) - 1). { destruct embed as [|e em]; [congruence|]. cbn [length]. rewrite S_INR. pose proof (pos_INR (length em)). lra. }
  assert (P1 : INR (length low) < q * (INR (length embed) - 1) + 1) by (destruct B1 as [->|B1]; [cbn; nra|exact B1]).
  assert (P2 : INR (length sim) < q * (INR (length embed) - 1) + 1) by (destruct B2 as [->|B2]; [cbn; nra|exact B2]).
  destruct head as [h|].
  - assert (P3 : INR (length simo) <= q * (INR (length h) - 1) + 1).
    { destruct B3 as [->|(h' & [= <-] & B3)]; [|lra]. cbn. pose proof (pos_INR (length h)). nra. }
    right. lra.
  - destruct low as [|i low]; [|destruct (proj1 (proj1 (Hl i) (or_introl eq_refl)) eq_refl)]. destruct simo as [|i simo]; [|destruct (proj1 (Ho i) (or_introl eq_refl)) as (h & [=] & _)].
    right. cbn [length INR] in Hlen. lra.
Qed.
End Run.

(** A token without a row in either matrix counts as well trained. *)
Theorem C80_without_row_refuted listing D D' vocab embed head q good t i : (forall l, Permutation (listing l) l) -> is_vocab vocab ->
  well_trained listing D D' vocab embed head [] q = Ok good ->
  In (t, i) vocab -> (length embed <= i)%nat -> (forall h, head = Some h -> (length h <= i)%nat) -> placeholder t = false -> In t good.
Proof.
  intros HL (Hv & Hi) H Hin Hlen Hh Hp. destruct (C80_kept listing HL D D' vocab embed head [] q Hv good H) as (keep & -> & Hk).
  apply in_map_iff. exists (t, i). split; [reflexivity|]. apply filter_In. split; [exact Hin|]. apply (Hk t i Hin). split; [|split; [|split]].
  - intros [(K & _)|(t' & K & K')]; [lia|]. assert (E : t' = t).
    { clear -Hi K Hin. unfold dvals in Hi. induction vocab as [|[a b] v IH]; [destruct K|]. cbn in Hi. inversion_clear Hi.
      destruct Hin as [E1|Hin], K as [E2|K]; [congruence| | |auto]; exfalso; apply H; apply in_map_iff; [exists (t', i)|exists (t, i)]; split; try assumption; cbn; congruence. }
    rewrite E in K'. unfold placeholder in Hp. apply orb_false_iff in Hp as (P1 & P2). destruct K' as [[]|[K'|K']]; apply contains_mentions in K'; congruence.
  - intros _ (K & _). lia.
  - intros (K & _). lia.
  - intros h Eh (K & _). specialize (Hh h Eh). lia.
Qed.

(** What happens to placeholders: a donor token whose id stands for nothing in the donor's model, and which the original model does
    not have or has as one that stands for nothing, gets a zero row in every matrix written. *)
Theorem C80_placeholders {V} (zero : V) approx c eo lo (oe de oh dh : option (list V)) ov dv e h
    listing (D Dd : nat) (oe' de' : list row) (oh' dh' : option (list row)) q wo wd t i :
  (forall l, Permutation (listing l) l) -> is_vocab ov -> is_vocab dv ->
  well_trained listing D D ov oe' oh' [] q = Ok wo -> well_trained listing Dd Dd dv de' dh' [] q = Ok wd ->
  surgery zero approx c (Some (wo, wd)) eo lo oe de oh dh ov dv = Ok (e, h) ->
  In (t, i) dv -> stands_for_nothing dv (length de') [] i -> (forall k, In (t, k) ov -> stands_for_nothing ov (length oe') [] k) ->
  (forall m, e = Some m -> nth_error m i = Some zero) /\ (forall m, h = Some m -> nth_error m i = Some zero).
Proof.
  intros HL (Ho & _) Hd Hwo Hwd Hs Hin Hn Hno.
  assert (H1 : ~ In t wd).
  { destruct (C80_kept listing HL Dd Dd dv de' dh' [] q (proj1 Hd) wd Hwd) as (keep & -> & Hk). intros K. apply in_map_iff in K as ((t' & i') & Et & K). cbn in Et. subst t'.
    apply filter_In in K as (K & Kk). apply (Hk t i' K) in Kk as (Kk & _). apply Kk.
    assert (E : i' = i). { apply (dget_In_NoDup _ _ _ (proj1 Hd)) in K, Hin. congruence. } rewrite E. exact Hn. }
  assert (H2 : ~ In t wo).
  { destruct (C80_kept listing HL D D ov oe' oh' [] q Ho wo Hwo) as (keep & -> & Hk). intros K. apply in_map_iff in K as ((t' & i') & Et & K). cbn in Et. subst t'.
    apply filter_In in K as (K & Kk). apply (Hk t i' K) in Kk as (Kk & _). exact (Kk (Hno i' K)). }
  assert (Hj : In i (magikarp_junk wo wd dv)) by (apply (proj1 (C47_magikarp wo wd ov dv)); eauto).
  unfold surgery in Hs.
  destruct (one_matrix zero approx c false eo oe de (magikarp_orig wo wd ov) dv (magikarp_junk wo wd dv)) as [e'|] eqn:Ee; [|discriminate].
  destruct (one_matrix zero approx c true lo oh dh (magikarp_orig wo wd ov) dv (magikarp_junk wo wd dv)) as [h'|] eqn:Eh; [|discriminate].
  cbn [rbind] in Hs. injection Hs as <- <-.
  assert (Hm : forall b opt o d m, one_matrix zero approx c b opt o d (magikarp_orig wo wd ov) dv (magikarp_junk wo wd dv) = Ok (Some m) -> nth_error m i = Some zero).
  { intros b opt o d m Hb. unfold one_matrix in Hb. destruct o as [o|]; [|destruct opt; discriminate]. destruct d as [d|]; [|discriminate].
    match type of Hb with (let! m := ?x in _) = _ => destruct x as [m'|] eqn:Em end; [|discriminate]. cbn [rbind] in Hb. injection Hb as <-.
    assert (Hor : NoDup (dkeys (magikarp_orig wo wd ov))). { unfold magikarp_orig, dkeys. clear -Ho. unfold dkeys in Ho. induction ov as [|x l IH]; cbn; [constructor|]. cbn in Ho. inversion_clear Ho.
      destruct (_ && _); [|auto]. cbn. constructor; [|auto]. intros K. apply H. apply in_map_iff in K as (y & <- & K). apply filter_In in K as (K & _). apply in_map_iff. eauto. }
    destruct (c_stb c) eqn:Es; [rewrite C47_stb_refuted in Em; [discriminate|]; intros ->; destruct Hin|].
    eapply C47_zeroed; [exact Hd|exact Em| |left; exact Hj]. 
    eapply (C47_size); eassumption. }
  split; intros m ->; eapply Hm; eassumption.
Qed.

(** three tokens, the last one a placeholder; with the whole range discarded where too similar, the first goes too *)
Definition ex_vocab : dict ntok nat := [(TPlain (u "a"), 0); (TPlain (u "b"), 1); (TPlain (u "<unused_token_1>"), 2)]%nat.
Definition ex_embed : list row := [fun _ => 1; fun _ => -1; fun _ => 1].
Lemma sqrt_one x : x * x = 1 -> Rmax (sqrt (Sum 1 (fun _ => x * x))) eps8 = 1.
Proof. intros E. cbn. rewrite Rplus_0_l, E, sqrt_1. apply Rmax_left. unfold eps8. pose proof (pow_R1_Rle 10 8). apply Rle_trans with (/ 1); [apply Rinv_le_contravar; lra|lra]. Qed.
Lemma ex_similar x y : x * x = 1 -> y * y = 1 -> similarity 1 (fun _ => x) (fun _ => y) = x * y.
Proof.
  intros Ex Ey. unfold similarity, nrm, ip. rewrite (sqrt_one x Ex), (sqrt_one y Ey). cbn. field.
Qed.
Example C80_nonvacuous :
  is_vocab ex_vocab /\ (forall l : list nat, Permutation ((fun l => l) l) l) /\
  stands_for_nothing ex_vocab 3 [] 2 /\ ~ stands_for_nothing ex_vocab 3 [] 0 /\
  well_trained (fun l => l) 1 1 ex_vocab ex_embed None [] 1 = Ok [TPlain (u "b")].
Proof.
  assert (Hv : NoDup (dkeys ex_vocab)) by (vm_compute; repeat constructor; cbn; intuition discriminate).
  split; [split; [exact Hv|vm_compute; repeat constructor; cbn; intuition discriminate]|]. split; [reflexivity|].
  split; [apply (unused_spec ex_vocab 3 [] 2 Hv); vm_compute; now left|].
  split; [rewrite <- (unused_spec ex_vocab 3 [] 0 Hv); vm_compute; intuition discriminate|].
  unfold well_trained. cbv zeta. change (length ex_embed) with 3%nat. replace (unused_indices ex_vocab 3 []) with [2%nat] by (vm_compute; reflexivity).
  unfold mean_unused. cbn [rmapM nthE nth_error ex_embed rbind].
  match goal with |- context [too_similar 1 ?m ?f 1] => set (mean := f) end.
  assert (Hs : forall x, x * x = 1 -> similarity 1 (fun _ => x) mean = x).
  { intros x Hx. transitivity (similarity 1 (fun _ => x) (fun _ => 1)).
    - apply (cosine_ext 1 (fun _ => x)). intros j. unfold mean, rsum. cbn. field.
    - rewrite ex_similar by lra. ring. }
  clearbody mean. unfold too_similar. cbv zeta. unfold ex_embed. cbn [map]. rewrite !Hs by lra.
  assert (Eq : quantile [1; -1; 1] (1 - 1) = Ok (-1)).
  { destruct (quantile_ok [1; -1; 1] (1 - 1) ltac:(lra) ltac:(discriminate)) as (t & -> & Ht). f_equal.
    apply (quantile_spec _ _ _ _ Ht). exists [-1; 1; 1], 0%nat. cbn. split; [apply perm_swap|]. split; [repeat constructor; lra|]. split; [lia|]. split; lra. }
  rewrite Eq. cbn [rbind]. destruct (Rlt_dec (-1) (/ 2)); [|lra]. cbn [length seq filter nth].
  destruct (Rlt_dec (/ 2) 1); [|lra]. destruct (Rlt_dec (/ 2) (-1)); [lra|]. vm_compute. reflexivity.
Qed.
Print Assumptions C80_kept.
Print Assumptions C80_succeeds.
Print Assumptions C80_few_discarded.
Print Assumptions C80_placeholders.
Print Assumptions C80_without_row_refuted.
