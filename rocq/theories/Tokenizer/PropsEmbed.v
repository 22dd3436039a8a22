(** C35, and C36 for the rows actually written: PermutedEmbeddings. *)
From Coq Require Import Reals Lra Permutation.
From Verif.Base Require Import Py PyFacts RList.
From Verif.Tokenizer Require Import Model Spec Proofs EmbedProofs PropsVocab.
Local Open Scope string_scope.
Local Open Scope list_scope.
Local Open Scope R_scope.

(** every matrix is rectangular *)
Definition rectangular (tensors : dict string emb) : Prop :=
  forall m e, In (m, e) tensors -> forall r, In r (e_rows e) -> length r = e_cols e.

Lemma execute_inv ti tensors models base cfgs pad res :
  execute ti tensors models base cfgs pad = Ok res ->
  exists cols assigned defaults,
    (forall m e, In (m, e) tensors -> e_cols e = cols) /\
    assign (ti_perms ti) models base cfgs (t_vocab (ti_tok ti)) = Ok assigned /\
    rmapM (fun kv =>
            let! r := (let! id := dgetE (t_vocab (ti_tok ti)) (fst kv) in
                       match snd kv with
                       | None => average_embedding ti tensors models cols id
                       | Some c => default_embedding ti tensors id c
                       end) in
            Ok (fst kv, r)) assigned = Ok defaults /\
    rmapM (fun m => let! e := permute_model ti tensors cols (Z.to_nat (padded (Z.of_nat (length (t_vocab (ti_tok ti)))) pad))
        (fun t => match dget cfgs t with Some c => tc_force c | None => false end) defaults (t_vocab (ti_tok ti)) m in Ok (m, e)) models = Ok res.
Proof.
  unfold execute. destruct models as [|m0 ms]; [discriminate|].
  destruct (dgetE tensors m0) as [e0|]; [cbn [rbind]|discriminate].
  destruct (forallb _ tensors) eqn:Ef; cbn [negb]; [|discriminate].
  destruct (rmapM (fun m => dgetE (ti_perms ti) m) (m0 :: ms)) as [ps|]; [cbn [rbind]|discriminate].
  destruct (assign _ _ _ _ _) as [assigned|] eqn:Ea; [cbn [rbind]|discriminate].
  destruct (rmapM _ assigned) as [defaults|] eqn:Ed; [cbn [rbind]|discriminate].
  intros Hr. exists (e_cols e0), assigned, defaults. split; [|auto].
  rewrite forallb_forall in Ef. intros m e Hin. apply Ef in Hin. apply Nat.eqb_eq, Hin.
Qed.

Lemma firstn_mean n rows cols : n <> 0%nat -> length (firstn n rows) = n ->
  mean_of (firstn n rows) cols (map (fun c => rsum (map (fun r => nth c r 0) (firstn n rows)) / INR n) (seq 0 cols)).
Proof.
  intros Hn Hl.
  pose proof (mean_of_list (firstn n rows) cols) as Hm. rewrite Hl in Hm. apply Hm.
  intros E. rewrite E in Hl. cbn in Hl. congruence.
Qed.

(** Every matrix returned has one row per output token, holding the model's own vector when the
    model has the token (unless forced) and otherwise the configured source, the base model's
    vector, or the mean over the models that have it; the padding rows hold the mean of the others. *)
Theorem C35_rows : forall ti tensors models base cfgs pad res,
  contiguous (t_vocab (ti_tok ti)) -> rectangular tensors -> NoDup models ->
  (forall b, base = Some b -> In b models) ->
  execute ti tensors models base cfgs pad = Ok res ->
  let n := length (t_vocab (ti_tok ti)) in
  map fst res = models /\
  exists cols, (forall m e, In (m, e) tensors -> e_cols e = cols) /\
  forall m e, In (m, e) res ->
    e_cols e = cols /\
    Z.of_nat (length (e_rows e)) = padded (Z.of_nat n) pad /\
    (forall t id, dget (t_vocab (ti_tok ti)) t = Some id ->
       exists r, nth_error (e_rows e) (Z.to_nat id) = Some r /\ token_row ti tensors models base cfgs cols m t id r) /\
    (forall i, (n <= i < length (e_rows e))%nat -> n <> 0%nat ->
       exists r, nth_error (e_rows e) i = Some r /\ mean_of (firstn n (e_rows e)) cols r).
Proof.
  intros ti tensors models base cfgs pad res Hc Hrect Hnd Hbase Hex n.
  apply execute_inv in Hex as (cols & assigned & defaults & Hcols & Ha & Hd & Hr).
  set (vocab := t_vocab (ti_tok ti)) in *. set (size := Z.to_nat (padded (Z.of_nat (length vocab)) pad)) in *.
  pose proof Hc as (Hk & Hv & Hids).
  unfold assign in Ha. apply (rmapM_dict (fun tid => match dget cfgs (fst tid) with
                              | Some c => Ok (Some c)
                              | None => assign_one (ti_perms ti) models base (snd tid)
                              end)) in Ha as [Hak Hag].
  apply (rmapM_dict (fun kv => let! id := dgetE vocab (fst kv) in
                       match snd kv with
                       | None => average_embedding ti tensors models cols id
                       | Some c => default_embedding ti tensors id c
                       end)) in Hd as [Hdk Hdg].
  assert (Hw : forall m e, In (m, e) tensors -> e_cols e = cols /\ forall x, In x (e_rows e) -> length x = e_cols e).
  { intros m e Hin. split; [eapply Hcols, Hin | intros x Hx; eapply Hrect; eassumption]. }
  assert (Hdef : forall t id, dget vocab t = Some id -> exists r, dget defaults t = Some r /\
    default_row ti tensors models base cfgs cols t id r).
  { intros t id Ht. destruct (Hag Hk t id (dget_In _ _ _ Ht)) as (c & Hc1 & Hc2). cbn in Hc1.
    destruct (Hdg ltac:(rewrite Hak; exact Hk) t c (dget_In _ _ _ Hc2)) as (r & Hr1 & Hr2).
    cbn in Hr1. unfold dgetE in Hr1. rewrite Ht in Hr1. cbn in Hr1. exists r. split; [exact Hr2|].
    eapply default_row_spec; eassumption. }
  assert (Hres : map fst res = models /\ forall m e, In (m, e) res ->
     permute_model ti tensors cols size (fun t => match dget cfgs t with Some c => tc_force c | None => false end) defaults vocab m = Ok e).
  { clear -Hr. revert res Hr. induction models as [|m0 ms IH]; intros res Hr.
    - injection Hr as <-. split; [reflexivity | intros ? ? []].
    - cbn in Hr. destruct (permute_model _ _ _ _ _ _ _ m0) as [e0|] eqn:E0; [cbn in Hr|discriminate Hr].
      destruct (rmapM _ ms) as [res'|]; [|discriminate Hr]. injection Hr as <-.
      destruct (IH _ eq_refl) as [H1 H2]. cbn. rewrite H1. split; [reflexivity|].
      intros m e [[= <- <-]|Hin]; [exact E0 | auto]. }
  destruct Hres as [Hfst Hres]. split; [exact Hfst|]. exists cols. split; [exact Hcols|].
  intros m e Hin. apply Hres in Hin. unfold permute_model in Hin.
  destruct (dgetE tensors m) as [em|] eqn:Em; [cbn [rbind] in Hin|discriminate Hin].
  match type of Hin with context[fold_left ?f vocab ?a] => destruct (fold_left f vocab a) as [rows|] eqn:Ef end;
    [cbn [rbind] in Hin|discriminate Hin].
  injection Hin as <-. cbn [e_cols e_rows]. fold n.
  change (fold_left (step (new_row ti tensors (fun t => match dget cfgs t with Some c => tc_force c | None => false end) defaults m)) vocab
    (Ok (repeat (repeat 0 cols) size)) = Ok rows) in Ef.
  apply fold_rows in Ef as (Hlen & _ & Hrow); [|exact Hv | intros i Hi; apply Hids in Hi; lia].
  rewrite repeat_length in Hlen.
  assert (Htok : forall t id, dget vocab t = Some id -> exists r, nth_error rows (Z.to_nat id) = Some r /\
    token_row ti tensors models base cfgs cols m t id r).
  { intros t id Ht. destruct (Hrow t id (dget_In _ _ _ Ht)) as (ro & Hro & Hn). unfold new_row in Hro. cbn [fst snd] in Hro.
    destruct (lookup_perm (ti_perms ti) m id) as [j|] eqn:Ej; [cbn [rbind] in Hro|discriminate Hro].
    destruct (Hdef t id Ht) as (rd & Hd1 & Hd2).
    set (fc := match dget cfgs t with Some c => tc_force c | None => false end) in *.
    assert (Hfc : fc = true <-> forced cfgs t).
    { unfold fc, forced. destruct (dget cfgs t) as [c|]; split.
      - intros E; eauto.
      - intros (c' & [= <-] & E); exact E.
      - discriminate.
      - intros (c' & E & _); discriminate E. }
    destruct (0 <=? j)%Z eqn:Ep; cbn [andb] in Hro.
    - apply Z.leb_le in Ep. destruct fc eqn:Efc; cbn [negb] in Hro.
      + injection Hro as <-. rewrite Hd1 in Hn. exists rd. split; [exact Hn|]. right. split; [left; apply Hfc; reflexivity | exact Hd2].
      + destruct (row_of tensors m j) as [r|] eqn:Er; [cbn in Hro|discriminate Hro]. injection Hro as <-.
        exists r. split; [exact Hn|]. left. split; [rewrite <- Hfc; discriminate|].
        exists j. split; [apply lookup_owns; assumption | apply row_vector, Er].
    - injection Hro as <-. rewrite Hd1 in Hn. exists rd. split; [exact Hn|]. right. split; [|exact Hd2].
      right. intros j' Ho. apply owns_lookup in Ho as [Ho Hp]. apply Z.leb_gt in Ep. assert (j' = j) by congruence. lia. }
  assert (Hsize : Z.of_nat size = padded (Z.of_nat n) pad).
  { unfold size. apply Z2Nat.id. fold n. unfold padded. destruct pad as [p|]; [|lia].
    destruct (Z.eqb_spec p 0); [lia|]. destruct (Z.eqb_spec (Z.of_nat n mod p) 0); [lia|].
    destruct (Z_lt_dec 0 p).
    - assert (0 <= Z.of_nat n / p)%Z by (apply Z.div_pos; lia). nia.
    - pose proof (Z.div_mod (Z.of_nat n) p ltac:(assumption)). pose proof (Z.mod_neg_bound (Z.of_nat n) p ltac:(lia)).
      assert (Z.of_nat n / p < 0)%Z by nia. nia. }
  assert (Hidn : forall t id, dget vocab t = Some id -> (Z.to_nat id < n)%nat).
  { intros t id Ht. apply dget_dvals, Hids in Ht. fold n in Ht. lia. }
  split; [reflexivity|]. destruct (Nat.ltb n size) eqn:El.
  - apply Nat.ltb_lt in El.
    assert (Hfl : length (firstn n rows) = n) by (apply firstn_length_le; lia).
    split; [rewrite app_length, repeat_length, Hfl, <- Hsize; f_equal; lia|]. split.
    + intros t id Ht. destruct (Htok t id Ht) as (r & Hn & Hr'). exists r. split; [|exact Hr'].
      specialize (Hidn t id Ht). rewrite nth_error_app1 by (rewrite Hfl; exact Hidn).
      rewrite <- Hn. rewrite <- (firstn_skipn n rows) at 2. rewrite nth_error_app1; [reflexivity | rewrite Hfl; exact Hidn].
    + intros i Hi Hn0. rewrite app_length, repeat_length, Hfl in Hi.
      rewrite nth_error_app2 by (rewrite Hfl; lia). rewrite Hfl.
      rewrite firstn_app, Hfl, Nat.sub_diag, firstn_O, app_nil_r, firstn_firstn, Nat.min_id.
      eexists. split; [apply nth_error_repeat; lia|].
      apply firstn_mean; [exact Hn0 | exact Hfl].
  - apply Nat.ltb_ge in El. split; [rewrite Hlen; exact Hsize|]. split; [exact Htok|]. intros i Hi. rewrite Hlen in Hi. lia.
Qed.

(** The task succeeds when every model has its tensor and a complete, in-range permutation, every
    configured source can be resolved, and every other token exists in some model. *)
Theorem C35_succeeds : forall ti tensors models base cfgs pad cols,
  contiguous (t_vocab (ti_tok ti)) -> models <> [] ->
  (forall m e, In (m, e) tensors -> e_cols e = cols) ->
  (forall b, base = Some b -> In b models) ->
  match pad with Some p => (0 <= p)%Z | None => True end ->
  (forall m, In m models -> exists e p, dget tensors m = Some e /\ dget (ti_perms ti) m = Some p /\
     forall t id, dget (t_vocab (ti_tok ti)) t = Some id -> exists j, dget p id = Some j /\ (j < Z.of_nat (length (e_rows e)))%Z) ->
  (forall t id, dget (t_vocab (ti_tok ti)) t = Some id ->
     match dget cfgs t with
     | None => exists m j, In m models /\ owns ti m id j
     | Some c =>
         match tc_source c with
         | STokenId m i => In m models /\ exists r, (0 <= i)%Z /\ vector tensors m i r
         | SToken m s => In m models /\ exists v i r, dget (ti_vocabs ti) m = Some v /\ dget v s = Some i /\ (0 <= i)%Z /\ vector tensors m i r
         | SModel m => exists j r, owns ti m id j /\ vector tensors m j r
         | SZero | SNone => False
         end
     end) ->
  exists res, execute ti tensors models base cfgs pad = Ok res.
Proof.
  intros ti tensors models base cfgs pad cols Hc Hne Hcols Hbase Hpad Hm Hsrc.
  destruct Hc as (Hk & Hv & Hids).
  assert (Hlook : forall m t id, In m models -> dget (t_vocab (ti_tok ti)) t = Some id ->
    exists j e, lookup_perm (ti_perms ti) m id = Ok j /\ dget tensors m = Some e /\ (j < Z.of_nat (length (e_rows e)))%Z).
  { intros m t id Hin Ht. destruct (Hm m Hin) as (e & p & He & Hp & Hj). destruct (Hj t id Ht) as (j & Hj1 & Hj2).
    exists j, e. unfold lookup_perm, dgetE. rewrite Hp. cbn. rewrite Hj1. auto. }
  assert (Hrow : forall m t id j, In m models -> dget (t_vocab (ti_tok ti)) t = Some id -> lookup_perm (ti_perms ti) m id = Ok j ->
    (0 <= j)%Z -> exists r, row_of tensors m j = Ok r).
  { intros m t id j Hin Ht Hj Hp. destruct (Hlook m t id Hin Ht) as (j' & e & Hj' & He & Hlt).
    assert (j' = j) by congruence. subst. unfold row_of, dgetE. rewrite He. cbn.
    destruct (nth_error (e_rows e) (Z.to_nat j)) eqn:En; [eauto|]. apply nth_error_None in En. lia. }
  unfold execute. destruct models as [|m0 ms]; [contradiction|]. set (models := m0 :: ms) in *.
  destruct (Hm m0 (or_introl eq_refl)) as (e0 & p0 & He0 & _). unfold dgetE at 1. rewrite He0. cbn [rbind]. clearbody models.
  assert (Ec : e_cols e0 = cols) by (apply dget_In in He0; eapply Hcols, He0). rewrite Ec.
  assert (Hf : forallb (fun kv : string * emb => (e_cols (snd kv) =? cols)%nat) tensors = true).
  { apply forallb_forall. intros [m e] Hin. apply Nat.eqb_eq. eapply Hcols, Hin. }
  rewrite Hf. cbn [negb].
  destruct (rmapM_all (fun m => dgetE (ti_perms ti) m) models) as [ps Hps].
  { intros m Hin. destruct (Hm m Hin) as (e & p & _ & Hp & _). exists p. unfold dgetE. rewrite Hp. reflexivity. }
  rewrite Hps. cbn [rbind].
  set (vocab := t_vocab (ti_tok ti)) in *.
  assert (Hassign : forall t id, In (t, id) vocab -> exists c,
    match dget cfgs t with Some c => Ok (Some c) | None => assign_one (ti_perms ti) models base id end = Ok c).
  { intros t id Hin. apply dget_In_NoDup in Hin; [|exact Hk]. specialize (Hsrc t id Hin).
    destruct (dget cfgs t) as [c|] eqn:Ec'; [eauto|].
    unfold assign_one. destruct (rmapM_all (fun m => let! j := lookup_perm (ti_perms ti) m id in Ok (m, (0 <=? j)%Z)) models) as [has Hhas].
    { intros m Hin'. destruct (Hlook m t id Hin' Hin) as (j & e & Hj & _). rewrite Hj. cbn. eauto. }
    rewrite Hhas. cbn [rbind]. apply has_filter in Hhas. rewrite Hhas.
    destruct Hsrc as (m & j & Hmin & Ho).
    assert (Hin2 : In m (filter (owned ti id) models)) by (apply filter_In; split; [exact Hmin | apply owned_iff; eauto]).
    destruct (filter (owned ti id) models) as [|d [|d2 rest]]; [destruct Hin2 | eauto |].
    destruct base as [b|]; [|eauto]. destruct (Hlook b t id (Hbase b eq_refl) Hin) as (jb & e & Hj & _). rewrite Hj. cbn.
    destruct (0 <=? jb)%Z; eauto. }
  unfold assign. destruct (rmapM_all (fun ti' => let! c := match dget cfgs (fst ti') with
                              | Some c => Ok (Some c)
                              | None => assign_one (ti_perms ti) models base (snd ti')
                              end in Ok (fst ti', c)) vocab) as [assigned Ha].
  { intros [t id] Hin. cbn. destruct (Hassign t id Hin) as [c ->]. cbn. eauto. }
  rewrite Ha. cbn [rbind]. pose proof Ha as Ha'.
  apply (rmapM_dict (fun tid => match dget cfgs (fst tid) with
                              | Some c => Ok (Some c)
                              | None => assign_one (ti_perms ti) models base (snd tid)
                              end)) in Ha' as [Hak Hag].
  assert (Hdefault : forall t c id, dget vocab t = Some id ->
    match dget cfgs t with Some c => Ok (Some c) | None => assign_one (ti_perms ti) models base id end = Ok c ->
    exists r, match c with None => average_embedding ti tensors models cols id | Some c => default_embedding ti tensors id c end = Ok r).
  { intros t c id Ht Hc. specialize (Hsrc t id Ht).
    assert (Hsm : forall m j, In m models -> owns ti m id j -> exists r, default_embedding ti tensors id {| tc_source := SModel m; tc_force := false |} = Ok r).
    { intros m j Hin Ho. apply owns_lookup in Ho as [Hj Hp]. unfold default_embedding. cbn. rewrite Hj. cbn.
      rewrite (proj2 (Z.leb_le 0 j) Hp). eapply Hrow; eassumption. }
    destruct (dget cfgs t) as [c0|] eqn:Ec0.
    - injection Hc as <-. unfold default_embedding.
      assert (Hdm : forall m, In m models -> dmem (ti_perms ti) m = true).
      { intros m Hin. destruct (Hm m Hin) as (e & p & _ & Hp & _). unfold dmem. rewrite Hp. reflexivity. }
      assert (Hvr : forall m i r, vector tensors m i r -> (0 <= i)%Z -> exists e, dgetE tensors m = Ok e /\
        ((0 <=? i)%Z && (i <? Z.of_nat (length (e_rows e)))%Z)%bool = true /\ row_of tensors m i = Ok r).
      { intros m i r Hvec Hi. pose proof (vector_row _ _ _ _ Hvec) as Hr. destruct Hvec as (e & He & Hn). exists e.
        unfold dgetE. rewrite He. split; [reflexivity|]. split; [|exact Hr].
        assert (Hlt : nth_error (e_rows e) (Z.to_nat i) <> None) by congruence. apply nth_error_Some in Hlt.
        apply andb_true_iff. split; [apply Z.leb_le, Hi | apply Z.ltb_lt; lia]. }
      destruct (tc_source c0) as [|m i|m s|m|]; try destruct Hsrc.
      + rewrite Hdm by assumption. cbn [rbind]. destruct H0 as (r & Hi & Hvec).
        destruct (Hvr m i r Hvec Hi) as (e & -> & Hb & Hr). cbn [rbind]. rewrite Hb. eauto.
      + rewrite Hdm by assumption. cbn [rbind]. destruct H0 as (v & i & r & Hv1 & Hv2 & Hi & Hvec).
        unfold dgetE at 1. rewrite Hv1. cbn [rbind]. rewrite Hv2.
        destruct (Hvr m i r Hvec Hi) as (e & -> & Hb & Hr). cbn [rbind]. rewrite Hb. eauto.
      + destruct H as (r & Ho & Hvec). apply owns_lookup in Ho as [Hj Hp]. rewrite Hj. cbn [rbind].
        rewrite (proj2 (Z.leb_le 0 _) Hp). rewrite (vector_row _ _ _ _ Hvec). eauto.
    - destruct c as [c0|].
      + unfold assign_one in Hc. match type of Hc with context[rmapM ?g models] => destruct (rmapM g models) as [has|] eqn:Eh end; [cbn [rbind] in Hc|discriminate Hc].
        apply has_filter in Eh. rewrite Eh in Hc.
        assert (Hfil : forall m, In m (filter (owned ti id) models) -> In m models /\ exists j, owns ti m id j)
          by (intros m Hin; apply filter_In in Hin; rewrite owned_iff in Hin; exact Hin).
        destruct (filter (owned ti id) models) as [|d [|d2 rest]]; [discriminate Hc| |].
        * injection Hc as <-. destruct (Hfil d (or_introl eq_refl)) as [Hd1 [j Hd2]]. eapply Hsm; eassumption.
        * destruct base as [b|]; [|discriminate Hc].
          destruct (lookup_perm (ti_perms ti) b id) as [j|] eqn:Ej; [cbn [rbind] in Hc|discriminate Hc].
          destruct (0 <=? j)%Z eqn:Ep; [|discriminate Hc]. injection Hc as <-.
          eapply Hsm; [apply Hbase; reflexivity | apply lookup_owns; [exact Ej | apply Z.leb_le, Ep]].
      + unfold average_embedding.
        destruct (rmapM_all (fun m => let! j := lookup_perm (ti_perms ti) m id in
                               if (0 <=? j)%Z then let! r := row_of tensors m j in Ok [r] else Ok []) models) as [rows Hrows].
        { intros m Hin. destruct (Hlook m t id Hin Ht) as (j & e & Hj & _). rewrite Hj. cbn [rbind].
          destruct (0 <=? j)%Z eqn:Ep; [|eauto]. destruct (Hrow m t id j Hin Ht Hj) as [r ->]; [apply Z.leb_le, Ep|]. cbn. eauto. }
        rewrite Hrows. cbn [rbind]. apply average_holders in Hrows as (hs & Hfst & Hsnd & _).
        destruct Hsrc as (m & j & Hin & Ho).
        assert (Hin2 : In m (map fst hs)) by (rewrite Hfst; apply filter_In; split; [exact Hin | apply owned_iff; eauto]).
        rewrite <- Hsnd. destruct hs as [|h hs]; [destruct Hin2|]. cbn. eauto. }
  match goal with |- context[rmapM ?g assigned] => destruct (rmapM_all g assigned) as [defaults Hd] end.
  { intros [t c] Hin. assert (Hin' : In t (dkeys vocab)) by (rewrite <- Hak; apply (in_map fst) in Hin; exact Hin).
    apply dget_Some_key in Hin' as [id Hid]. cbn [fst snd]. unfold dgetE. rewrite Hid. cbn [rbind].
    destruct (Hag Hk t id (dget_In _ _ _ Hid)) as (c' & Hc1 & Hc2). cbn in Hc1.
    apply dget_In_NoDup in Hin; [|rewrite Hak; exact Hk]. assert (c' = c) by congruence. subst c'.
    destruct (Hdefault t c id Hid Hc1) as [r ->]. cbn. eauto. }
  rewrite Hd. cbn [rbind].
  match goal with |- context[rmapM ?g models] => destruct (rmapM_all g models) as [res Hres] end; [|eauto].
  intros m Hin. unfold permute_model. destruct (Hm m Hin) as (e & p & He & _). unfold dgetE at 1. rewrite He. cbn [rbind].
  set (f := new_row ti tensors (fun t => match dget cfgs t with Some c => tc_force c | None => false end) defaults m).
  destruct (fold_rows_succeeds f vocab (repeat (repeat 0 cols) (Z.to_nat (padded (Z.of_nat (length vocab)) pad)))) as [rows Hrows].
  - intros t id Hti. apply dget_In_NoDup in Hti; [|exact Hk]. split.
    + unfold f, new_row. cbn [fst snd]. destruct (Hlook m t id Hin Hti) as (j & e' & Hj & _). rewrite Hj. cbn [rbind].
      destruct (0 <=? j)%Z eqn:Ep; cbn [andb]; [|eauto].
      destruct (negb _); [|eauto]. destruct (Hrow m t id j Hin Hti Hj) as [r ->]; [apply Z.leb_le, Ep|]. cbn. eauto.
    + rewrite repeat_length. apply dget_dvals, Hids in Hti.
      assert (Hle : (Z.of_nat (length vocab) <= padded (Z.of_nat (length vocab)) pad)%Z).
      { destruct pad as [p'|]; [|cbn; lia]. destruct (Z.eq_dec p' 0) as [->|]; [cbn; lia|].
        apply least_multiple_padded; lia. }
      lia.
  - match goal with |- context[fold_left ?g vocab ?a] => change (fold_left g vocab a) with (fold_left (step f) vocab a) end.
    rewrite Hrows. cbn. eauto.
Qed.

Lemma nth_error_ext_list {A} (l l' : list A) : (forall i, nth_error l i = nth_error l' i) -> l = l'.
Proof.
  revert l'; induction l as [|x l IH]; intros [|y l'] Hl; [reflexivity | discriminate (Hl 0%nat) | discriminate (Hl 0%nat) |].
  injection (Hl 0%nat) as ->. f_equal. apply IH. intros i. apply (Hl (S i)).
Qed.
(** The order in which the set of models is listed does not change any matrix. *)
Lemma token_row_fun ti tensors models models' base cfgs cols m t id r r' :
  (forall x, In x models <-> In x models') ->
  token_row ti tensors models base cfgs cols m t id r -> token_row ti tensors models' base cfgs cols m t id r' -> r = r'.
Proof.
  intros Hmm. unfold token_row.
  assert (Hov : forall m j j' r r', owns ti m id j -> vector tensors m j r -> owns ti m id j' -> vector tensors m j' r' -> r = r').
  { intros m0 j j' x x' H1 H2 H3 H4. rewrite (owns_fun _ _ _ _ _ H1 H3) in H2. eapply vector_fun; eassumption. }
  intros [[Hf (j & Ho & Hv)]|[Hf Hd]] [[Hf' (j' & Ho' & Hv')]|[Hf' Hd']].
  - exact (Hov _ _ _ _ _ Ho Hv Ho' Hv').
  - destruct Hf' as [Hf'|Hf']; [contradiction | edestruct Hf'; eassumption].
  - destruct Hf as [Hf|Hf]; [contradiction | edestruct Hf; eassumption].
  - clear Hf Hf'. unfold default_row in Hd, Hd'. destruct (dget cfgs t) as [c|].
    + destruct (tc_source c) as [|m0 i|m0 s|m0|]; try contradiction.
      * eapply vector_fun; [apply Hd | apply Hd'].
      * destruct Hd as (v & i & H1 & H2 & _ & H3), Hd' as (v' & i' & H1' & H2' & _ & H3').
        assert (v = v') by congruence. subst. assert (i = i') by congruence. subst. eapply vector_fun; eassumption.
      * destruct Hd as (j & H1 & H2), Hd' as (j' & H3 & H4). exact (Hov _ _ _ _ _ H1 H2 H3 H4).
    + destruct Hd as [(b & j & Hb & Ho & Hv)|[Hn (hs & Hnd & Hin & Hvec & Hmean)]],
               Hd' as [(b' & j' & Hb' & Ho' & Hv')|[Hn' (hs' & Hnd' & Hin' & Hvec' & Hmean')]].
      * assert (b = b') by congruence. subst. exact (Hov _ _ _ _ _ Ho Hv Ho' Hv').
      * edestruct Hn'; eassumption.
      * edestruct Hn; eassumption.
      * eapply mean_of_unique; [|exact Hmean|exact Hmean']. apply Permutation_map.
        assert (Hkey : forall (hs hs' : list (string * list R)),
          (forall m x, In (m, x) hs -> exists j, owns ti m id j /\ vector tensors m j x) ->
          (forall m x, In (m, x) hs' -> exists j, owns ti m id j /\ vector tensors m j x) ->
          (forall m, In m (map fst hs) -> In m (map fst hs')) -> forall y, In y hs -> In y hs').
        { clear -Hov. intros hs hs' H1 H2 H3 [m0 x] Hin. pose proof (H1 _ _ Hin) as (j & Ho & Hv).
          apply (in_map fst), H3 in Hin. apply in_map_iff in Hin as ([m1 x1] & E & Hin). cbn in E. subst m1.
          destruct (H2 _ _ Hin) as (j' & Ho' & Hv'). rewrite (Hov _ _ _ _ _ Ho Hv Ho' Hv'). exact Hin. }
        apply NoDup_Permutation; [apply NoDup_map_inv in Hnd; exact Hnd | apply NoDup_map_inv in Hnd'; exact Hnd' |].
        intros y. split; apply Hkey; auto; intros m0 Hm0.
        { apply Hin'. apply Hin in Hm0. rewrite <- Hmm. exact Hm0. }
        { apply Hin. apply Hin' in Hm0. rewrite Hmm. exact Hm0. }
Qed.
Theorem C35_order : forall ti tensors models models' base cfgs pad res res',
  contiguous (t_vocab (ti_tok ti)) -> rectangular tensors -> NoDup models -> Permutation models models' ->
  (forall b, base = Some b -> In b models) ->
  execute ti tensors models base cfgs pad = Ok res -> execute ti tensors models' base cfgs pad = Ok res' ->
  forall m e e', t_vocab (ti_tok ti) <> [] -> In (m, e) res -> In (m, e') res' -> e = e'.
Proof.
  intros ti tensors models models' base cfgs pad res res' Hc Hrect Hnd Hp Hbase Hex Hex' m e e' Hne Hin Hin'.
  assert (Hmm : forall x, In x models <-> In x models') by (intros x; split; apply Permutation_in; [exact Hp | apply Permutation_sym, Hp]).
  destruct (C35_rows _ _ _ _ _ _ _ Hc Hrect Hnd Hbase Hex) as (Hf & cols & Hcols & Hrows).
  destruct (C35_rows _ _ _ _ _ _ _ Hc Hrect (Permutation_NoDup Hp Hnd) (fun b Hb => proj1 (Hmm b) (Hbase b Hb)) Hex') as (Hf' & cols' & Hcols' & Hrows').
  assert (E : cols = cols').
  { apply execute_inv in Hex as (c & a & d & _). unfold execute in Hex'. 
    destruct models' as [|m0 ms]; [discriminate Hex'|]. unfold dgetE in Hex'.
    destruct (dget tensors m0) as [e0|] eqn:E0; [|discriminate Hex'].
    apply dget_In in E0. rewrite <- (Hcols _ _ E0). apply (Hcols' _ _ E0). }
  subst cols'. specialize (Hrows m e Hin). specialize (Hrows' m e' Hin').
  destruct Hrows as (Hec & Hlen & Htok & Hpad), Hrows' as (Hec' & Hlen' & Htok' & Hpad').
  set (n := length (t_vocab (ti_tok ti))) in *.
  assert (Hn : n <> 0%nat) by (unfold n; destruct (t_vocab (ti_tok ti)); [contradiction | discriminate]).
  assert (Hll : length (e_rows e) = length (e_rows e')) by lia.
  destruct Hc as (Hk & Hv & Hids).
  assert (Hlow : forall i, (i < n)%nat -> nth_error (e_rows e) i = nth_error (e_rows e') i).
  { intros i Hi. assert (Hiv : In (Z.of_nat i) (dvals (t_vocab (ti_tok ti)))) by (apply Hids; fold n; lia).
    apply in_map_iff in Hiv as ([t id] & Eid & Hti). cbn in Eid. subst id. apply dget_In_NoDup in Hti; [|exact Hk].
    destruct (Htok _ _ Hti) as (r & Hr & Hs). destruct (Htok' _ _ Hti) as (r' & Hr' & Hs').
    rewrite Nat2Z.id in Hr, Hr'. rewrite Hr, Hr'. f_equal. eapply token_row_fun; eassumption. }
  assert (Hfirst : firstn n (e_rows e) = firstn n (e_rows e')).
  { clear -Hlow. revert Hlow. generalize (e_rows e), (e_rows e'). induction n as [|n IH]; intros l l' Hl; [reflexivity|].
    pose proof (Hl 0%nat ltac:(lia)) as H0. destruct l as [|x l], l' as [|x' l']; try discriminate H0; [reflexivity|].
    injection H0 as ->. cbn. f_equal. apply IH. intros i Hi. apply (Hl (S i)). lia. }
  assert (Hrows : e_rows e = e_rows e').
  { apply nth_error_ext_list. intros i. destruct (Nat.lt_ge_cases i n) as [Hi|Hi]; [apply Hlow, Hi|].
    destruct (Nat.lt_ge_cases i (length (e_rows e))) as [Hi2|Hi2].
    - destruct (Hpad i (conj Hi Hi2) Hn) as (r & Hr & Hm). destruct (Hpad' i ltac:(lia) Hn) as (r' & Hr' & Hm').
      rewrite Hr, Hr'. f_equal. rewrite Hfirst in Hm. eapply mean_of_unique; [apply Permutation_refl | exact Hm | exact Hm'].
    - rewrite (proj2 (nth_error_None _ _)) by exact Hi2. symmetry. apply nth_error_None. lia. }
  destruct e as [c1 r1], e' as [c2 r2]. cbn in *. congruence.
Qed.

(** ** C36: the number of rows written is the vocabulary size stored in the config *)
Theorem C36_rows_match_config : forall ti tensors models base cfgs pad res m e,
  contiguous (t_vocab (ti_tok ti)) -> rectangular tensors -> NoDup models ->
  (forall b, base = Some b -> In b models) ->
  execute ti tensors models base cfgs pad = Ok res -> In (m, e) res ->
  let n := Z.of_nat (length (t_vocab (ti_tok ti))) in
  Z.of_nat (length (e_rows e)) = config_vocab n pad /\
  match pad with Some p => (0 < p)%Z -> least_multiple p n (Z.of_nat (length (e_rows e))) | None => Z.of_nat (length (e_rows e)) = n end.
Proof.
  intros ti tensors models base cfgs pad res m e Hc Hrect Hnd Hbase Hex Hin n.
  destruct (C35_rows _ _ _ _ _ _ _ Hc Hrect Hnd Hbase Hex) as (_ & cols & _ & Hr). destruct (Hr m e Hin) as (_ & Hl & _).
  destruct (C36_same_size n pad ltac:(lia)) as [He Hp]. rewrite Hl, He. split; [reflexivity|].
  destruct pad as [p|]; [apply Hp | exact Hp].
Qed.

(** ** a concrete case: two models, a token of one only, a token in neither that is configured, padding *)
Definition tiAB : tokenizer_info :=
  {| ti_tok := {| t_vocab := [("x", 2); ("a", 0); ("b", 1); ("new", 3); ("y", 4)]%Z; t_added := []; t_size := 5 |};
     ti_perms := [("A", [(2, -1); (0, 0); (1, 1); (3, -1); (4, -1)]%Z); ("B", [(2, 0); (0, 1); (1, -1); (3, -1); (4, 2)]%Z);
                  ("C", [(2, 1); (0, 0); (1, -1); (3, -1); (4, -1)]%Z)];
     ti_vocabs := [("A", [("a", 0); ("b", 1)]%Z); ("B", [("x", 0); ("a", 1); ("y", 2)]%Z)] |}.
Definition tensorsAB : dict string emb :=
  [("A", {| e_cols := 1; e_rows := [[1]; [2]] |}); ("B", {| e_cols := 1; e_rows := [[3]; [4]; [5]] |});
   ("C", {| e_cols := 1; e_rows := [[7]; [9]] |})].
Definition cfgsAB : dict string tcfg := [("new", {| tc_source := SToken "B" "y"; tc_force := false |})].
Lemma tiAB_contiguous : contiguous (t_vocab (ti_tok tiAB)).
Proof.
  split; [repeat constructor; cbn; intuition discriminate|]. split; [repeat constructor; cbn; intuition discriminate|].
  intros i; unfold dvals; cbn. lia.
Qed.
Lemma tensorsAB_rect : rectangular tensorsAB.
Proof. intros m e [[= <- <-]|[[= <- <-]|[[= <- <-]|[]]]]; cbn; intuition (subst; reflexivity). Qed.
Definition rowsA : list (list R) := [[1]; [2]; [(3 + (9 + 0)) / (1 + 1)]; [5]; [5]].
Example C35_nonvacuous : contiguous (t_vocab (ti_tok tiAB)) /\ rectangular tensorsAB /\
  exists res e, execute tiAB tensorsAB ["B"; "A"; "C"] (Some "A") cfgsAB (Some 4%Z) = Ok res /\ dget res "A" = Some e /\
    firstn 5 (e_rows e) = rowsA /\ length (e_rows e) = 8%nat.
Proof.
  split; [apply tiAB_contiguous|]. split; [apply tensorsAB_rect|].
  eexists. eexists. split; [reflexivity|]. split; [reflexivity|]. split; reflexivity.
Qed.

(** Refuted: padding rows are not zero. *)
Theorem C35_padding_refuted : exists ti tensors models pad res m e r,
  contiguous (t_vocab (ti_tok ti)) /\ rectangular tensors /\
  execute ti tensors models None [] pad = Ok res /\ In (m, e) res /\
  nth_error (e_rows e) (length (t_vocab (ti_tok ti))) = Some r /\ nth 0 r 0 <> 0.
Proof.
  exists {| ti_tok := {| t_vocab := [("a", 0%Z)]; t_added := []; t_size := 1 |}; ti_perms := [("A", [(0%Z, 0%Z)])]; ti_vocabs := [] |},
    [("A", {| e_cols := 1; e_rows := [[1]] |})], ["A"], (Some 2%Z).
  eexists. exists "A". eexists. eexists. split.
  { split; [repeat constructor; cbn; intuition|]. split; [repeat constructor; cbn; intuition|]. intros i; unfold dvals; cbn. lia. }
  split; [intros m e [[= <- <-]|[]]; cbn; intuition (subst; reflexivity)|].
  split; [reflexivity|]. split; [left; reflexivity|]. split; [reflexivity|]. cbn. lra.
Qed.

(** Refuted: the "zero" source is accepted by the configuration but always fails. *)
Theorem C35_zero_source_refuted : exists ti tensors models t,
  contiguous (t_vocab (ti_tok ti)) /\ rectangular tensors /\
  execute ti tensors models None [(t, {| tc_source := SZero; tc_force := false |})] None = Err UnboundLocalError.
Proof.
  exists {| ti_tok := {| t_vocab := [("a", 0%Z)]; t_added := []; t_size := 1 |}; ti_perms := [("A", [(0%Z, 0%Z)])]; ti_vocabs := [] |},
    [("A", {| e_cols := 1; e_rows := [[1]] |})], ["A"], "a".
  split.
  { split; [repeat constructor; cbn; intuition|]. split; [repeat constructor; cbn; intuition|]. intros i; unfold dvals; cbn. lia. }
  split; [intros m e [[= <- <-]|[]]; cbn; intuition (subst; reflexivity)|]. reflexivity.
Qed.

(** Refuted: a token that no model has and that is not configured should get the zero vector; the task fails. *)
Theorem C35_unknown_token_refuted : exists ti tensors models,
  contiguous (t_vocab (ti_tok ti)) /\ rectangular tensors /\ (forall m, In m models -> exists p, dget (ti_perms ti) m = Some p /\ forall i, In i (dvals (t_vocab (ti_tok ti))) -> dget p i <> None) /\
  execute ti tensors models None [] None = Err ValidationError.
Proof.
  exists {| ti_tok := {| t_vocab := [("a", 0%Z)]; t_added := []; t_size := 1 |}; ti_perms := [("A", [(0%Z, (-1)%Z)])]; ti_vocabs := [] |},
    [("A", {| e_cols := 1; e_rows := [[1]] |})], ["A"].
  split.
  { split; [repeat constructor; cbn; intuition|]. split; [repeat constructor; cbn; intuition|]. intros i; unfold dvals; cbn. lia. }
  split; [intros m e [[= <- <-]|[]]; cbn; intuition (subst; reflexivity)|].
  split; [|reflexivity]. intros m [<-|[]]. eexists. split; [reflexivity|]. intros i [<-|[]]. discriminate.
Qed.

Print Assumptions C35_rows.
Print Assumptions C35_succeeds.
Print Assumptions C35_order.
Print Assumptions C36_rows_match_config.
Print Assumptions C35_padding_refuted.
Print Assumptions C35_zero_source_refuted.
Print Assumptions C35_unknown_token_refuted.
