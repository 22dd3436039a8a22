(** C89: merging models with different vocabularies, from the configuration to the files. *)
From Coq Require Import Reals QArith Qreals Lia Lra Permutation.
From Verif.Base Require Import Py PyStr PyFacts RList.
From Verif.Tokenizer Require Import Model Spec PropsVocab.
From Verif.Tokenizer Require Model PropsEmbed.
From Verif.Config Require Import Model.
From Verif.Arch Require Import Model.
From Verif.Plan Require Import Model Spec NormProofs Proofs.
From Verif.Plan Require Props.
From Verif.Graph Require Import Model Spec.
From Verif.IO Require Import Model Spec WriterProofs RunProofs.
From Verif.Run Require Import Model Spec ActProofs Props.
From Verif.Methods Require Import Model Spec Dispatch DispatchSpec PropsDispatch.
From Verif.Run Require Import PropsMethods Embed EmbedProofs.
Local Open Scope string_scope.
Local Open Scope list_scope.
Local Open Scope R_scope.

(** ** The permutation alone *)
(** What [PermutedEmbeddings] makes of the matrices of the models: one matrix per model, all of the size announced in the
    output configuration; the row of an output token is the one wanted for that model ([token_row]), whatever the order in
    which the set of models is iterated; and the task fails when the base model gave no tensor. *)
Theorem C89_permuted order cfgs pad base ti ds ds' :
  (forall l, Permutation (order l) l) ->
  contiguous (t_vocab (ti_tok ti)) -> (forall m x, In (m, x) ds -> wf x) -> NoDup (dkeys ds) ->
  permute_task order cfgs pad base ti ds = Ok ds' ->
  let n := length (t_vocab (ti_tok ti)) in
  (forall b, base = Some b -> In b (dkeys ds)) /\
  Permutation (dkeys ds') (dkeys ds) /\
  exists rows cols, Z.of_nat rows = config_vocab (Z.of_nat n) pad /\ (forall m x, In (m, x) ds -> exists rs, shp x = [rs; cols]) /\
  forall m x, In (m, x) ds' ->
    shp x = [rows; cols] /\ wf x /\
    (forall t id, dget (t_vocab (ti_tok ti)) t = Some id ->
       exists r, token_row ti (matrices ds) (dkeys ds) base cfgs cols m t id r /\
         (0 <= id)%Z /\ (Z.to_nat id < rows)%nat /\
         forall c, (c < cols)%nat -> nth (Z.to_nat id * cols + c) (dat x) 0 = nth c r 0) /\
    (forall i c, (n <= i < rows)%nat -> n <> 0%nat -> (c < cols)%nat ->
       nth (i * cols + c) (dat x) 0 = rsum (map (fun k => nth (k * cols + c) (dat x) 0) (seq 0 n)) / INR n).
Proof.
  intros Ho Hc Hw HN Hp n. destruct (permuted order cfgs pad Ho base ti ds ds' Hc Hw HN Hp) as (H1 & H2 & rows & cols & H3 & H4).
  split; [exact H1|]. split; [exact H2|]. exists rows, cols. split; [|exact H4].
  rewrite H3. symmetry. apply C36_same_size. lia.
Qed.

(** It succeeds when the matrices have the same width, the permutations lead to rows that exist, and every output token is
    known to some model or has a configured source. *)
Theorem C89_succeeds order cfgs pad base ti ds cols :
  (forall l, Permutation (order l) l) ->
  contiguous (t_vocab (ti_tok ti)) -> ds <> [] -> NoDup (dkeys ds) ->
  (forall m x, In (m, x) ds -> exists rs, shp x = [rs; cols]) ->
  (forall b, base = Some b -> In b (dkeys ds)) ->
  match pad with Some p => (0 <= p)%Z | None => True end ->
  (forall m x, In (m, x) ds -> exists p, dget (ti_perms ti) m = Some p /\
     forall t id, dget (t_vocab (ti_tok ti)) t = Some id -> exists j, dget p id = Some j /\ (j < Z.of_nat (nth 0 (shp x) 0%nat))%Z) ->
  (forall t id, dget (t_vocab (ti_tok ti)) t = Some id ->
     match dget cfgs t with
     | None => exists m j, In m (dkeys ds) /\ owns ti m id j
     | Some c =>
         match tc_source c with
         | STokenId m i => In m (dkeys ds) /\ exists r, (0 <= i)%Z /\ vector (matrices ds) m i r
         | SToken m s => In m (dkeys ds) /\ exists v i r, dget (ti_vocabs ti) m = Some v /\ dget v s = Some i /\ (0 <= i)%Z /\ vector (matrices ds) m i r
         | SModel m => exists j r, owns ti m id j /\ vector (matrices ds) m j r
         | SZero | SNone => False
         end
     end) ->
  exists ds', permute_task order cfgs pad base ti ds = Ok ds'.
Proof.
  intros Ho Hc Hne HN Hsh Hb Hpad Hm Hsrc. unfold permute_task.
  assert (Ees : rmapM (fun mt => let! e := to_matrix (snd mt) in Ok (fst mt, e)) ds = Ok (matrices ds)).
  { clear -Hsh. induction ds as [|[m x] ds IH]; [reflexivity|]. destruct (Hsh m x (or_introl eq_refl)) as (rs & Hs).
    assert (Et : to_matrix x = Ok (matrix x)) by (unfold to_matrix; rewrite Hs; reflexivity).
    cbn [rmapM snd fst]. rewrite Et. cbn [rbind].
    rewrite IH by (intros m' x' Hin; apply (Hsh m' x'); now right). reflexivity. }
  rewrite Ees. cbn [rbind].
  assert (Hperm : Permutation (all_models order base (dkeys ds)) (dkeys ds)).
  { unfold all_models. eapply Permutation_trans; [apply Ho|]. destruct base as [b|]; [|reflexivity].
    unfold set_add. destruct (mem_spec b (dkeys ds)) as [_|Hn]; [reflexivity|]. destruct Hn. auto. }
  assert (Hin : forall m, In m (all_models order base (dkeys ds)) <-> In m (dkeys ds)).
  { intros m. split; apply Permutation_in; [exact Hperm|now apply Permutation_sym]. }
  destruct (PropsEmbed.C35_succeeds ti (matrices ds) (all_models order base (dkeys ds)) base cfgs pad cols) as (res & Hres); auto.
  - intros E0. apply Permutation_sym in Hperm. rewrite E0 in Hperm. apply Permutation_sym, Permutation_nil in Hperm. destruct ds; [now destruct Hne|discriminate].
  - intros m e Hi. apply in_map_iff in Hi as ([m' x] & [= <- <-] & Hi). destruct (Hsh _ _ Hi) as (rs & Hs). unfold matrix. cbn. now rewrite Hs.
  - intros b Eb. apply Hin. auto.
  - intros m Hmi. apply Hin in Hmi. apply in_map_iff in Hmi as ([m' x] & Em & Hi). cbn in Em. subst m'.
    destruct (Hm m x Hi) as (p & Hp & Hj). exists (matrix x), p. split; [|split; [exact Hp|]].
    + apply dget_In_NoDup; [now rewrite dkeys_matrices|]. apply in_map_iff. exists (m, x). auto.
    + unfold matrix. cbn [e_rows]. rewrite map_length, seq_length. exact Hj.
  - intros t id Hid. specialize (Hsrc t id Hid). destruct (dget cfgs t) as [cf|].
    + destruct (tc_source cf); auto; destruct Hsrc as [H1 H2]; (split; [apply Hin; exact H1|exact H2]).
    + destruct Hsrc as (m & j & H1 & H2). exists m, j. split; [apply Hin; exact H1|exact H2].
  - rewrite Hres. cbn [rbind]. eauto.
Qed.

(** A token that is not configured, on whose vector all the models that have it agree, has that vector in every matrix. *)
Theorem C89_agreed_token ti es models base cfgs cols m t id r (v : list R) :
  token_row ti es models base cfgs cols m t id r -> dget cfgs t = None -> length v = cols ->
  (forall m' j x, owns ti m' id j -> vector es m' j x -> x = v) -> r = v.
Proof.
  intros Hr Hcf Hl Hv. destruct Hr as [(_ & j & Ho & Hx)|(_ & Hd)]; [eauto|].
  unfold default_row in Hd. rewrite Hcf in Hd. destruct Hd as [(b & j & _ & Ho & Hx)|(_ & holders & _ & _ & Hh & Hne & Hlr & Hm)]; [eauto|].
  apply nth_ext_R; [congruence|]. intros c Hc. rewrite Hlr in Hc. rewrite Hm by exact Hc.
  assert (Hall : forall x, In x (map snd holders) -> x = v).
  { intros x Hx. apply in_map_iff in Hx as ([mm y] & <- & Hin). destruct (Hh _ _ Hin) as (j & Ho & Hy). eauto. }
  rewrite (rsum_ext (fun x => nth c x 0) (fun _ => nth c v 0)) by (intros x Hx; now rewrite (Hall x Hx)).
  rewrite rsum_const. field. apply not_0_INR. destruct (map snd holders); [now destruct Hne|discriminate].
Qed.

(** ... and what "has the token" means, for a tokenizer built from those of the models: the model's own tokenizer knows it. *)
Theorem C89_owners base_model base loaded cfgs referenced src added m t id j :
  well_numbered base ->
  (forall m t, In (m, t) ((base_model, base) :: loaded) -> NoDup (dkeys (t_vocab t)) /\ coherent t) ->
  match src with SrcBase => False | SrcModel t => well_numbered t | SrcUnion => True end ->
  let ti := build_tokenizer base_model base loaded cfgs referenced src added in
  let mv := own_vocab base_model base loaded m in
  In m referenced -> dget (t_vocab (ti_tok ti)) t = Some id ->
  contiguous (t_vocab (ti_tok ti)) /\
  (owns ti m id j <-> dget mv t = Some j /\ (0 <= j < match cfgs m with Some n => n | None => Z.of_nat (length mv) end)%Z).
Proof.
  intros W Ht Hs ti mv Hm Hid. destruct (C34_build base_model base loaded cfgs referenced src added W Ht Hs) as (Hc & _ & Hp).
  split; [exact Hc|]. destruct (Hp m Hm) as (p & Ep & Hpi). specialize (Hpi t id Hid). unfold owns. fold ti in Ep. fold mv in Hpi. split.
  - intros (p' & Ep' & Ej & Hj). assert (p' = p) by congruence. subst p'. rewrite Hpi in Ej.
    destruct (dget mv t) as [j'|]; [|injection Ej as <-; lia].
    destruct (Z.ltb_spec j' (match cfgs m with Some n => n | None => Z.of_nat (length mv) end)) as [Hlt|]; [|discriminate].
    injection Ej as <-. auto.
  - intros [Ej Hj]. exists p. split; [exact Ep|]. split; [|lia]. rewrite Hpi, Ej.
    destruct (Z.ltb_spec j (match cfgs m with Some n => n | None => Z.of_nat (length mv) end)); [reflexivity|lia].
Qed.

Lemma finite_choice {B} (l : list string) (P : string -> B -> Prop) (b0 : B) : (forall m, In m l -> exists r, P m r) -> exists f, forall m, In m l -> P m (f m).
Proof.
  induction l as [|m l IH]; intros H; [exists (fun _ => b0); intros ? []|].
  destruct IH as (f & Hf); [intros; apply H; now right|]. destruct (H m (or_introl eq_refl)) as (r & Hr).
  exists (fun x => if eqb x m then r else f x). intros x Hx. destruct (eqb_spec x m) as [->|Hne]; [exact Hr|].
  destruct Hx as [->|Hx]; [now destruct Hne|auto].
Qed.

(** ** Whole runs *)
Section Whole.
Variable (W : world string) (E : env string tensor tokenizer_info) (nbytes : tensor -> nat).

(** a weight outside the layers, with the slice whose models it is read from: the first slice for weights before the
    layers, the last one for weights after them (provided it does not have more sources than the first, C13) *)
Definition outer_weight (mdef : module_def) (out_cfg : cfgval) (s0 : output_slice string) (sls : list (output_slice string))
    (w : weight_info) (sl : output_slice string) : Prop :=
  (exists ws, c_pre mdef out_cfg = Ok ws /\ In w ws /\ sl = s0) \/
  (exists ws, c_post mdef out_cfg = Ok ws /\ In w ws /\ sl = last (s0 :: sls) s0 /\
              (length (os_sources sl) <= length (os_sources s0))%nat).
Definition outer_reader (c' : merge_config string) (w : weight_info) (sl : output_slice string) (def : output_module string) : reader string :=
  {| r_config := c'; r_t := 0; r_tensor := Some (wi_name w); r_slice := Some sl; r_module := Some def |}.
Definition slice_models (sl : output_slice string) : list string := map is_model (os_sources sl).

(** The embedding matrix (or output head) read back from the output directory is - before the cast to the output dtype -
    the merge method applied to the permuted matrices of the models of the slice. *)
Theorem C89_end_to_end order cfgs pad ti method k L c c' out_cfg saves A choose safe max name mdef def s0 sls sl w :
  (forall l, Permutation (order l) l) ->
  w_tokenizer W = true -> e_tokenizer E = Ok ti -> e_permute E = permute_task order cfgs pad ->
  get method = Ok k -> w_params W = parameters k -> w_tparams W = tensor_parameters k -> e_method E = merge_with method L ->
  plan_to_disk W c out_cfg = Ok saves -> NoDup (map sv_name saves) ->
  told_apart E saves -> inputs_consistent E saves -> computable E true saves ->
  (safe = true \/ ~ In "state_dict" (map fst (outputs E saves))) ->
  normalize_config W c = Ok c' -> In (name, def) (opt_list (mc_modules c')) -> dget (w_arch W) name = Some mdef ->
  om_slices def = Some (s0 :: sls) -> outer_weight mdef out_cfg s0 sls w sl ->
  wi_optional w = false -> wi_embed w = true -> NoDup (slice_models sl) ->
  exists xs task ds x y,
    Forall2 (fun m x => source E (mc_dtype c) (m, w) = Ok (Some x)) (slice_models sl) xs /\
    planned method W (outer_reader c' w sl def) w (map (fun m => (m, w)) (slice_models sl)) task /\
    permute_task order cfgs pad (reader_base (outer_reader c' w sl def)) ti (combine (slice_models sl) xs) = Ok ds /\
    merge_with method L task ds = Ok (Some x) /\
    cast E (or_else (wi_dtype w) (mc_out_dtype c)) x = Ok y /\
    leaves W E nbytes A choose safe max saves w y.
Proof.
  intros Ho Htk Hti Hpm Hk Hp1 Hp2 Hme Hp HN Ht Hc Hcomp Hsafe Hnorm Hdef Hmd Hsl Hout Hopt Hemb HNs.
  pose proof Hp as Hp'. unfold plan_to_disk in Hp'. destruct (plan W c out_cfg) as [ts|] eqn:Epl; cbn [rbind] in Hp'; [|discriminate].
  assert (Esv : saves = map (fun wt => {| sv_name := wi_name (fst wt); sv_task := snd wt; sv_optional := wi_optional (fst wt);
                        sv_dtype := or_else (wi_dtype (fst wt)) (mc_out_dtype c) |}) ts) by congruence.
  unfold plan in Epl. rewrite Hnorm in Epl. cbn [rbind] in Epl.
  destruct (rmapM _ (opt_list (mc_modules c'))) as [tss|] eqn:Er; cbn [rbind] in Epl; [|discriminate].
  assert (Ets : ts = concat tss) by congruence. clear Epl.
  destruct (In_nth_error _ _ Hdef) as (n & Hn). destruct (Verif.Plan.Proofs.rmapM_nth _ _ _ _ _ Er Hn) as (tm & Htm & Em).
  cbn beta in Em. cbn [fst snd] in Em. destruct (plan_module W c' out_cfg name def) as [[tm' cur]|] eqn:Epm; cbn [rbind fst] in Em; [|discriminate].
  assert (tm' = tm) by congruence. subst tm'.
  destruct (Plan.Props.C13_outer_weights_partial W c' out_cfg name mdef def s0 sls tm cur Hmd Hsl Epm)
    as (wpre & wpost & pre & mid & post & Epre & Epost & Etm & Opre & Opost).
  (* the task of [w] *)
  assert (Hone : forall ws part, outer_ok W c' def sl (slice_models sl) ws part -> In w ws ->
            exists task, In (w, task) part /\ merges W (outer_reader c' w sl def) w (map (fun m => (m, w)) (slice_models sl)) task).
  { intros ws part (parts & -> & HF) Hin. induction HF as [|w0 p ws parts Hok HF IH]; [destruct Hin|]. destruct Hin as [->|Hin].
    - destruct Hok as [(_ & Hop & _)|(task & -> & Hm & _)]; [congruence|]. exists task. split; [now left|exact Hm].
    - destruct (IH Hin) as (task & H1 & H2). exists task. split; [cbn; apply in_or_app; now right|exact H2]. }
  assert (Htask : exists task, In (w, task) tm /\ merges W (outer_reader c' w sl def) w (map (fun m => (m, w)) (slice_models sl)) task).
  { destruct Hout as [(ws & Ews & Hin & ->)|(ws & Ews & Hin & -> & Hle)].
    - assert (ws = wpre) by congruence. subst ws. destruct (Hone wpre pre Opre Hin) as (task & H1 & H2). exists task. split; [|exact H2].
      rewrite Etm, !in_app_iff. auto.
    - assert (ws = wpost) by congruence. subst ws. destruct (Hone wpost post (Opost Hle) Hin) as (task & H1 & H2). exists task. split; [|exact H2].
      rewrite Etm, !in_app_iff. auto. }
  destruct Htask as (task & Hin & Hm).
  assert (Hts : In (w, task) ts). { rewrite Ets. apply in_concat. exists tm. split; [eapply nth_error_In; eauto|exact Hin]. }
  set (s := {| sv_name := wi_name w; sv_task := task; sv_optional := wi_optional w; sv_dtype := or_else (wi_dtype w) (mc_out_dtype c) |}).
  assert (Hs : In s saves). { rewrite Esv. apply in_map_iff. exists (w, task). auto. }
  assert (Edt : mc_dtype c' = mc_dtype c).
  { destruct (normalize_inv W c c' Hnorm) as (ms & ms' & _ & _ & ->). reflexivity. }
  assert (Emods : map fst (map (fun m => (m, w)) (slice_models sl)) = slice_models sl).
  { rewrite map_map. apply map_id. }
  pose proof Hm as (M1 & M2 & M3 & M4 & M5 & M6 & _). cbn [r_config outer_reader] in M5.
  assert (Eg : mt_gather task = map (fun m => (m, w)) (slice_models sl)) by (apply M3; now rewrite Emods).
  pose proof Hcomp as [Hcs Hct]. destruct (Hcs s Hs) as (o & Hso). pose proof Hso as Hso'. unfold output in Hso. cbn [sv_task sv_optional sv_dtype s] in Hso.
  destruct (merged_tensor E task) as [x|] eqn:Emt; cbn [rbind] in Hso; [|discriminate]. rewrite Hopt in Hso. destruct x as [x|]; [|discriminate].
  destruct (cast E _ x) as [y|] eqn:Ey; cbn [rbind] in Hso; [|discriminate]. assert (o = Some y) by congruence. subst o.
  unfold merged_tensor in Emt. rewrite M4, Htk, Hemb, Eg, M5, Edt, Hti, M6, Hpm in Emt. cbn [andb rbind] in Emt.
  destruct (rmapM _ (map _ _)) as [xs'|] eqn:Exs in Emt; cbn [rbind] in Emt; [|discriminate].
  destruct (permute_task _ _ _ _ _ _) as [ds|] eqn:Epd in Emt; cbn [rbind] in Emt; [|discriminate].
  assert (Hxs : exists xs, Forall2 (fun m x => source E (mc_dtype c) (m, w) = Ok (Some x)) (slice_models sl) xs /\ present xs' = combine (slice_models sl) xs).
  { clear -Exs Hopt. revert xs' Exs. induction (slice_models sl) as [|m ms IH]; cbn [map]; intros xs' Exs.
    - cbn in Exs. injection Exs as <-. exists []. split; [constructor|reflexivity].
    - cbn [rmapM] in Exs. cbn [fst] in Exs.
      destruct (source E (mc_dtype c) (m, w)) as [z|] eqn:Ez; cbn [rbind] in Exs; [|discriminate].
      destruct (rmapM _ (map _ ms)) as [xs2|] eqn:E2 in Exs; cbn [rbind] in Exs; [|discriminate]. injection Exs as <-.
      destruct (IH _ E2) as (xs & H1 & H2).
      assert (Hz : exists z', z = Some z').
      { pose proof Ez as Ez'. unfold source in Ez'. destruct (stored_for E (m, w)) as [[u|]|]; cbn [rbind snd] in Ez'; [| |discriminate].
        - destruct (cast E _ u); cbn [rbind] in Ez'; [|discriminate]. injection Ez' as <-. eauto.
        - rewrite Hopt in Ez'. discriminate. }
      destruct Hz as (z' & ->). exists (z' :: xs). split; [constructor; auto|]. unfold present in *. cbn [flat_map fst snd app combine]. f_equal. exact H2. }
  destruct Hxs as (xs & Hxs & Epr). rewrite Epr in Epd.
  assert (Hout' : In (wi_name w, y) (outputs E saves)). { apply outputs_In. exists s. auto. }
  assert (Hne : outputs E saves <> []) by (intros Hnil; rewrite Hnil in Hout'; destruct Hout').
  pose proof (C63_directory W E nbytes c out_cfg saves A choose safe max Hp HN Ht Hc Hne Hsafe) as HD.
  pose proof (C63_run W E c out_cfg saves A choose Hp HN Ht Hc) as HR.
  exists xs, task, ds, x, y. split; [exact Hxs|]. split.
  { split; [exists k; auto|]. split; [exact Hm|]. now rewrite Emods. }
  split; [exact Epd|]. split; [rewrite Hme in Emt; exact Emt|]. split; [exact Ey|].
  unfold leaves. destruct (run E A choose _) as [evs st] eqn:Erun. destruct HR as [HR _]. cbn [fst].
  destruct HD as (f' & Hf & HL & _). assert (Hst : st = None) by (apply HR; split; [exact Hcs|intros _; eauto]).
  destruct (HL Hst) as (ix & L1 & L2 & L3). exists f', ix. split; [exact Hf|]. split; [exact L1|].
  intros hist. apply L3. apply last_saved_In; auto. apply outputs_NoDup; auto.
Qed.

(** A linear merge: the row of every output token is the average, with the configured weights, of the rows wanted for
    that token from the models - a model's own vector where it has the token. The matrix has the size announced in the
    output configuration. *)
Theorem C89_linear order cfgs pad ti L c c' out_cfg saves A choose safe max name mdef def s0 sls sl w :
  (forall l, Permutation (order l) l) -> contiguous (t_vocab (ti_tok ti)) ->
  w_tokenizer W = true -> e_tokenizer E = Ok ti -> e_permute E = permute_task order cfgs pad ->
  w_params W = parameters KLinear -> w_tparams W = tensor_parameters KLinear -> e_method E = merge_with "linear" L ->
  plan_to_disk W c out_cfg = Ok saves -> NoDup (map sv_name saves) ->
  told_apart E saves -> inputs_consistent E saves -> computable E true saves ->
  (safe = true \/ ~ In "state_dict" (map fst (outputs E saves))) ->
  normalize_config W c = Ok c' -> In (name, def) (opt_list (mc_modules c')) -> dget (w_arch W) name = Some mdef ->
  om_slices def = Some (s0 :: sls) -> outer_weight mdef out_cfg s0 sls w sl ->
  wi_optional w = false -> wi_embed w = true -> NoDup (slice_models sl) ->
  (forall m x, In m (slice_models sl) -> source E (mc_dtype c) (m, w) = Ok (Some x) -> wf x) ->
  exists xs x y normalize (weights : string -> R) rows cols,
    let models := slice_models sl in
    let r := outer_reader c' w sl def in
    let total := rsum (map weights models) in
    let es := matrices (combine models xs) in
    Forall2 (fun m x => source E (mc_dtype c) (m, w) = Ok (Some x)) models xs /\
    (exists v, setting r w "normalize" (PNum 1) v /\ flag v normalize) /\
    (forall m, In m models -> exists v, required_model_setting r (map (fun m => (m, w)) models) m "weight" v /\ number v (weights m)) /\
    (normalize = true -> total <> 0) /\
    shp x = [rows; cols] /\ Z.of_nat rows = config_vocab (Z.of_nat (length (t_vocab (ti_tok ti)))) pad /\
    (forall t id, dget (t_vocab (ti_tok ti)) t = Some id ->
       exists row : string -> list R,
         (forall m, In m models -> token_row ti es models (reader_base r) cfgs cols m t id (row m)) /\
         forall col, (col < cols)%nat ->
           nth (Z.to_nat id * cols + col) (dat x) 0 =
           rsum (map (fun m => weights m * nth col (row m) 0) models) / (if normalize then total else 1)) /\
    (* a token on whose vector all owners agree keeps it when the weights are normalised *)
    (forall t id v, dget (t_vocab (ti_tok ti)) t = Some id -> dget cfgs t = None -> normalize = true -> length v = cols ->
       (forall m j z, owns ti m id j -> vector es m j z -> z = v) ->
       forall col, (col < cols)%nat -> nth (Z.to_nat id * cols + col) (dat x) 0 = nth col v 0) /\
    cast E (or_else (wi_dtype w) (mc_out_dtype c)) x = Ok y /\
    leaves W E nbytes A choose safe max saves w y.
Proof.
  intros Ho Hcon Htk Hti Hpm Hp1 Hp2 Hme Hp HN Ht Hc Hcomp Hsafe Hnorm Hdef Hmd Hsl Hout Hopt Hemb HNs Hwf.
  destruct (C89_end_to_end order cfgs pad ti "linear" KLinear L c c' out_cfg saves A choose safe max name mdef def s0 sls sl w
    Ho Htk Hti Hpm eq_refl Hp1 Hp2 Hme Hp HN Ht Hc Hcomp Hsafe Hnorm Hdef Hmd Hsl Hout Hopt Hemb HNs)
    as (xs & task & ds & x & y & Hxs & HP & Hpd & Hex & Hcast & Hleaves).
  assert (Hlen : length xs = length (slice_models sl)) by (clear -Hxs; induction Hxs; cbn; congruence).
  assert (Hk : dkeys (combine (slice_models sl) xs) = slice_models sl).
  { unfold dkeys. clear -Hlen. revert xs Hlen. induction (slice_models sl) as [|m ms IH]; intros [|z xs] Hlen; try discriminate; [reflexivity|].
    cbn in *. f_equal. apply IH. lia. }
  assert (Hwfs : forall m z, In (m, z) (combine (slice_models sl) xs) -> wf z).
  { intros m z Hin. apply (Hwf m). { eapply in_combine_l; exact Hin. }
    clear -Hxs Hin. induction Hxs as [|m' z' ms zs Hz _ IH]; [destruct Hin|]. destruct Hin as [[= -> ->]|Hin]; auto. }
  assert (HNk : NoDup (dkeys (combine (slice_models sl) xs))) by now rewrite Hk.
  destruct (C89_permuted order cfgs pad _ ti _ ds Ho Hcon Hwfs HNk Hpd) as (Hb & Hperm & rows & cols & Hrows & _ & Hds).
  rewrite Hk in *. 
  assert (Hinc : incl (dkeys ds) (map fst (map (fun m => (m, w)) (slice_models sl)))).
  { intros m Hm. rewrite map_map. cbn [fst]. rewrite map_id. exact (Permutation_in _ Hperm Hm). }
  destruct (C79_linear W _ w _ task L ds _ HP Hinc Hex) as (x' & nrm & ws & [= <-] & Hn & Hw & Hlin & Hv).
  destruct (Hv [rows; cols]) as (Hs & Hl & Htot & Hval). { intros m z Hin. destruct (Hds m z Hin) as (? & ? & _). auto. }
  assert (Htt : rsum (map (fun m => ws m) (dkeys ds)) = rsum (map ws (slice_models sl))) by (apply rsum_Permutation, Permutation_map, Hperm).
  cbv zeta in Htot, Hval. rewrite Htt in Htot, Hval.
  assert (Hkey : forall t id, dget (t_vocab (ti_tok ti)) t = Some id ->
       exists row : string -> list R,
         (forall m, In m (slice_models sl) -> token_row ti (matrices (combine (slice_models sl) xs)) (slice_models sl) (reader_base (outer_reader c' w sl def)) cfgs cols m t id (row m)) /\
         forall col, (col < cols)%nat ->
           nth (Z.to_nat id * cols + col) (dat x) 0 =
           rsum (map (fun m => ws m * nth col (row m) 0) (slice_models sl)) / (if nrm then rsum (map ws (slice_models sl)) else 1)).
  { intros t id Hid.
    assert (HNd : NoDup (dkeys ds)) by (eapply Permutation_NoDup; [apply Permutation_sym; exact Hperm|exact HNs]).
    destruct (finite_choice (slice_models sl) (fun m r =>
      token_row ti (matrices (combine (slice_models sl) xs)) (slice_models sl) (reader_base (outer_reader c' w sl def)) cfgs cols m t id r /\
      forall z col, In (m, z) ds -> (col < cols)%nat -> nth (Z.to_nat id * cols + col) (dat z) 0 = nth col r 0) ([] : list R)) as (row & Hrow).
    { intros m Hm. apply (Permutation_in _ (Permutation_sym Hperm)) in Hm. apply in_map_iff in Hm as ([m' z] & Em & Hin). cbn in Em. subst m'.
      destruct (Hds m z Hin) as (_ & _ & Htokz & _). destruct (Htokz t id Hid) as (r & Hr & _ & _ & Hrr). exists r. split; [exact Hr|].
      intros z' col Hin'. assert (z' = z) by (apply (dget_In_NoDup _ _ _ HNd) in Hin; apply (dget_In_NoDup _ _ _ HNd) in Hin'; congruence). subst z'. auto. }
    exists row. split; [intros m Hm; apply (Hrow m Hm)|]. intros col Hcol.
    assert (Hidr : exists m z, In (m, z) ds).
    { destruct ds as [|[m z] ds']; [|exists m, z; now left]. exfalso. rewrite Hemb in Hlin. cbn in Hlin. discriminate Hlin. }
    destruct Hidr as (m0 & z0 & Hin0). destruct (Hds m0 z0 Hin0) as (_ & _ & Ht0 & _). destruct (Ht0 t id Hid) as (_ & _ & _ & Hlt & _).
    rewrite Hval.
    2:{ cbn. assert (Z.to_nat id * cols + cols <= rows * cols)%nat by (replace (Z.to_nat id * cols + cols)%nat with (S (Z.to_nat id) * cols)%nat by (cbn; lia); apply Nat.mul_le_mono_r; lia). lia. }
    f_equal. rewrite (rsum_ext _ (fun mt => ws (fst mt) * nth col (row (fst mt)) 0)).
    - rewrite <- (map_map fst (fun m => ws m * nth col (row m) 0)). apply rsum_Permutation, Permutation_map. exact Hperm.
    - intros [m z] Hin. cbn [fst snd]. f_equal. apply (Hrow m); auto. apply (Permutation_in _ Hperm). apply (in_map fst) in Hin. exact Hin. }
  exists xs, x, y, nrm, ws, rows, cols. cbv zeta. split; [exact Hxs|]. split; [exact Hn|].
  split; [intros m Hm; apply Hw, (Permutation_in _ (Permutation_sym Hperm)), Hm|]. split; [exact Htot|]. split; [exact Hs|]. split; [exact Hrows|].
  split; [exact Hkey|]. split; [|split; [exact Hcast|exact Hleaves]].
  intros t id v Hid Hcf Hnt Hlv Hag col Hcol. destruct (Hkey t id Hid) as (row & Hrow & Hsum). rewrite Hsum by exact Hcol. rewrite Hnt.
  rewrite (rsum_ext _ (fun m => nth col v 0 * ws m)).
  - rewrite rsum_mul. field. apply Htot, Hnt.
  - intros m Hm. rewrite (C89_agreed_token _ _ _ _ _ _ _ _ _ _ v (Hrow m Hm) Hcf Hlv Hag). ring.
Qed.
End Whole.

(** The base model joins the models in the permutation; when it gave no tensor (it is not among the sources of the slice,
    which [slices] allow), the task fails. *)
Theorem C89_absent_base order cfgs pad b ti ds : (forall l, Permutation (order l) l) -> ~ In b (dkeys ds) ->
  exists e, permute_task order cfgs pad (Some b) ti ds = Err e.
Proof.
  intros Ho Hb. destruct (permute_task _ _ _ _ _ _) as [ds'|e] eqn:Ep; [|eauto]. exfalso. unfold permute_task in Ep.
  destruct (rmapM _ ds) as [es|] eqn:Ees; cbn [rbind] in Ep; [|discriminate]. apply matrices_Ok in Ees as [-> _].
  destruct (Tokenizer.Model.execute _ _ _ _ _ _) as [res|] eqn:Ex; cbn [rbind] in Ep; [|discriminate].
  apply Hb. rewrite <- dkeys_matrices. refine (execute_models _ _ _ _ _ _ _ b Ex _).
  unfold all_models. apply (Permutation_in _ (Permutation_sym (Ho _))), set_add_In. now left.
Qed.

(** * An example *)
(** model "a" knows tokens p and q, model "b" knows p and r; the output knows all three, with r first *)
Definition v_ti : tokenizer_info :=
  {| ti_tok := {| t_vocab := [("q", 2%Z); ("r", 0%Z); ("p", 1%Z)]; t_added := []; t_size := 3 |};
     ti_perms := [("a", [(2, 1); (0, -1); (1, 0)]%Z); ("b", [(2, -1); (0, 1); (1, 0)]%Z)]; ti_vocabs := [] |}.
Definition v_embed : weight_info :=
  {| wi_name := "embed"; wi_embed := true; wi_optional := false; wi_aliases := None; wi_dtype := None; wi_tied := None |}.
Definition v_arch : model_arch :=
  [("default", {| md_arch := json_module {| ja_pre := [v_embed]; ja_layer := []; ja_post := []; ja_key := Some "num_hidden_layers"; ja_override := None |}; md_prefix := None |})].
Definition v_world : world string :=
  {| w_arch := v_arch; w_cfg := fun _ => x_num; w_tensors := fun _ => ["embed"];
     w_params := parameters KLinear; w_tparams := tensor_parameters KLinear; w_tokenizer := true |}.
Definition v_matrix (m : string) : tensor := {| shp := [2%nat; 1%nat]; dat := if eqb m "a" then [1; 2] else [4; 8] |}.
Definition v_files (m : string) : fs tensor := [("model.safetensors", FShard true [("embed", v_matrix m)])].
Definition v_env : env string tensor tokenizer_info :=
  {| e_str := fun m => m; e_dir := v_files; e_hist := fun _ => []; e_convert := fun _ _ => Ok None; e_cast := fun _ x => Ok x;
     e_method := merge_with "linear" elib; e_tokenizer := Ok v_ti; e_permute := permute_task (fun l => rev l) [] None |}.
Definition v_saves : list (save_task string) := match plan_to_disk v_world x_cfg x_num with Ok l => l | Err _ => [] end.
Definition v_norm : merge_config string := match normalize_config v_world x_cfg with Ok l => l | Err _ => x_cfg end.
Definition v_mdef : module_def := match dget v_arch "default" with Some d => d | None => x_mdef end.
Definition v_result : tensor := {| shp := [3%nat; 1%nat]; dat := [8; 13 / 4; 2] |}.

Lemma v_permuted : permute_task (fun l => rev l) [] None None v_ti [("a", v_matrix "a"); ("b", v_matrix "b")] =
  Ok [("b", {| shp := [3%nat; 1%nat]; dat := [8; 4; 2] |}); ("a", {| shp := [3%nat; 1%nat]; dat := [8; 1; 2] |})].
Proof. reflexivity. Qed.

Lemma v_output s : In s v_saves -> output v_env s = Ok (Some v_result).
Proof.
  intros Hs. vm_compute in Hs. destruct Hs as [<-|[]].
  unfold output, merged_tensor. cbn [sv_task mt_gather mt_permuted mt_dtype mt_base]. change (e_tokenizer v_env) with (Ok v_ti). cbn [rbind].
  match goal with |- context [rmapM ?f ?l] => change (rmapM f l) with (Ok [("a", Some (v_matrix "a")); ("b", Some (v_matrix "b"))] : result (list (string * option tensor))) end.
  cbn [rbind]. unfold present. cbn [flat_map fst snd app]. change (e_permute v_env) with (permute_task (fun l => rev l) [] None). rewrite v_permuted. cbn [rbind].
  unfold v_env at 1. cbn [e_method]. unfold merge_with. change (get "linear") with (Ok KLinear). cbn [rbind make_task].
  match goal with |- context [bool_field ?d ?k] => change (bool_field d k) with (Ok true) end. cbn [rbind].
  match goal with |- context [numbers ?t ?k ?l] => change (numbers t k l) with (Ok [("b", Q2R 3); ("a", Q2R 1)] : result (dict string R)) end. cbn [rbind].
  unfold some. assert (E1 : Q2R 1 = 1) by (unfold Q2R; cbn; lra). assert (E3 : Q2R 3 = 3) by (unfold Q2R; cbn; lra). rewrite E1, E3.
  match goal with |- context [linear ?e true ?d ?w] => change (linear e true d w) with
    (if Req_EM_T (3 + (1 + 0)) 0 then Err ZeroDivisionError else Ok {| shp := [3%nat; 1%nat]; dat := [(3 * 8 + (1 * 8 + 0)) / (3 + (1 + 0)); (3 * 4 + (1 * 1 + 0)) / (3 + (1 + 0)); (3 * 2 + (1 * 2 + 0)) / (3 + (1 + 0))] |}) end.
  destruct (Req_EM_T (3 + (1 + 0)) 0) as [E|_]; [lra|]. cbn [rbind].
  replace ((3 * 8 + (1 * 8 + 0)) / (3 + (1 + 0))) with 8 by field. replace ((3 * 4 + (1 * 1 + 0)) / (3 + (1 + 0))) with (13 / 4) by field.
  replace ((3 * 2 + (1 * 2 + 0)) / (3 + (1 + 0))) with 2 by field. reflexivity.
Qed.

Example C89_nonvacuous :
  (forall l : list string, Permutation (rev l) l) /\ contiguous (t_vocab (ti_tok v_ti)) /\
  plan_to_disk v_world x_cfg x_num = Ok v_saves /\ NoDup (map sv_name v_saves) /\
  told_apart v_env v_saves /\ inputs_consistent v_env v_saves /\ computable v_env true v_saves /\
  normalize_config v_world x_cfg = Ok v_norm /\ dget (w_arch v_world) "default" = Some v_mdef /\
  outputs v_env v_saves = [("embed", v_result)] /\
  (exists def, In ("default", def) (opt_list (mc_modules v_norm)) /\ om_slices def = Some [x_slice]) /\
  outer_weight v_mdef x_num x_slice [] v_embed x_slice /\ slice_models x_slice = ["a"; "b"] /\
  (forall m x, In m (slice_models x_slice) -> source v_env None (m, v_embed) = Ok (Some x) -> wf x) /\
  (* "b" has token r, as its second token; only "a" has q *)
  owns v_ti "b" 0 1 /\ (forall j, ~ owns v_ti "a" 0 j) /\ owns v_ti "a" 2 1.
Proof.
  split; [intros l; apply Permutation_sym, Permutation_rev|].
  split. { split; [repeat constructor; cbn; intuition discriminate|]. split; [repeat constructor; cbn; intuition discriminate|]. intros i; unfold dvals; cbn. lia. }
  split; [vm_compute; reflexivity|]. split; [vm_compute; repeat constructor; cbn; intuition discriminate|].
  split; [intros s Hs; vm_compute in Hs; destruct Hs as [<-|[]]; vm_compute; repeat constructor; cbn; intuition discriminate|].
  split.
  { intros s m w ix _ _ E. change (e_dir v_env m) with (v_files m) in *. injection E as <-. split.
    - intros k file Hk. cbn [ix_paths] in Hk. apply dget_In in Hk. cbn in Hk. destruct Hk as [Hk|[]]. injection Hk as <- <-.
      eexists. split; [reflexivity|now left].
    - intros k file d x Hk Ho Hx. cbn [ix_paths] in *. apply dget_In in Hk. cbn in Hk. destruct Hk as [Hk|[]]. injection Hk as <- <-.
      cbn in Ho. injection Ho as <-. unfold dkeys in Hx. cbn in Hx. destruct Hx as [<-|[]]. reflexivity. }
  split; [split; [intros s Hs; rewrite (v_output s Hs); eauto|intros _; exists v_ti; reflexivity]|].
  split; [vm_compute; reflexivity|]. split; [reflexivity|]. split.
  { unfold outputs. assert (El : exists s, v_saves = [s] /\ sv_name s = "embed") by (eexists; split; vm_compute; reflexivity).
    destruct El as (s & El & En). pose proof (v_output s) as Ho. rewrite El in *. cbn [flat_map]. rewrite Ho by now left. now rewrite En. }
  split; [eexists; split; [vm_compute; now left|vm_compute; reflexivity]|].
  split; [left; eexists; split; [vm_compute; reflexivity|split; [now left|reflexivity]]|]. split; [reflexivity|].
  split. { intros m x _ Hx. assert (Ex : Some x = Some (v_matrix m)); [|injection Ex as ->; unfold wf, v_matrix; cbn; destruct (eqb m "a"); reflexivity].
    assert (Hs : source v_env None (m, v_embed) = Ok (Some (v_matrix m))) by reflexivity. congruence. }
  split; [eexists; repeat split; lia|]. split; [|eexists; repeat split; lia].
  intros j (p & Ep & Ej & Hj). cbn in Ep. injection Ep as <-. cbn in Ej. injection Ej as <-. lia.
Qed.

Print Assumptions C89_permuted.
Print Assumptions C89_succeeds.
Print Assumptions C89_agreed_token.
Print Assumptions C89_owners.
Print Assumptions C89_end_to_end.
Print Assumptions C89_linear.
Print Assumptions C89_absent_base.
