(** Theorems about planning: C11 (layers), C12 (layer counts), C13 (tasks per weight), C14 (normalisation). *)
From Coq Require Import Lia QArith Lqa.
From Verif.Base Require Import Py PyFacts.
From Verif.Config Require Import Model.
From Verif.Arch Require Import Model.
From Verif.Plan Require Import Model Spec Proofs NormProofs ModuleProofs.
Local Open Scope string_scope.
Local Open Scope list_scope.

Section Props.
Context {M : Type} {HM : Eqb M}.
Variable W : world M.

(** * C11 *)
(** Planning a module produces its pre-weights, then one group per output layer 0 .. L-1 - where L is the sum of
    the slice lengths and the value of the layer counter afterwards - then its post-weights. Output layer
    [total_layers before + j] is the one planned for offset j of slice [sl]: its weights carry the index of the
    output layer, read layer [start + j] of every source of [sl], at depth j/(len-1) (1 for a one-layer slice). *)
Theorem C11_output_layers c out_cfg name mdef def s0 sls ts cur :
  dget (w_arch W) name = Some mdef -> om_slices def = Some (s0 :: sls) ->
  plan_module W c out_cfg name def = Ok (ts, cur) ->
  exists pre layers post,
    ts = pre ++ concat layers ++ post /\
    length layers = total_layers (s0 :: sls) /\ cur = Z.of_nat (total_layers (s0 :: sls)) /\
    (forall before sl after j, s0 :: sls = before ++ sl :: after -> (j < slice_layers sl)%nat ->
       exists p, nth_error layers (total_layers before + j) = Some p /\
                 layer_ok W c out_cfg mdef def sl j (total_layers before + j) p) /\
    (forall sl s s', In sl (s0 :: sls) -> In s (os_sources sl) -> In s' (os_sources sl) ->
       (is_end s - is_start s = is_end s' - is_start s')%Z).
Proof.
  intros H1 H2 H3. destruct (plan_module_ok W _ _ _ _ _ _ _ _ _ H1 H2 H3) as
    (wpre & wpost & pre & layers & post & _ & _ & E & Hc & Hl & _ & _ & Hall & Hlen & _).
  exists pre, layers, post. split; [exact E|]. split; [exact Hl|]. split; [exact Hc|]. split; [exact Hall|exact Hlen].
Qed.

(** every output layer index is covered by exactly such a position *)
Theorem C11_no_gap (sls : list (output_slice M)) k : (k < total_layers sls)%nat ->
  exists before sl after j, sls = before ++ sl :: after /\ (j < slice_layers sl)%nat /\ k = (total_layers before + j)%nat.
Proof. apply locate. Qed.

(** sources of different lengths are rejected *)
Theorem C11_unequal_sources_rejected c out_cfg name mdef def s0 sls sl s s' p :
  dget (w_arch W) name = Some mdef -> om_slices def = Some (s0 :: sls) ->
  In sl (s0 :: sls) -> In s (os_sources sl) -> In s' (os_sources sl) ->
  (is_end s - is_start s <> is_end s' - is_start s')%Z ->
  plan_module W c out_cfg name def <> Ok p.
Proof.
  intros H1 H2 Hsl Hs Hs' Hne Hp. destruct p as [ts cur].
  destruct (plan_module_ok W _ _ _ _ _ _ _ _ _ H1 H2 Hp) as
    (wpre & wpost & pre & layers & post & _ & _ & _ & _ & _ & _ & _ & _ & Hlen & _).
  exact (Hne (Hlen sl s s' Hsl Hs Hs')).
Qed.

(** * C13 *)
(** Every output weight - the weights before the layers, those of layers 0..L-1, those after - gets exactly one
    merge task, in order; only weights marked optional may be missing. *)
Theorem C13_one_task_per_weight c out_cfg name mdef def s0 sls ts cur :
  dget (w_arch W) name = Some mdef -> om_slices def = Some (s0 :: sls) ->
  plan_module W c out_cfg name def = Ok (ts, cur) ->
  exists wpre wl wpost,
    c_pre mdef out_cfg = Ok wpre /\ c_post mdef out_cfg = Ok wpost /\
    length wl = total_layers (s0 :: sls) /\
    (forall k ws, nth_error wl k = Some ws -> c_layer mdef (Z.of_nat k) out_cfg = Ok ws) /\
    drops (fun w => wi_optional w = true) (wpre ++ concat wl ++ wpost) (map fst ts) /\
    (NoDup (map wi_name (wpre ++ concat wl ++ wpost)) -> NoDup (map (fun wt => wi_name (fst wt)) ts)) /\
    (forall w, In w (wpre ++ concat wl ++ wpost) -> wi_optional w = false -> In w (map fst ts)).
Proof.
  intros H1 H2 H3. pose proof (plan_module_ok W _ _ _ _ _ _ _ _ _ H1 H2 H3) as Hmp.
  destruct (module_plan_drops W _ _ _ _ _ _ _ _ Hmp) as (wpre & wl & wpost & A & B & C & D & E).
  exists wpre, wl, wpost. split; [exact A|]. split; [exact B|]. split; [exact C|]. split; [exact D|]. split; [exact E|].
  split.
  - intros Hnd. rewrite <- map_map. exact (drops_NoDup_map _ wi_name _ _ E Hnd).
  - intros w Hw Ho. apply (drops_kept _ _ _ _ E Hw). congruence.
Qed.

(** The weights before the layers are merged from every source model of the first slice. Those after the layers are
    merged from the sources of the last slice - all of them if it has no more sources than the first one. *)
Theorem C13_outer_weights_partial c out_cfg name mdef def s0 sls ts cur :
  dget (w_arch W) name = Some mdef -> om_slices def = Some (s0 :: sls) ->
  plan_module W c out_cfg name def = Ok (ts, cur) ->
  exists wpre wpost pre mid post,
    c_pre mdef out_cfg = Ok wpre /\ c_post mdef out_cfg = Ok wpost /\ ts = pre ++ mid ++ post /\
    outer_ok W c def s0 (map is_model (os_sources s0)) wpre pre /\
    ((length (os_sources (last (s0 :: sls) s0)) <= length (os_sources s0))%nat ->
     outer_ok W c def (last (s0 :: sls) s0) (map is_model (os_sources (last (s0 :: sls) s0))) wpost post).
Proof.
  intros H1 H2 H3. destruct (plan_module_ok W _ _ _ _ _ _ _ _ _ H1 H2 H3) as
    (wpre & wpost & pre & layers & post & A & B & C & _ & _ & D & E & _).
  exists wpre, wpost, pre, (concat layers), post.
  split; [exact A|]. split; [exact B|]. split; [exact C|]. split; [exact D|].
  intros Hle. rewrite firstn_all2 in E by (rewrite map_length; exact Hle). exact E.
Qed.

(** Planning a module succeeds whenever: all parameters resolve; the architecture produces its weights, the same
    number per layer and optional in the same places; no optional weight has aliases; all slices have sources,
    of equal length. *)
Theorem C13_planning_succeeds_partial c out_cfg name mdef def s0 sls :
  dget (w_arch W) name = Some mdef -> om_slices def = Some (s0 :: sls) ->
  plannable W c def out_cfg mdef s0 sls ->
  exists p, plan_module W c out_cfg name def = Ok p.
Proof. apply plan_module_succeeds. Qed.

(** An optional weight with an alias makes planning fail, whatever the models contain. *)
Theorem C13_optional_alias_raises (w : weight_info) win models r m0 a al :
  wi_optional w = true -> hd_error win = Some w -> wi_aliases w = Some (a :: al) -> hd_error models = Some m0 ->
  plan_tensor W w win models r = Err TypeError.
Proof.
  intros Ho Hw Ha Hm. destruct win as [|w' win]; [discriminate|]. injection Hw as ->.
  destruct models as [|m models]; [discriminate|].
  unfold plan_tensor. rewrite Ho. cbn [combine any_present]. rewrite Ha. reflexivity.
Qed.

(** * C14 *)
(** what normalisation does to one module definition: slices are kept, a list of models becomes a single slice
    reading every listed model, in order and over its full depth, followed by the base model if there is one that
    is not listed *)
Definition normalised (base : option M) (md : module_def) (d d' : output_module M) : Prop :=
  (truthy (om_models d) = false /\ d' = d) \/
  (exists ms srcs extra, om_models d = Some ms /\ ms <> [] /\
     d' = {| om_slices := Some [{| os_sources := srcs ++ extra; os_base := None; os_params := None |}];
             om_models := None; om_params := om_params d |} /\
     Forall2 (fun im s => is_model s = im_model im /\ is_params s = im_params im /\ is_start s = 0%Z /\
                ma_num (md_arch md) (w_cfg W (im_model im)) = Ok (is_end s)) ms srcs /\
     match base with
     | Some b => (In b (map im_model ms) /\ extra = []) \/
                 (~ In b (map im_model ms) /\ exists s, extra = [s] /\ is_model s = b /\ is_params s = None /\
                    is_start s = 0%Z /\ ma_num (md_arch md) (w_cfg W b) = Ok (is_end s))
     | None => extra = []
     end).

Theorem C14_normal_form c c' :
  (forall nm d, In (nm, d) (opt_list (mc_modules c)) -> validate_module d = Ok tt) ->
  normalize_config W c = Ok c' ->
  exists ms ms',
    (* which module definitions are normalised *)
    (if truthy (mc_slices c) then exists nm md, w_arch W = [(nm, md)] /\
        ms = [(nm, {| om_slices := mc_slices c; om_models := None; om_params := None |})]
     else if truthy (mc_models c) then
        ms = map (fun nm => (nm, {| om_slices := None; om_models := mc_models c; om_params := None |})) (dkeys (w_arch W))
     else mc_modules c = Some ms) /\
    mc_modules c' = Some ms' /\
    Forall2 (fun kv kv' => fst kv' = fst kv /\ truthy (om_models (snd kv')) = false /\ truthy (om_slices (snd kv')) = true /\
               exists md, dget (w_arch W) (fst kv) = Some md /\ normalised (mc_base c) md (snd kv) (snd kv')) ms ms' /\
    truthy (mc_models c') = false /\ truthy (mc_slices c') = false /\
    mc_base c' = mc_base c /\ mc_params c' = mc_params c /\ mc_dtype c' = mc_dtype c /\ mc_out_dtype c' = mc_out_dtype c.
Proof.
  intros Hval He. pose proof (normalize_models W c c' He) as (Hm & Hs & Hmods).
  destruct (normalize_inv W c c' He) as (ms & ms' & Hms & Hmap & Hc').
  exists ms, ms'. split; [exact Hms|]. split; [rewrite Hc'; reflexivity|]. split.
  - assert (Hvalid : forall kv, In kv ms -> validate_module (snd kv) = Ok tt).
    { destruct (truthy (mc_slices c)) eqn:Hts.
      - destruct Hms as (nm & md & _ & ->). intros kv [<-|[]]. unfold validate_module. cbn. rewrite Hts. reflexivity.
      - destruct (truthy (mc_models c)) eqn:Htm.
        + subst ms. intros kv Hin. apply in_map_iff in Hin. destruct Hin as (nm & <- & _).
          unfold validate_module. cbn. rewrite Htm. reflexivity.
        + intros [nm d] Hin. apply (Hval nm d). rewrite Hms. exact Hin. }
    apply rmapM_Ok_Forall2 in Hmap. clear - Hmap Hvalid. induction Hmap as [|kv kv' l l' Hkv _ IH]; [constructor|].
    constructor; [|apply IH; intros x Hx; exact (Hvalid x (or_intror Hx))].
    cbn beta in Hkv. ibind Hkv md Hmd. ibind Hkv d' Hd'. injection Hkv as <-. cbn [fst snd].
    split; [reflexivity|]. split; [exact (norm_module_models W _ _ _ _ Hd')|].
    specialize (Hvalid kv (or_introl eq_refl)).
    assert (Hmd' : dget (w_arch W) (fst kv) = Some md).
    { unfold dgetE in Hmd. destruct (dget (w_arch W) (fst kv)); [congruence|discriminate]. }
    destruct (om_models (snd kv)) as [[|m0 ms]|] eqn:Hom.
    + unfold norm_module in Hd'. rewrite Hom in Hd'. injection Hd' as <-. 
      unfold validate_module in Hvalid. rewrite Hom in Hvalid.
      destruct (truthy (om_slices (snd kv))); [|discriminate]. split; [reflexivity|].
      exists md. split; [exact Hmd'|]. left. rewrite Hom. split; reflexivity.
    + destruct (norm_module_sources W _ _ _ _ _ Hd' Hom ltac:(discriminate)) as (srcs & extra & -> & H1 & H2).
      split; [reflexivity|]. exists md. split; [exact Hmd'|]. right. exists (m0 :: ms), srcs, extra.
      split; [exact Hom|]. split; [discriminate|]. split; [reflexivity|]. split; [exact H1|exact H2].
    + unfold norm_module in Hd'. rewrite Hom in Hd'. injection Hd' as <-.
      unfold validate_module in Hvalid. rewrite Hom in Hvalid.
      destruct (truthy (om_slices (snd kv))); [|discriminate]. split; [reflexivity|].
      exists md. split; [exact Hmd'|]. left. rewrite Hom. split; reflexivity.
  - rewrite Hc'. split; [rewrite <- Hm, Hc'; reflexivity|]. split; [rewrite <- Hs, Hc'; reflexivity|]. repeat split.
Qed.

Theorem C14_idempotent c c' : normalize_config W c = Ok c' -> normalize_config W c' = Ok c'.
Proof. apply normalize_idem. Qed.

(** * C12 *)
(** the slices given for module [name] in the configuration, if it is given by slices *)
Definition given_slices (c : merge_config M) (name : string) : option (list (output_slice M)) :=
  match opt_list (mc_slices c) with
  | s :: l => Some (s :: l)
  | [] => match dget (opt_list (mc_modules c)) name with
          | Some d => match opt_list (om_slices d) with s :: l => Some (s :: l) | [] => None end
          | None => None
          end
  end.

Lemma module_layers_given c name sls n :
  validate_config c = Ok tt ->
  given_slices c name = Some sls -> module_layers c name = Ok n ->
  (forall sl s, In sl sls -> In s (os_sources sl) -> (is_start s <= is_end s)%Z) ->
  n = Some (Z.of_nat (total_layers sls)).
Proof.
  intros Hval Hg Hn Hpos. unfold given_slices in Hg. unfold module_layers in Hn. unfold validate_config in Hval.
  destruct (mc_slices c) as [[|s l]|] eqn:Hsl; cbn [opt_list truthy] in *.
  - destruct (mc_modules c) as [[|kv ms]|]; cbn [opt_list truthy] in *; [discriminate| |discriminate].
    destruct (dget (kv :: ms) name) as [d|]; [|discriminate].
    destruct (om_slices d) as [[|s l]|]; cbn [opt_list truthy] in *; [discriminate| |discriminate].
    injection Hg as <-. ibind Hn ls Hls. injection Hn as <-. f_equal. exact (rmapM_first_len _ _ Hls Hpos).
  - injection Hg as <-.
    assert (Hnm : (if truthy (mc_modules c) then dget (opt_list (mc_modules c)) name else None) = None).
    { destruct (truthy (mc_modules c)); [|reflexivity]. simpl in Hval. destruct (truthy (mc_models c)); discriminate. }
    rewrite Hnm in Hn. ibind Hn ls Hls. injection Hn as <-. f_equal. exact (rmapM_first_len _ _ Hls Hpos).
  - destruct (mc_modules c) as [[|kv ms]|]; cbn [opt_list truthy] in *; [discriminate| |discriminate].
    destruct (dget (kv :: ms) name) as [d|]; [|discriminate].
    destruct (om_slices d) as [[|s l]|]; cbn [opt_list truthy] in *; [discriminate| |discriminate].
    injection Hg as <-. ibind Hn ls Hls. injection Hn as <-. f_equal. exact (rmapM_first_len _ _ Hls Hpos).
Qed.

(** the key of another module does not overlap with [key] *)
Definition key_apart (key : string) (md : module_def) : Prop :=
  forall k, ma_key (md_arch md) = Some k -> k <> "" -> disjoint (split_on "."%char k) (split_on "."%char key) = true.

Lemma set_layers_apart key md n cfg : key_apart key md ->
  get_config_value (set_layers cfg (ma_key (md_arch md)) n) key = get_config_value cfg key.
Proof.
  intros Ha. unfold set_layers. destruct (ma_key (md_arch md)) as [k|] eqn:Hk; [|reflexivity].
  destruct (String.eqb_spec k "") as [|Hne]; [reflexivity|].
  destruct (set_config_value cfg k (CVInt n)) as [c|e] eqn:Hs; [|reflexivity].
  unfold get_config_value. unfold set_config_value in Hs.
  exact (get_set_other _ _ _ _ _ (Ha k Hk Hne) Hs).
Qed.

Lemma fold_apart key (counts : list (module_def * option Z)) : (forall dn, In dn counts -> key_apart key (fst dn)) ->
  forall cfg, get_config_value (fold_left (fun cfg dn => match snd dn with
                               | Some n => set_layers cfg (ma_key (md_arch (fst dn))) n
                               | None => cfg end) counts cfg) key = get_config_value cfg key.
Proof.
  induction counts as [|[md [n|]] counts IH]; intros Ha cfg; simpl; [reflexivity| |].
  - rewrite IH by (intros dn Hdn; exact (Ha dn (or_intror Hdn))).
    apply set_layers_apart. exact (Ha (md, Some n) (or_introl eq_refl)).
  - apply IH. intros dn Hdn. exact (Ha dn (or_intror Hdn)).
Qed.

(** The layer count written to the output configuration for a module given by slices is the number of layers
    actually planned. The base configuration must already have the key, the other modules of the architecture must
    use other keys, and no range may be reversed. *)
Theorem C12_layer_count_partial c c' referenced out_cfg before name mdef after def key sls base v ts cur :
  validate_config c = Ok tt ->
  (forall nm d, In (nm, d) (opt_list (mc_modules c)) -> validate_module d = Ok tt) ->
  NoDup (dkeys (opt_list (mc_modules c))) ->
  w_arch W = before ++ (name, mdef) :: after -> ~ In name (dkeys before) ->
  (forall nm md, In (nm, md) (before ++ after) -> key_apart key md) ->
  ma_key (md_arch mdef) = Some key -> key <> "" ->
  (mc_base c = Some base \/ (mc_base c = None /\ hd_error referenced = Some base)) ->
  get_config_value (w_cfg W base) key = Ok v ->
  given_slices c name = Some sls ->
  (forall sl s, In sl sls -> In s (os_sources sl) -> (is_start s <= is_end s)%Z) ->
  model_out_config W c referenced = Ok out_cfg ->
  normalize_config W c = Ok c' -> In (name, def) (opt_list (mc_modules c')) ->
  plan_module W c' out_cfg name def = Ok (ts, cur) ->
  get_config_value out_cfg key = Ok (CVInt cur) /\ cur = Z.of_nat (total_layers sls).
Proof.
  intros Hval Hvm Hnd Harch Hfresh Hapart Hkey Hkne Hbase Hget Hgiven Hpos Hout Hnorm Hin Hplan.
  (* the planned count *)
  assert (Hdget : dget (w_arch W) name = Some mdef).
  { rewrite Harch. clear - Hfresh. induction before as [|[a b] before IH]; simpl; [rewrite eqb_refl; reflexivity|].
    rewrite dkeys_cons in Hfresh. destruct (eqb_spec name a) as [->|Hne]; [exfalso; apply Hfresh; left; reflexivity|].
    apply IH. intros Hc. apply Hfresh. right; exact Hc. }
  assert (Hdef : om_slices def = Some sls).
  { destruct (C14_normal_form c c' Hvm Hnorm) as (ms & ms' & Hms & Hc' & Hall & _).
    rewrite Hc' in Hin. cbn [opt_list] in Hin.
    assert (Hsrc : exists d, In (name, d) ms /\ exists md, dget (w_arch W) name = Some md /\ normalised (mc_base c) md d def).
    { clear - Hall Hin. induction Hall as [|kv kv' l l' Hkv _ IH]; [destruct Hin|].
      destruct Hin as [->|Hin]; [|destruct (IH Hin) as (d & Hd & Hx); exists d; split; [right; exact Hd|exact Hx]].
      destruct Hkv as (Hf & _ & _ & md & Hmd & Hn). destruct kv as [k d]. cbn [fst snd] in *. subst k.
      exists d. split; [left; reflexivity|]. exists md. split; assumption. }
    destruct Hsrc as (d & Hd & md & _ & Hnorm'). unfold given_slices in Hgiven. unfold validate_config in Hval.
    assert (Hdsl : om_slices d = Some sls /\ truthy (om_models d) = false).
    { destruct (mc_slices c) as [[|s l]|] eqn:Hsl; cbn [opt_list truthy] in *.
      - destruct (truthy (mc_models c)) eqn:Htm.
        + destruct (mc_modules c) as [[|kv m1]|]; cbn in *; discriminate.
        + rewrite Hms in *. cbn [opt_list] in *.
          destruct (dget ms name) as [d1|] eqn:Hd1; [|discriminate].
          assert (d1 = d). { pose proof (dget_In_NoDup ms name d Hnd Hd). congruence. } subst d1.
          destruct (om_slices d) as [[|x l]|] eqn:Hos; cbn [opt_list] in *; try discriminate.
          split; [congruence|]. specialize (Hvm name d Hd). unfold validate_module in Hvm. rewrite Hos in Hvm. cbn in Hvm.
          destruct (truthy (om_models d)); [discriminate|reflexivity].
      - destruct Hms as (nm & md' & _ & ->). destruct Hd as [He|[]]. injection He as _ <-. cbn.
        split; [exact Hgiven|reflexivity].
      - destruct (truthy (mc_models c)) eqn:Htm.
        + destruct (mc_modules c) as [[|kv m1]|]; cbn in *; discriminate.
        + rewrite Hms in *. cbn [opt_list] in *.
          destruct (dget ms name) as [d1|] eqn:Hd1; [|discriminate].
          assert (d1 = d). { pose proof (dget_In_NoDup ms name d Hnd Hd). congruence. } subst d1.
          destruct (om_slices d) as [[|x l]|] eqn:Hos; cbn [opt_list] in *; try discriminate.
          split; [congruence|]. specialize (Hvm name d Hd). unfold validate_module in Hvm. rewrite Hos in Hvm. cbn in Hvm.
          destruct (truthy (om_models d)); [discriminate|reflexivity]. }
    destruct Hdsl as [H1 H2]. destruct Hnorm' as [[_ ->]|(ms1 & srcs & extra & Hom & Hne & _)]; [exact H1|].
    rewrite Hom in H2. destruct ms1; [congruence|discriminate]. }
  assert (Hne : exists s0 l, sls = s0 :: l).
  { unfold given_slices in Hgiven. destruct (opt_list (mc_slices c)); [|injection Hgiven as <-; eauto].
    destruct (dget (opt_list (mc_modules c)) name); [|discriminate]. destruct (opt_list (om_slices _)); [discriminate|].
    injection Hgiven as <-; eauto. }
  destruct Hne as (s0 & l & ->).
  destruct (plan_module_ok W _ _ _ _ _ _ _ _ _ Hdget Hdef Hplan) as
    (wpre & wpost & pre & layers & post & _ & _ & _ & Hcur & _).
  split; [|exact Hcur].
  (* the count in the configuration *)
  unfold model_out_config in Hout. ibind Hout b Hb. ibind Hout counts Hcounts. injection Hout as <-.
  assert (b = base). { destruct Hbase as [Hb1|[Hb1 Hb2]]; rewrite Hb1 in Hb; [congruence|].
    destruct referenced; [discriminate|]. injection Hb2 as ->. congruence. } subst b.
  rewrite Harch in Hcounts. apply rmapM_Ok_Forall2 in Hcounts.
  apply Forall2_app_inv_l in Hcounts. destruct Hcounts as (ca & cb & Hca & Hcb & ->).
  inversion Hcb as [|? x ? cb' Hx Hcb']; subst. cbn [fst snd] in Hx. ibind Hx n Hn. injection Hx as <-.
  rewrite (module_layers_given c name (s0 :: l) n Hval Hgiven Hn Hpos).
  assert (Hap : forall mods cs, Forall2 (fun (kv : string * module_def) y => (let! n0 := module_layers c (fst kv) in Ok (snd kv, n0)) = Ok y) mods cs ->
                (forall nm md, In (nm, md) mods -> key_apart key md) -> forall dn, In dn cs -> key_apart key (fst dn)).
  { clear. induction 1 as [|[nm md] y mods cs Hy _ IH]; intros Ha dn Hdn; [destruct Hdn|].
    destruct Hdn as [->|Hdn]; [|apply IH; [intros; eapply Ha; right; eassumption|exact Hdn]].
    cbn [fst snd] in Hy. ibind Hy n Hn. injection Hy as <-. exact (Ha nm md (or_introl eq_refl)). }
  rewrite fold_left_app. cbn [fold_left fst snd].
  rewrite (fold_apart key cb') by (apply (Hap after cb' Hcb'); intros nm md Hi; exact (Hapart nm md (in_or_app _ _ _ (or_intror Hi)))).
  set (cfg1 := fold_left _ ca (w_cfg W base)).
  assert (Hcfg1 : get_config_value cfg1 key = Ok v).
  { unfold cfg1. rewrite (fold_apart key ca); [exact Hget|]. apply (Hap before ca Hca). intros nm md Hi. exact (Hapart nm md (in_or_app _ _ _ (or_introl Hi))). }
  unfold set_layers. rewrite Hkey. destruct (String.eqb_spec key "") as [|_]; [contradiction|].
  unfold get_config_value in Hcfg1.
  destruct (set_path_ok (CVInt (Z.of_nat (total_layers (s0 :: l)))) _ _ _ (split_on_nonempty "."%char key) Hcfg1) as [c2 Hc2].
  unfold set_config_value. rewrite Hc2. unfold get_config_value. exact (get_set_path _ _ _ _ Hc2).
Qed.
End Props.

(** * Concrete cases *)
Definition wi n o al := {| wi_name := n; wi_embed := false; wi_optional := o; wi_aliases := al; wi_dtype := None; wi_tied := None |}.
Definition ex_json : json_arch :=
  {| ja_pre := [wi "embed" false None]; ja_layer := [wi "layers.${layer_index}.w" false None; wi "layers.${layer_index}.b" true None];
     ja_post := [wi "norm" false None; wi "head" true None]; ja_key := Some "num_hidden_layers"; ja_override := None |}.
Definition ex_world : world nat :=
  {| w_arch := [("default", {| md_arch := json_module ex_json; md_prefix := None |})];
     w_cfg := fun m => CVObj [("num_hidden_layers", CVInt 4)];
     w_tensors := fun m => if Nat.eqb m 1 then ["embed"; "norm"; "head"; "layers.2.b"] else ["embed"; "norm"];
     w_params := []; w_tparams := [{| pd_name := "weight"; pd_required := true; pd_default := PNum 0 |}];
     w_tokenizer := false |}.
Definition src (m : nat) a b : input_slice nat := {| is_model := m; is_start := a; is_end := b; is_params := None : params |}.
Definition sl srcs : output_slice nat := {| os_sources := srcs; os_base := None; os_params := None : params |}.
Definition ex_cfg sls : merge_config nat :=
  {| mc_modules := None; mc_slices := Some sls; mc_models := None; mc_base := None;
     mc_params := Some [("weight", PList [PNum 0; PNum 1])]; mc_dtype := None; mc_out_dtype := None |}.

(** two slices of 2 and 1 layers *)
Definition ex_slices := [sl [src 1 0 2; src 2 2 4]; sl [src 1 2 3; src 2 0 1]]%nat%Z.

Definition show (ts : list (weight_info * merge_task nat)) : list (string * list (nat * string)) :=
  map (fun wt => (wi_name (fst wt), map (fun kv => (fst kv, wi_name (snd kv))) (mt_gather (snd wt)))) ts.

Definition ex_out : cfgval := CVObj [("num_hidden_layers", CVInt 3)].

Example C11_C12_C13_nonvacuous :
  model_out_config ex_world (ex_cfg ex_slices) [1; 2]%nat = Ok ex_out /\
  rmap show (plan ex_world (ex_cfg ex_slices) ex_out) = Ok
    [("embed", [(1%nat, "embed"); (2%nat, "embed")]);
     ("layers.0.w", [(1%nat, "layers.0.w"); (2%nat, "layers.2.w")]);
     ("layers.1.w", [(1%nat, "layers.1.w"); (2%nat, "layers.3.w")]);
     ("layers.2.w", [(1%nat, "layers.2.w"); (2%nat, "layers.0.w")]);
     ("layers.2.b", [(1%nat, "layers.2.b"); (2%nat, "layers.0.b")]);
     ("norm", [(1%nat, "norm"); (2%nat, "norm")]);
     ("head", [(1%nat, "head"); (2%nat, "head")])] /\
  get_config_value ex_out "num_hidden_layers" = Ok (CVInt 3).
Proof. repeat split; reflexivity. Qed.

Example C12_hypotheses_met :
  validate_config (ex_cfg ex_slices) = Ok tt /\ given_slices (ex_cfg ex_slices) "default" = Some ex_slices /\
  (forall s x, In s ex_slices -> In x (os_sources s) -> (is_start x <= is_end x)%Z).
Proof.
  split; [reflexivity|]. split; [reflexivity|]. intros s x Hs Hx.
  simpl in Hs. repeat (destruct Hs as [<-|Hs]; [simpl in Hx; repeat (destruct Hx as [<-|Hx]; [simpl; lia|]); destruct Hx|]). destruct Hs.
Qed.

Definition ex_models_cfg base : merge_config nat :=
  {| mc_modules := None; mc_slices := None; mc_models := Some [{| im_model := 1%nat; im_params := Some [("weight", PNum 1)] |};
       {| im_model := 2%nat; im_params := None |}]; mc_base := base;
     mc_params := None; mc_dtype := None; mc_out_dtype := None |}.
Example C14_nonvacuous :
  exists c', normalize_config ex_world (ex_models_cfg (Some 7%nat)) = Ok c' /\
    option_map (map (fun kv => (fst kv, option_map (map (fun s => map (fun x => (is_model x, is_start x, is_end x)) (os_sources s))) (om_slices (snd kv)))))
      (mc_modules c') = Some [("default", Some [[(1%nat, 0%Z, 4%Z); (2%nat, 0%Z, 4%Z); (7%nat, 0%Z, 4%Z)]])].
Proof. eexists. split; reflexivity. Qed.

Example C13_plannable_met :
  let d := {| om_slices := Some ex_slices; om_models := None; om_params := None |} in
  plannable ex_world (ex_cfg ex_slices) d ex_out {| md_arch := json_module ex_json; md_prefix := None |}
    (hd (sl []) ex_slices) (tl ex_slices).
Proof.
  cbn zeta. split.
  { intros r p m req (Hc & Hm & (s & Hs & Hin) & Ht) [[]|[<-|[]]].
    unfold parameter. rewrite Hs, Hm, Hc. cbn [pd_name pd_default om_params param_get try_level].
    assert (Hp : os_params s = None /\ forall x, In x (os_sources s) -> is_params x = None).
    { simpl in Hin. destruct Hin as [<-|[<-|[]]]; (split; [reflexivity|]; intros x; simpl; intros [<-|[<-|[]]]; reflexivity). }
    destruct Hp as [Hp Hps].
    assert (Hbody : exists v, try_level r (param_get (os_params s) "weight")
                     (try_level r (param_get (mc_params (ex_cfg ex_slices)) "weight") (if req then Err RuntimeError else Ok (PNum 0))) = Ok v).
    { rewrite Hp. cbn [param_get try_level ex_cfg mc_params]. unfold try_level.
      change (dget [("weight", PList [PNum 0; PNum 1])] "weight") with (Some (PList (map PNum [0; 1]))). cbv beta iota.
      destruct (Verif.Config.Proofs.eval_gradient (r_tensor r) [0; 1] (r_t r) ltac:(discriminate) Ht) as (v & Hv & _).
      rewrite Hv. eexists; reflexivity. }
    destruct m as [m|]; [|exact Hbody].
    generalize dependent (os_sources s). intros l Hl. induction l as [|x l IHl]; [exact Hbody|].
    cbn [try_sources]. rewrite (Hl x (or_introl eq_refl)). cbn [param_get try_level].
    destruct (eqb (is_model x) m); apply IHl; intros y Hy; exact (Hl y (or_intror Hy)). }
  split. { eexists. split; [reflexivity|]. intros w [<-|[]]; discriminate. }
  split. { eexists. split; [reflexivity|]. intros w [<-|[<-|[]]]; [discriminate|reflexivity]. }
  split.
  { exists [false; true]. intros i cfg Hcfg. destruct Hcfg as [->|[m ->]]; eexists; (split; [reflexivity|]);
      (constructor; [split; [reflexivity|discriminate]|constructor; [split; reflexivity|constructor]]). }
  intros s [<-|[<-|[]]]; (split; [discriminate|]); intros x y; simpl; intros [<-|[<-|[]]] [<-|[<-|[]]]; reflexivity.
Qed.

(** ** Findings *)
(** C12: a reversed range is accepted and plans no layer, but is subtracted from the stored count. *)
Theorem C12_reversed_range_refuted :
  exists (W : world nat) c c' out def ts cur,
    validate_config c = Ok tt /\ model_out_config W c (referenced_models c) = Ok out /\
    normalize_config W c = Ok c' /\ In ("default", def) (opt_list (mc_modules c')) /\
    plan_module W c' out "default" def = Ok (ts, cur) /\
    get_config_value out "num_hidden_layers" = Ok (CVInt 1) /\ cur = 2%Z.
Proof.
  set (c := ex_cfg [sl [src 1 0 2]; sl [src 2 3 2]]%nat%Z).
  exists ex_world, c. do 5 eexists.
  split; [reflexivity|]. split; [reflexivity|]. split; [reflexivity|]. split; [left; reflexivity|].
  split; [vm_compute; reflexivity|]. split; reflexivity.
Qed.

(** C13: the shipped bert definition has the optional weight [embeddings.position_ids] with an alias; planning it
    raises TypeError even though the model has the tensor. *)
Theorem C13_optional_alias_refuted :
  exists (W : world nat) c out, validate_config c = Ok tt /\
    In "embeddings.position_ids" (w_tensors W 1%nat) /\ plan W c out = Err TypeError.
Proof.
  exists {| w_arch := [("default", {| md_arch := json_module {| ja_pre := [wi "embeddings.position_ids" true (Some ["bert.embeddings.position_ids"])];
               ja_layer := []; ja_post := []; ja_key := Some "num_hidden_layers"; ja_override := None |}; md_prefix := None |})];
            w_cfg := fun m => CVObj [("num_hidden_layers", CVInt 4)];
            w_tensors := fun _ => ["embeddings.position_ids"]; w_params := []; w_tparams := []; w_tokenizer := false |},
         (ex_cfg [sl [src 1%nat 0 4]])%Z, ex_out.
  split; [reflexivity|]. split; [left; reflexivity|]. vm_compute. reflexivity.
Qed.

(** C13: when the last slice has more sources than the first, the post-weights are merged from only some of its
    sources. *)
Theorem C13_post_weights_truncated_refuted :
  exists (W : world nat) c out ts task,
    validate_config c = Ok tt /\ plan W c out = Ok ts /\ In (wi "norm" false None, task) ts /\
    opt_list (mc_slices c) = [sl [src 1%nat 0 2]; sl [src 2%nat 2 4; src 3%nat 2 4]]%Z /\
    dkeys (mt_gather task) = [2%nat].
Proof.
  exists ex_world, (ex_cfg [sl [src 1%nat 0 2]; sl [src 2%nat 2 4; src 3%nat 2 4]])%Z, ex_out.
  destruct (plan ex_world (ex_cfg [sl [src 1%nat 0 2]; sl [src 2%nat 2 4; src 3%nat 2 4]])%Z ex_out) as [ts|e] eqn:E; [|discriminate].
  exists ts. revert E. vm_compute. intros E. injection E as <-.
  eexists. split; [reflexivity|]. split; [reflexivity|]. split.
  { do 5 right. left. reflexivity. } split; reflexivity.
Qed.

(** C13: an optional weight stored only under a tied name is skipped. *)
Theorem C13_tied_name_skipped_refuted :
  exists (W : world nat) w r, wi_tied w = Some ["embed"] /\ wi_optional w = true /\
    In "embed" (w_tensors W 1%nat) /\ plan_tensor W w [w] [1%nat] r = Ok None.
Proof.
  exists ex_world, {| wi_name := "lm_head"; wi_embed := true; wi_optional := true; wi_aliases := None; wi_dtype := None;
                      wi_tied := Some ["embed"] |},
    {| r_config := ex_cfg []; r_t := 0; r_tensor := None; r_slice := None; r_module := None |}.
  split; [reflexivity|]. split; [reflexivity|]. split; [left; reflexivity|reflexivity].
Qed.

(** C11: a model listed twice in one slice, at different layers, is read only at the last of them. *)
Theorem C11_duplicate_source_refuted :
  exists (W : world nat) c out ts task,
    validate_config c = Ok tt /\ plan W c out = Ok ts /\
    opt_list (mc_slices c) = [sl [src 1%nat 0 1; src 1%nat 3 4]]%Z /\
    In (wi "layers.0.w" false None, task) ts /\
    map (fun kv => (fst kv, wi_name (snd kv))) (mt_gather task) = [(1%nat, "layers.3.w")].
Proof.
  exists ex_world, (ex_cfg [sl [src 1%nat 0 1; src 1%nat 3 4]])%Z, ex_out.
  destruct (plan ex_world (ex_cfg [sl [src 1%nat 0 1; src 1%nat 3 4]])%Z ex_out) as [ts|e] eqn:E; [|discriminate].
  exists ts. revert E. vm_compute. intros E. injection E as <-.
  eexists. split; [reflexivity|]. split; [reflexivity|]. split; [reflexivity|]. split.
  { right. left. reflexivity. } reflexivity.
Qed.

Print Assumptions C11_output_layers.
Print Assumptions C11_no_gap.
Print Assumptions C12_layer_count_partial.
Print Assumptions C13_one_task_per_weight.
Print Assumptions C13_outer_weights_partial.
Print Assumptions C13_planning_succeeds_partial.
Print Assumptions C14_normal_form.
Print Assumptions C14_idempotent.

(** The save tasks are exactly the planned tensors of every module, module after module: nothing is dropped or
    renamed between planning a module and saving, and the dtype is the weight's own or the output dtype. *)
Theorem C13_every_module_saved {M} `{Eqb M} (W : world M) (c0 : merge_config M) (out : cfgval) (saves : list (save_task M)) :
  plan_to_disk W c0 out = Ok saves ->
  exists c parts,
    normalize_config W c0 = Ok c /\
    Forall2 (fun kv part => exists k, plan_module W c out (fst kv) (snd kv) = Ok (part, k)) (opt_list (mc_modules c)) parts /\
    Forall2 (fun wt s => sv_name s = wi_name (fst wt) /\ sv_task s = snd wt /\ sv_optional s = wi_optional (fst wt) /\
                         sv_dtype s = match wi_dtype (fst wt) with Some d => Some d | None => mc_out_dtype c0 end)
            (concat parts) saves.
Proof.
  unfold plan_to_disk, plan. destruct (normalize_config W c0) as [c|] eqn:En; [|discriminate]. cbn [rbind].
  destruct (rmapM _ _) as [parts|] eqn:Ep; [|discriminate]. cbn [rbind]. intros [= <-].
  exists c, parts. split; [reflexivity|]. split.
  - apply rmapM_Ok_Forall2 in Ep. revert Ep. apply Forall2_impl. intros kv part Hk.
    destruct (plan_module W c out (fst kv) (snd kv)) as [[q k]|]; [|discriminate]. injection Hk as <-. now exists k.
  - induction (concat parts) as [|wt l IH]; cbn; constructor; auto. cbn. repeat split. now destruct (wi_dtype (fst wt)).
Qed.
Print Assumptions C13_every_module_saved.
