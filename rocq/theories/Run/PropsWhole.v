(** C90: what further merge methods leave in the output directory - passthrough, SLERP, task arithmetic and its relatives. *)
From Coq Require Import Reals QArith Qreals Lia Lra Permutation.
From Verif.Base Require Import Py PyStr PyFacts RList.
From Verif.Config Require Import Model.
From Verif.Arch Require Import Model.
From Verif.Plan Require Import Model Spec.
From Verif.Graph Require Import Model Spec.
From Verif.IO Require Import Model Spec WriterProofs RunProofs.
From Verif.Run Require Import Model Spec Props.
From Verif.Plan Require Props.
From Verif.Sparsify Require Import Model.
From Verif.Methods Require Import Model Spec Dispatch DispatchSpec PropsGta PropsSlerp PropsNuslerp PropsDispatch.
From Verif.Run Require Import PropsMethods.
Local Open Scope string_scope.
Local Open Scope list_scope.
Local Open Scope R_scope.

Section Whole.
Context {K : Type}.
Variable (W : world string) (E : env string tensor K) (nbytes : tensor -> nat).

(** the run of a plan with a method given by name, and the place of a weight: weight [i] of layer [j] of slice [sl] *)
Definition whole_run (method : string) (L : lib) c c' out_cfg saves safe : Prop :=
  (exists k, get method = Ok k /\ w_params W = parameters k /\ w_tparams W = tensor_parameters k) /\ e_method E = merge_with method L /\
  plan_to_disk W c out_cfg = Ok saves /\ NoDup (map sv_name saves) /\
  told_apart E saves /\ inputs_consistent E saves /\ computable E (w_tokenizer W) saves /\
  (safe = true \/ ~ In "state_dict" (map fst (outputs E saves))) /\
  normalize_config W c = Ok c'.
Definition layer_weight (c' : merge_config string) out_cfg (mdef : module_def) (def : output_module string) sl (j i : nat) (w : weight_info) : Prop :=
  exists name before rest,
    In (name, def) (opt_list (mc_modules c')) /\ dget (w_arch W) name = Some mdef /\
    om_slices def = Some (before ++ sl :: rest) /\ (j < slice_layers sl)%nat /\
    (exists ws, c_layer mdef (Z.of_nat (total_layers before + j)) out_cfg = Ok ws /\ nth_error ws i = Some w) /\
    wi_optional w = false /\ (w_tokenizer W && wi_embed w)%bool = false /\ NoDup (map is_model (os_sources sl)).
(** the weight that source [src] of the slice contributes *)
Definition source_weight (mdef : module_def) (j i : nat) (src : input_slice string) (wi : weight_info) : Prop :=
  exists ws, c_layer mdef (is_start src + Z.of_nat j) (w_cfg W (is_model src)) = Ok ws /\ nth_error ws i = Some wi.

Lemma run_weight method L c c' out_cfg saves safe A choose max mdef def sl j i w :
  whole_run method L c c' out_cfg saves safe -> layer_weight c' out_cfg mdef def sl j i w ->
  exists t ins xs task x y,
    contributions W E c mdef sl j i ins xs /\
    planned method W (layer_reader c' t sl def) w ins task /\
    (let ds := present (combine (map is_model (os_sources sl)) xs) in
     incl (dkeys ds) (map fst ins) /\ NoDup (dkeys ds) /\ merge_with method L task ds = Ok (Some x)) /\
    cast E (or_else (wi_dtype w) (mc_out_dtype c)) x = Ok y /\
    leaves W E nbytes A choose safe max saves w y.
Proof.
  intros ((k & Hk & Hp1 & Hp2) & Hme & Hp & HN & Ht & Hc & Hcomp & Hsafe & Hnorm)
         (name & before & rest & Hdef & Hmd & Hsl & Hj & (ws & Hws & Hi) & Hopt & Htok & HNs).
  destruct before as [|s0 before].
  - exact (C79_end_to_end W E nbytes method k L c c' out_cfg saves A choose safe max name mdef def sl rest [] sl rest j ws i w
      Hk Hp1 Hp2 Hme Hp HN Ht Hc Hcomp Hsafe Hnorm Hdef Hmd Hsl eq_refl Hj Hws Hi Hopt Htok HNs).
  - exact (C79_end_to_end W E nbytes method k L c c' out_cfg saves A choose safe max name mdef def s0 (before ++ sl :: rest) (s0 :: before) sl rest j ws i w
      Hk Hp1 Hp2 Hme Hp HN Ht Hc Hcomp Hsafe Hnorm Hdef Hmd Hsl eq_refl Hj Hws Hi Hopt Htok HNs).
Qed.

(** every tensor that reaches the method is one that a source stores, and every one that a source stores reaches it *)
Lemma contributed c mdef sl j i ins xs m x : contributions W E c mdef sl j i ins xs -> In (m, x) (present (combine (map is_model (os_sources sl)) xs)) ->
  exists src wi, In src (os_sources sl) /\ is_model src = m /\ source_weight mdef j i src wi /\ In (m, wi) ins /\ source E (mc_dtype c) (m, wi) = Ok (Some x).
Proof.
  intros [H1 H2]. revert xs H2. induction H1 as [|sr mw srs ins' [E1 (ws & E2 & E3)] _ IH]; intros xs H2 Hin; [inversion H2; subst; destruct Hin|].
  inversion H2 as [|? x0 ? xs' Hx Hxs]; subst. cbn [map combine] in Hin. unfold present in Hin. cbn [flat_map fst snd] in Hin.
  apply in_app_iff in Hin as [Hin|Hin].
  - destruct x0 as [x0|]; [|destruct Hin]. destruct Hin as [[= <- <-]|[]]. exists sr, (snd mw). split; [now left|]. split; [auto|]. split; [exists ws; auto|].
    rewrite <- E1, <- surjective_pairing. split; [now left|exact Hx].
  - destruct (IH xs' Hxs Hin) as (src & wi & A1 & A2 & A3 & A4 & A5). exists src, wi. split; [now right|]. split; [exact A2|]. split; [exact A3|]. split; [now right|exact A5].
Qed.
Lemma reaches c mdef sl j i ins xs src : contributions W E c mdef sl j i ins xs -> In src (os_sources sl) ->
  exists wi o, source_weight mdef j i src wi /\ source E (mc_dtype c) (is_model src, wi) = Ok o /\
    forall x, o = Some x -> In (is_model src, x) (present (combine (map is_model (os_sources sl)) xs)).
Proof.
  intros [H1 H2]. revert xs H2. induction H1 as [|sr mw srs ins' [E1 (ws & E2 & E3)] _ IH]; intros xs H2 Hin; [destruct Hin|].
  inversion H2 as [|? x0 ? xs' Hx Hxs]; subst. cbn [map combine]. unfold present. cbn [flat_map fst snd]. destruct Hin as [<-|Hin].
  - exists (snd mw), x0. split; [exists ws; auto|]. rewrite <- E1, <- surjective_pairing. split; [exact Hx|]. intros x ->. now left.
  - destruct (IH xs' Hxs Hin) as (wi & o & A1 & A2 & A3). exists wi, o. split; [exact A1|]. split; [exact A2|]. intros x Ho. apply in_app_iff. right. exact (A3 x Ho).
Qed.

(** ** Passthrough: stacking layers *)
(** The tensor of a slice with one source is that source's, times [scale] where one is set. *)
Theorem C90_passthrough L c c' out_cfg saves safe A choose max mdef def sl src j i w :
  whole_run "passthrough" L c c' out_cfg saves safe -> layer_weight c' out_cfg mdef def sl j i w -> os_sources sl = [src] ->
  exists t wi x z y,
    source_weight mdef j i src wi /\ source E (mc_dtype c) (is_model src, wi) = Ok (Some x) /\
    (let r := layer_reader c' t sl def in let ins := [(is_model src, wi)] in
     (z = x /\ model_setting r ins (is_model src) "scale" (PList []) (PList [])) \/
     (exists v s, model_setting r ins (is_model src) "scale" (PList []) v /\ number v s /\
        z = {| shp := shp x; dat := map (fun e => e * s) (dat x) |})) /\
    cast E (or_else (wi_dtype w) (mc_out_dtype c)) z = Ok y /\
    leaves W E nbytes A choose safe max saves w y.
Proof.
  intros HR HL Hs. destruct (run_weight _ _ _ _ _ _ _ A choose max _ _ _ _ _ _ HR HL) as (t & ins & xs & task & z & y & [H1 H2] & HP & (Hinc & HNd & Hex) & Hcast & Hleaves).
  rewrite Hs in *. inversion H1 as [|? mw ? ? [E1 (ws & E2 & E3)] H1' E0 Ei]; subst. inversion H1'; subst. inversion H2 as [|? x ? ? Hx H2']; subst. inversion H2'; subst.
  destruct mw as [m wi]. cbn [fst snd] in *. subst m. cbn [map combine] in *.
  destruct (C79_passthrough W _ w _ task L _ _ HP Hinc Hex) as (m & x' & z' & Eds & [= <-] & Hcase).
  destruct x as [x|]; [|discriminate Eds]. cbn in Eds. injection Eds as <- <-.
  exists t, wi, x, z, y. split; [exists ws; auto|]. split; [exact Hx|]. split; [exact Hcase|]. split; [exact Hcast|exact Hleaves].
Qed.

(** Where no scale is set at any level, the setting is the default. *)
Lemma scale_unset c' t sl def src wi v :
  os_sources sl = [src] -> param_get (is_params src) "scale" = None -> param_get (os_params sl) "scale" = None ->
  param_get (om_params def) "scale" = None -> param_get (mc_params c') "scale" = None ->
  model_setting (layer_reader c' t sl def) [(is_model src, wi)] (is_model src) "scale" (PList []) v -> v = PList [].
Proof.
  intros Hs H1 H2 H3 H4 (wi' & [[= <-]|[]] & Hp). unfold parameter in Hp. cbn [r_slice layer_reader for_tensor r_module r_config] in Hp.
  rewrite Hs in Hp. cbn [try_sources] in Hp. rewrite eqb_refl, H1, H2, H3, H4 in Hp. cbn in Hp. congruence.
Qed.

(** A stack of layers is a copy: without a scale and without a change of dtype, layer [j] of the slice is, tensor for
    tensor, what the source model stores for its layer [start + j]. *)
Theorem C90_stacked L c c' out_cfg saves safe A choose max mdef def sl src j i w :
  whole_run "passthrough" L c c' out_cfg saves safe -> layer_weight c' out_cfg mdef def sl j i w -> os_sources sl = [src] ->
  param_get (is_params src) "scale" = None -> param_get (os_params sl) "scale" = None ->
  param_get (om_params def) "scale" = None -> param_get (mc_params c') "scale" = None ->
  mc_dtype c = None -> mc_out_dtype c = None -> wi_dtype w = None ->
  (forall wi, source_weight mdef j i src wi -> wi_dtype wi = None) ->
  exists wi x, source_weight mdef j i src wi /\ stored_for E (is_model src, wi) = Ok (Some x) /\
    leaves W E nbytes A choose safe max saves w x.
Proof.
  intros HR HL Hs S1 S2 S3 S4 D1 D2 D3 D4.
  destruct (C90_passthrough L c c' out_cfg saves safe A choose max mdef def sl src j i w HR HL Hs) as (t & wi & x & z & y & Hw & Hx & Hcase & Hcast & Hleaves).
  assert (z = x). { destruct Hcase as [[-> _]|(v & s & Hv & (q & -> & _) & _)]; [reflexivity|]. apply scale_unset in Hv; auto. discriminate. }
  subst z. exists wi, x. split; [exact Hw|]. rewrite D2, D3 in Hcast. cbn in Hcast. injection Hcast as <-. split; [|exact Hleaves].
  unfold source in Hx. rewrite D1 in Hx. destruct (stored_for E _) as [[u|]|]; cbn [rbind snd] in Hx; [| |discriminate].
  - rewrite (D4 wi Hw) in Hx. cbn in Hx. congruence.
  - destruct (wi_optional wi); discriminate.
Qed.

(** ** SLERP *)
(** Two sources of which one is the base: the tensor is interpolated at [t], from the base's to the other's. *)
Theorem C90_slerp L c c' out_cfg saves safe A choose max mdef def sl s1 s2 j i w :
  whole_run "slerp" L c c' out_cfg saves safe -> layer_weight c' out_cfg mdef def sl j i w -> os_sources sl = [s1; s2] ->
  exists tt base w1 w2 o1 o2 z y (t : R),
    let r := layer_reader c' tt sl def in
    source_weight mdef j i s1 w1 /\ source_weight mdef j i s2 w2 /\
    source E (mc_dtype c) (is_model s1, w1) = Ok o1 /\ source E (mc_dtype c) (is_model s2, w2) = Ok o2 /\
    reader_base r = Some base /\ (exists v, required_setting r w "t" v /\ number v t) /\
    (forall x, (o1 = Some x /\ o2 = None) \/ (o1 = None /\ o2 = Some x) -> z = x) /\
    (forall x1 x2, o1 = Some x1 -> o2 = Some x2 -> shp x1 = shp x2 ->
       (base = is_model s1 -> z = {| shp := shp x1; dat := slerp t (dat x1) (dat x2) |}) /\
       (base = is_model s2 -> z = {| shp := shp x1; dat := slerp t (dat x2) (dat x1) |})) /\
    cast E (or_else (wi_dtype w) (mc_out_dtype c)) z = Ok y /\
    leaves W E nbytes A choose safe max saves w y.
Proof.
  intros HR HL Hs. pose proof HL as (_ & _ & _ & _ & _ & _ & _ & _ & _ & _ & HNs).
  destruct (run_weight _ _ _ _ _ _ _ A choose max _ _ _ _ _ _ HR HL) as (tt & ins & xs & task & z & y & [H1 H2] & HP & (Hinc & HNd & Hex) & Hcast & Hleaves).
  rewrite Hs in *. inversion H1 as [|? mw1 ? ? [E1 (ws1 & E2 & E3)] H1' E0 Ei]; subst. inversion H1' as [|? mw2 ? ? [F1 (ws2 & F2 & F3)] H1'' F0 Fi]; subst. inversion H1''; subst.
  inversion H2 as [|? o1 ? ? Ho1 H2']; subst. inversion H2' as [|? o2 ? ? Ho2 H2'']; subst. inversion H2''; subst.
  destruct mw1 as [m1 w1], mw2 as [m2 w2]. cbn [fst snd] in *. subst m1 m2. cbn [map combine] in *.
  assert (Hne : is_model s1 <> is_model s2). { inversion HNs as [|? ? Hn _]; subst. intros Heq. apply Hn. now left. }
  destruct (C79_slerp W _ w _ task L _ _ HP Hex) as (z' & base & t & [= <-] & Hb & Ht & _ & Hone & Htwo).
  exists tt, base, w1, w2, o1, o2, z, y, t. cbv zeta. split; [exists ws1; auto|]. split; [exists ws2; auto|]. split; [exact Ho1|]. split; [exact Ho2|].
  split; [exact Hb|]. split; [exact Ht|]. split; [|split; [|split; [exact Hcast|exact Hleaves]]].
  - intros x [[-> ->]|[-> ->]]; eapply Hone; reflexivity.
  - intros x1 x2 -> -> Hsh. split; intros ->.
    + rewrite (Htwo (is_model s2) x1 x2); auto.
    + rewrite (Htwo (is_model s1) x2 x1); auto. now rewrite Hsh.
Qed.

(** ** Task arithmetic, TIES and their relatives *)
(** With densities of 1 (the default): the base's tensor plus [lambda] times the weighted differences of the others - all
    of them, or those that agree with the elected sign - over the sum of their weights where [normalize] is set. *)
Theorem C90_task_arithmetic name cs sp dn dr L c c' out_cfg saves safe A choose max mdef def sl j i w s :
  In (name, (cs, sp, dn, dr)) family ->
  whole_run name L c c' out_cfg saves safe -> layer_weight c' out_cfg mdef def sl j i w ->
  (forall src wi x, In src (os_sources sl) -> source_weight mdef j i src wi -> source E (mc_dtype c) (is_model src, wi) = Ok (Some x) -> shp x = s /\ wf x) ->
  (forall t src wi v x, In src (os_sources sl) -> source_weight mdef j i src wi ->
     parameter (for_tensor (layer_reader c' t sl def) (wi_name wi)) "density" (Some (is_model src)) (PNum 1) false = Ok v -> number v x -> 1 <= x) ->
  exists t ins xs base z y,
    let r := layer_reader c' t sl def in
    let ds := present (combine (map is_model (os_sources sl)) xs) in
    contributions W E c mdef sl j i ins xs /\ reader_base r = Some base /\
    (forall b, dget ds base = Some b ->
     exists normalize lambda (weights : string -> R),
      (exists v, setting r w "normalize" (PNum (if dn then 1 else 0)) v /\ flag v normalize) /\
      (exists v, setting r w "lambda" (PNum 1) v /\ number v lambda) /\
      (forall m, In m (dkeys ds) -> m <> base -> exists v, required_model_setting r ins m "weight" v /\ number v (weights m)) /\
      shp z = s /\ length (dat z) = numel s /\
      forall e, (e < numel s)%nat ->
        let value kx := weights (fst kx) * (nth e (dat (snd kx)) 0 - nth e (dat b) 0) in
        match cs with
        | None =>
            let total := rsum (map (fun kx => weights (fst kx)) (apart base ds)) in
            let divisor := if normalize then if Rlt_dec (Rabs total) (/ 10 ^ 8) then 1 else total else 1 in
            nth e (dat z) 0 = nth e (dat b) 0 + lambda * (rsum (map value (apart base ds)) / divisor)
        | Some cs =>
            let sg := elected cs (map value (apart base ds)) in
            let kept := filter (fun kx => agrees sg (value kx)) (apart base ds) in
            let total := rsum (map (fun kx => weights (fst kx)) kept) in
            let divisor := if normalize then if Req_EM_T total 0 then 1 else total else 1 in
            nth e (dat z) 0 = nth e (dat b) 0 + lambda * (rsum (map value kept) / divisor)
        end) /\
    cast E (or_else (wi_dtype w) (mc_out_dtype c)) z = Ok y /\
    leaves W E nbytes A choose safe max saves w y.
Proof.
  intros Hfam HR HL Hsh Hden.
  destruct (run_weight _ _ _ _ _ _ _ A choose max _ _ _ _ _ _ HR HL) as (t & ins & xs & task & z & y & Hcon & HP & (Hinc & HNd & Hex) & Hcast & Hleaves).
  set (ds := present (combine (map is_model (os_sources sl)) xs)) in *.
  destruct (C79_task_arithmetic name cs sp dn dr W _ w ins task L ds _ Hfam HP Hinc Hex) as (z' & base & _ & _ & _ & _ & _ & Ebase & _).
  exists t, ins, xs, base, z, y. cbv zeta. fold ds. split; [exact Hcon|]. split; [exact Ebase|]. split; [|split; [exact Hcast|exact Hleaves]].
  pose proof (fun m x => contributed c mdef sl j i ins xs m x Hcon) as Hall. fold ds in Hall.
  intros b Hb.
  assert (Hb2 : shp b = s). { apply dget_In in Hb. destruct (Hall _ _ Hb) as (src & wi & A1 & A2 & A3 & _ & A5). subst base. now destruct (Hsh src wi b A1 A3 A5). }
  destruct (C79_dense name cs sp dn dr W _ w ins task L ds _ b Hfam HP Hinc HNd Hex) as (z2 & base2 & n & lam & ws & [= <-] & Eb2 & Hn & Hl & Hw & Hs1 & Hs2 & Hv).
  { intros base' Eb'. assert (base' = base) by congruence. now subst. }
  { intros m x Hin. destruct (Hall _ _ Hin) as (src & wi & A1 & A2 & A3 & _ & A5). subst m. rewrite Hb2. exact (Hsh src wi x A1 A3 A5). }
  { intros m v x Hm (wi & Hwi & Hp) Hnum. apply in_map_iff in Hm as ([m' x'] & Em & Hin). cbn in Em. subst m'.
    destruct (Hall _ _ Hin) as (src & wi' & A1 & A2 & A3 & A4 & A5). subst m.
    assert (wi = wi').
    { destruct HP as (_ & _ & HNi). apply (dget_In_NoDup ins _ _ HNi) in Hwi. apply (dget_In_NoDup ins _ _ HNi) in A4. congruence. }
    subst wi'. exact (Hden t src wi v x A1 A3 Hp Hnum). }
  assert (base2 = base) by congruence. subst base2. rewrite Hb2 in *. exists n, lam, ws. split; [exact Hn|]. split; [exact Hl|]. split; [exact Hw|]. split; [exact Hs1|]. split; [exact Hs2|exact Hv].
Qed.
(** ** Merging a model with copies of itself *)
(** every source of the slice stores the same tensor for the weight *)
Definition all_store (c : merge_config string) mdef sl (j i : nat) (x : tensor) : Prop :=
  wf x /\ forall src wi, In src (os_sources sl) -> source_weight mdef j i src wi -> source E (mc_dtype c) (is_model src, wi) = Ok (Some x).

(** A normalised linear merge, *)
Theorem C90_self_linear L c c' out_cfg saves safe A choose max mdef def sl j i w x :
  whole_run "linear" L c c' out_cfg saves safe -> layer_weight c' out_cfg mdef def sl j i w -> all_store c mdef sl j i x ->
  (forall t v b, setting (layer_reader c' t sl def) w "normalize" (PNum 1) v -> flag v b -> b = true) ->
  exists y, cast E (or_else (wi_dtype w) (mc_out_dtype c)) x = Ok y /\ leaves W E nbytes A choose safe max saves w y.
Proof.
  intros HR HL [Hwf Hall] Hnorm.
  destruct (run_weight _ _ _ _ _ _ _ A choose max _ _ _ _ _ _ HR HL) as (t & ins & xs & task & z & y & Hcon & HP & (Hinc & HNd & Hex) & Hcast & Hleaves).
  set (ds := present (combine (map is_model (os_sources sl)) xs)) in *.
  destruct (C79_linear W _ w ins task L _ _ HP Hinc Hex) as (z' & nrm & ws & [= <-] & (v & Hn & Hf) & _ & _ & Hv).
  assert (Hx : forall m u, In (m, u) ds -> u = x).
  { intros m u Hin. destruct (contributed _ _ _ _ _ _ _ _ _ Hcon Hin) as (src & wi & A1 & A2 & A3 & _ & A5). subst m. rewrite (Hall src wi A1 A3) in A5. congruence. }
  destruct (Hv (shp x)) as (S1 & S2 & S3 & S4). { intros m u Hin. rewrite (Hx _ _ Hin). auto. }
  rewrite (Hnorm t v nrm Hn Hf) in *. specialize (S3 eq_refl).
  assert (z = x); [|subst z; eauto].
  destruct z as [sz dz], x as [sx dx]. cbn [shp dat] in *. subst sz. f_equal. apply nth_ext_R; [now rewrite S2|]. intros e He. rewrite S2 in He. rewrite (S4 e He).
  rewrite (rsum_ext _ (fun mt => nth e dx 0 * ws (fst mt))). 2:{ intros [m u] Hin. cbn [fst snd]. rewrite (Hx _ _ Hin). cbn. ring. }
  rewrite rsum_mul. unfold dkeys in *. rewrite map_map in *. field. exact S3.
Qed.

(** ... the task arithmetic family with densities of 1 (the default), with a base that is a source of the slice, *)
Theorem C90_self_task_arithmetic name cs sp dn dr L c c' out_cfg saves safe A choose max mdef def sl j i w x base :
  In (name, (cs, sp, dn, dr)) family ->
  whole_run name L c c' out_cfg saves safe -> layer_weight c' out_cfg mdef def sl j i w -> all_store c mdef sl j i x ->
  (forall t src wi v d, In src (os_sources sl) -> source_weight mdef j i src wi ->
     parameter (for_tensor (layer_reader c' t sl def) (wi_name wi)) "density" (Some (is_model src)) (PNum 1) false = Ok v -> number v d -> 1 <= d) ->
  reader_base (layer_reader c' 0 sl def) = Some base -> In base (map is_model (os_sources sl)) ->
  exists y, cast E (or_else (wi_dtype w) (mc_out_dtype c)) x = Ok y /\ leaves W E nbytes A choose safe max saves w y.
Proof.
  intros Hfam HR HL [Hwf Hall] Hden Hb Hbin.
  destruct (C90_task_arithmetic name cs sp dn dr L c c' out_cfg saves safe A choose max mdef def sl j i w (shp x) Hfam HR HL) as (t & ins & xs & base' & z & y & Hcon & Hb' & Hval & Hcast & Hleaves).
  { intros src wi u A1 A2 A3. rewrite (Hall src wi A1 A2) in A3. injection A3 as <-. auto. }
  { exact Hden. }
  assert (base' = base). { change (reader_base (layer_reader c' t sl def)) with (reader_base (layer_reader c' 0 sl def)) in Hb'. congruence. }
  subst base'. set (ds := present (combine (map is_model (os_sources sl)) xs)) in *.
  assert (Hx : forall m u, In (m, u) ds -> u = x).
  { intros m u Hin. destruct (contributed _ _ _ _ _ _ _ _ _ Hcon Hin) as (src & wi & A1 & A2 & A3 & _ & A5). subst m. rewrite (Hall src wi A1 A3) in A5. congruence. }
  assert (Hdb : dget ds base = Some x).
  { apply in_map_iff in Hbin as (src & <- & Hsrc). destruct (reaches _ _ _ _ _ _ _ src Hcon Hsrc) as (wi & o & A1 & A2 & A3).
    rewrite (Hall src wi Hsrc A1) in A2. injection A2 as <-. specialize (A3 x eq_refl). fold ds in A3. apply dget_In_NoDup; [|exact A3].
    destruct HL as (_ & _ & _ & _ & _ & _ & _ & _ & _ & _ & HNs). now apply present_NoDup. }
  destruct (Hval x Hdb) as (nrm & lam & ws & _ & _ & _ & S1 & S2 & S3).
  assert (z = x); [|subst z; eauto].
  assert (Hap : forall kx, In kx (apart base ds) -> snd kx = x). { intros [m u] Hin. apply filter_In in Hin as [Hin _]. exact (Hx _ _ Hin). }
  destruct z as [sz dz], x as [sx dx]. cbn [shp dat] in *. subst sz. f_equal. apply nth_ext_R; [now rewrite S2|]. intros e He. rewrite S2 in He. specialize (S3 e He). cbv zeta in S3.
  assert (Hz : forall l : list (string * tensor), (forall kx, In kx l -> snd kx = {| shp := sx; dat := dx |}) ->
    rsum (map (fun kx => ws (fst kx) * (nth e (dat (snd kx)) 0 - nth e dx 0)) l) = 0).
  { intros l Hl. rewrite (rsum_ext _ (fun _ => 0)); [rewrite rsum_const; ring|]. intros kx Hk. rewrite (Hl kx Hk). cbn [dat]. ring. }
  destruct cs as [cs|].
  - rewrite (Hz (filter _ _)) in S3. 2:{ intros kx Hk. apply filter_In in Hk as [Hk _]. exact (Hap kx Hk). } rewrite S3. unfold Rdiv. rewrite Rmult_0_l. ring.
  - rewrite (Hz _ Hap) in S3. rewrite S3. unfold Rdiv. rewrite Rmult_0_l. ring.
Qed.

(** ... and SLERP, for a tensor whose norm exceeds its threshold of 1e-8, leave the tensor as it was. *)
Lemma slerp_self t v : / 10 ^ 8 < norm2 v -> slerp t v v = v.
Proof.
  intros Hv. unfold slerp. cbv zeta. assert (Hp : 0 < norm2 v) by (pose proof e8_pos; lra).
  assert (Hd : dot (normalize_vec v (/ 10 ^ 8)) (normalize_vec v (/ 10 ^ 8)) = 1).
  { unfold normalize_vec. destruct (Rlt_dec _ _) as [_|n]; [|lra]. destruct (dot_scaled (norm2 v) (norm2 v) v v eq_refl) as [->|E0]; [|exfalso; apply Rmult_integral in E0; lra].
    rewrite (norm2_dot v) in *. assert (Hdot : 0 < dot v v). { destruct (Rle_lt_dec (dot v v) 0) as [Hle|Hlt]; [|exact Hlt]. rewrite (sqrt_neg_0 _ Hle) in Hp. lra. }
    rewrite sqrt_sqrt by lra. field. lra. }
  rewrite Hd. rewrite Rabs_R1. unfold dot_threshold. destruct (Rlt_dec _ 1) as [_|n]; [|lra]. unfold lerp.
  clear. induction v as [|a v IH]; [reflexivity|]. cbn. rewrite IH. f_equal. ring.
Qed.
Theorem C90_self_slerp L c c' out_cfg saves safe A choose max mdef def sl s1 s2 j i w x :
  whole_run "slerp" L c c' out_cfg saves safe -> layer_weight c' out_cfg mdef def sl j i w -> os_sources sl = [s1; s2] ->
  all_store c mdef sl j i x -> / 10 ^ 8 < norm2 (dat x) ->
  reader_base (layer_reader c' 0 sl def) = Some (is_model s1) \/ reader_base (layer_reader c' 0 sl def) = Some (is_model s2) ->
  exists y, cast E (or_else (wi_dtype w) (mc_out_dtype c)) x = Ok y /\ leaves W E nbytes A choose safe max saves w y.
Proof.
  intros HR HL Hs [Hwf Hall] Hn Hb.
  destruct (C90_slerp L c c' out_cfg saves safe A choose max mdef def sl s1 s2 j i w HR HL Hs) as (tt & base & w1 & w2 & o1 & o2 & z & y & t & Hr).
  cbv zeta in Hr. destruct Hr as (H1 & H2 & O1 & O2 & Eb & _ & _ & Htwo & Hcast & Hleaves).
  assert (I1 : In s1 (os_sources sl)) by (rewrite Hs; now left). assert (I2 : In s2 (os_sources sl)) by (rewrite Hs; right; now left).
  rewrite (Hall s1 w1 I1 H1) in O1. rewrite (Hall s2 w2 I2 H2) in O2. injection O1 as <-. injection O2 as <-.
  change (reader_base (layer_reader c' tt sl def)) with (reader_base (layer_reader c' 0 sl def)) in Eb.
  destruct (Htwo x x eq_refl eq_refl eq_refl) as [T1 T2]. assert (z = x); [|subst z; eauto].
  destruct Hb as [Hb|Hb]; rewrite Hb in Eb; injection Eb as <-; [rewrite T1 by reflexivity|rewrite T2 by reflexivity]; rewrite slerp_self by exact Hn; now destruct x.
Qed.
End Whole.

(** Below the threshold this fails: halfway between a tiny tensor and itself, SLERP gives a multiple of it, up to 1.41 times as large. *)
Theorem C90_tiny_slerp_refuted x : 0 < x <= / 10 ^ 8 -> exists k, slerp (1 / 2) [x] [x] = [k * x] /\ 1 < k /\ k * k * (1 + x * x) = 2.
Proof.
  intros [Hx0 Hx]. assert (H8 : / 10 ^ 8 < 1) by exact eps_lt_1.
  assert (Hxx : 0 < x * x < / 10 ^ 8). { split; [nra|]. nra. }
  assert (Hn : norm2 [x] = x). { unfold norm2. cbn. rewrite Rplus_0_r. apply sqrt_square. lra. }
  unfold slerp, normalize_vec. cbv zeta. rewrite Hn. destruct (Rlt_dec _ x) as [Hlt|_]; [lra|].
  assert (Hd : dot [x] [x] = x * x) by (unfold dot, vmul; cbn; ring). rewrite Hd. rewrite Rabs_right by nra. unfold dot_threshold.
  assert (H1 : / 10 ^ 8 < 9995 / 10000). { assert (/ 10 ^ 8 <= / 10); [|lra]. apply Rinv_le_contravar; [lra|]. cbn. lra. }
  destruct (Rlt_dec _ (x * x)) as [Hlt|_]; [lra|].
  set (a := acos (x * x)). assert (Ha : cos a = x * x) by (apply cos_acos; nra).
  destruct (angle_sin (x * x)) as [Hsa _]. { rewrite Rabs_right by nra. unfold dot_threshold. lra. } fold a in Hsa.
  assert (Hr : 0 <= a <= PI) by apply acos_bound.
  assert (Ec : cos a = 2 * cos (a / 2) * cos (a / 2) - 1) by (rewrite <- cos_2a_cos; f_equal; field).
  assert (Es : sin a = 2 * sin (a / 2) * cos (a / 2)) by (rewrite <- sin_2a; f_equal; field).
  assert (Hc0 : 0 < cos (a / 2)).
  { assert (0 <= cos (a / 2)) by (apply cos_ge_0; pose proof PI_RGT_0; lra). destruct (Req_dec (cos (a / 2)) 0) as [E0|]; [|lra]. rewrite E0 in Es. lra. }
  assert (Hs0 : sin (a / 2) <> 0). { intros E0. rewrite E0 in Es. lra. }
  exists (/ cos (a / 2)). cbn [map2]. split; [|split].
  - f_equal. replace (a - a * (1 / 2)) with (a / 2) by field. replace (a * (1 / 2)) with (a / 2) by field. rewrite Es. field. split; lra.
  - rewrite <- Rinv_1 at 1. apply Rinv_lt_contravar; [lra|]. destruct (Rle_lt_dec 1 (cos (a / 2))) as [Hge|]; [|lra]. nra.
  - assert (E2 : 1 + x * x = 2 * cos (a / 2) * cos (a / 2)) by lra. rewrite E2. field. lra.
Qed.

(** * Examples *)
(** one weight in the one layer of every model; [val m] is what model [m] stores *)
Definition y_world (k : kind) : world string :=
  {| w_arch := x_arch; w_cfg := fun _ => x_num; w_tensors := fun _ => ["layers.0.w"];
     w_params := parameters k; w_tparams := tensor_parameters k; w_tokenizer := false |}.
Definition y_files (val : string -> R) (m : string) : fs tensor := [("model.safetensors", FShard true [("layers.0.w", {| shp := [1%nat]; dat := [val m] |})])].
Definition y_env (name : string) (val : string -> R) : env string tensor unit :=
  {| e_str := fun m => m; e_dir := y_files val; e_hist := fun _ => []; e_convert := fun _ _ => Ok None; e_cast := fun _ x => Ok x;
     e_method := merge_with name elib; e_tokenizer := Ok tt; e_permute := fun _ _ d => Ok d |}.
Definition y_cfg (slices : list (output_slice string)) (base : option string) (p : params) : merge_config string :=
  {| mc_modules := None; mc_slices := Some slices; mc_models := None; mc_base := base; mc_params := p; mc_dtype := None; mc_out_dtype := None |}.
Lemma y_consistent name val saves : inputs_consistent (y_env name val) saves.
Proof.
  intros s m w ix _ _ E. change (e_dir (y_env name val) m) with (y_files val m) in *. injection E as <-. split.
  - intros k file Hk. cbn [ix_paths] in Hk. apply dget_In in Hk. cbn in Hk. destruct Hk as [Hk|[]]. injection Hk as <- <-. eexists. split; [reflexivity|now left].
  - intros k file d x Hk Ho Hx. cbn [ix_paths] in *. apply dget_In in Hk. cbn in Hk. destruct Hk as [Hk|[]]. injection Hk as <- <-.
    cbn in Ho. injection Ho as <-. unfold dkeys in Hx. cbn in Hx. destruct Hx as [<-|[]]. reflexivity.
Qed.

(** A stack of two models with one layer each: layer 0 is "a"'s, layer 1 is layer 0 of "b". *)
Definition y_two : cfgval := CVObj [("num_hidden_layers", CVInt 2)].
Definition y_val (m : string) : R := if eqb m "a" then 1 else 4.
Definition y_stack : list (output_slice string) := map (fun m => {| os_sources := [esource m None]; os_base := None; os_params := None |}) ["a"; "b"].
Example C90_stacked_nonvacuous :
  exists c' saves def w, whole_run (y_world KPassthrough) (y_env "passthrough" y_val) "passthrough" elib (y_cfg y_stack None None) c' y_two saves true /\
    layer_weight (y_world KPassthrough) c' y_two x_mdef def (nth 1 y_stack (nth 0 y_stack x_slice)) 0 0 w /\ wi_name w = "layers.1.w" /\ wi_dtype w = None /\
    (exists wi, source_weight (y_world KPassthrough) x_mdef 0 0 (esource "b" None) wi /\ stored_for (y_env "passthrough" y_val) ("b", wi) = Ok (Some {| shp := [1%nat]; dat := [4] |})) /\
    outputs (y_env "passthrough" y_val) saves = [("layers.0.w", {| shp := [1%nat]; dat := [1] |}); ("layers.1.w", {| shp := [1%nat]; dat := [4] |})].
Proof.
  set (W := y_world KPassthrough). set (E := y_env "passthrough" y_val). set (c := y_cfg y_stack None None).
  destruct (normalize_config W c) as [c'|] eqn:En; [|vm_compute in En; discriminate].
  destruct (plan_to_disk W c y_two) as [saves|] eqn:Ep; [|vm_compute in Ep; discriminate].
  assert (Eo : outputs E saves = [("layers.0.w", {| shp := [1%nat]; dat := [1] |}); ("layers.1.w", {| shp := [1%nat]; dat := [4] |})]).
  { vm_compute in Ep. injection Ep as <-. reflexivity. }
  assert (Hco : computable E (w_tokenizer W) saves).
  { split; [|discriminate]. intros s Hs. vm_compute in Ep. injection Ep as <-. destruct Hs as [<-|[<-|[]]]; eexists; reflexivity. }
  assert (Hnd : NoDup (map sv_name saves)). { vm_compute in Ep. injection Ep as <-. cbn. repeat constructor; cbn; intuition discriminate. }
  assert (Hta : told_apart E saves). { intros s Hs. vm_compute in Ep. injection Ep as <-. destruct Hs as [<-|[<-|[]]]; vm_compute; repeat constructor; cbn; intuition discriminate. }
  assert (Hdef : exists def, In ("default", def) (opt_list (mc_modules c')) /\ om_slices def = Some y_stack).
  { vm_compute in En. injection En as <-. eexists. split; [now left|reflexivity]. }
  destruct Hdef as (def & Hdef & Hsl).
  destruct (c_layer x_mdef 1 y_two) as [ws|] eqn:Ews; [|vm_compute in Ews; discriminate].
  destruct ws as [|w ws]; [vm_compute in Ews; discriminate|].
  exists c', saves, def, w. split.
  { split; [exists KPassthrough; split; [reflexivity|split; reflexivity]|]. split; [reflexivity|]. split; [exact Ep|]. split; [exact Hnd|]. split; [exact Hta|].
    split; [apply y_consistent|]. split; [exact Hco|]. split; [now left|exact En]. }
  assert (Ew : w = match c_layer x_mdef 1 y_two with Ok (w :: _) => w | _ => w end) by now rewrite Ews.
  vm_compute in Ews. injection Ews as <- <-.
  split. { exists "default", [nth 0 y_stack x_slice], []. split; [exact Hdef|]. split; [reflexivity|]. split; [exact Hsl|]. split; [vm_compute; lia|].
    split; [eexists; split; [vm_compute; reflexivity|reflexivity]|]. split; [reflexivity|]. split; [reflexivity|]. repeat constructor; cbn; intuition. }
  split; [reflexivity|]. split; [reflexivity|]. split; [|exact Eo].
  eexists. split; [eexists; split; [vm_compute; reflexivity|reflexivity]|reflexivity].
Qed.

(** Two models that store the same number, merged by SLERP halfway (and by task arithmetic with lambda 1/2). *)
Definition y_same : string -> R := fun _ => 4.
Definition y_pair (pb : params) : output_slice string := {| os_sources := [esource "a" None; esource "b" pb]; os_base := None; os_params := None |}.
Definition y_t : params := Some [("t", PNum (1 # 2))].
Example C90_self_slerp_nonvacuous :
  exists c' saves def w, whole_run (y_world KSlerp) (y_env "slerp" y_same) "slerp" elib (y_cfg [y_pair None] (Some "a") y_t) c' x_num saves true /\
    layer_weight (y_world KSlerp) c' x_num x_mdef def (y_pair None) 0 0 w /\
    all_store (y_world KSlerp) (y_env "slerp" y_same) (y_cfg [y_pair None] (Some "a") y_t) x_mdef (y_pair None) 0 0 {| shp := [1%nat]; dat := [4] |} /\
    / 10 ^ 8 < norm2 [4] /\ reader_base (layer_reader c' 0 (y_pair None) def) = Some "a".
Proof.
  set (W := y_world KSlerp). set (E := y_env "slerp" y_same). set (c := y_cfg [y_pair None] (Some "a") y_t).
  destruct (normalize_config W c) as [c'|] eqn:En; [|vm_compute in En; discriminate].
  destruct (plan_to_disk W c x_num) as [saves|] eqn:Ep; [|vm_compute in Ep; discriminate].
  assert (Hs : saves = match plan_to_disk W c x_num with Ok s => s | _ => [] end) by now rewrite Ep.
  assert (Hdef : exists def, In ("default", def) (opt_list (mc_modules c')) /\ om_slices def = Some [y_pair None] /\ mc_base c' = Some "a").
  { vm_compute in En. injection En as <-. eexists. split; [now left|split; reflexivity]. }
  destruct Hdef as (def & Hdef & Hsl & Hb).
  eexists c', saves, def, _. split.
  { split; [exists KSlerp; split; [reflexivity|split; reflexivity]|]. split; [reflexivity|]. split; [exact Ep|]. clear Ep.
    vm_compute in Hs. subst saves.
    split; [repeat constructor; cbn; intuition discriminate|].
    split; [intros s [<-|[]]; vm_compute; repeat constructor; cbn; intuition discriminate|].
    split; [apply y_consistent|]. split; [split; [intros s [<-|[]]; eexists; reflexivity|discriminate]|]. split; [now left|exact En]. }
  split. { exists "default", [], []. split; [exact Hdef|]. split; [reflexivity|]. split; [exact Hsl|]. split; [vm_compute; lia|].
    split; [eexists; split; [vm_compute; reflexivity|reflexivity]|]. split; [reflexivity|]. split; [reflexivity|]. repeat constructor; cbn; intuition discriminate. }
  split. { split; [reflexivity|]. intros src wi Hsrc (ws & Ews & Hi). destruct Hsrc as [<-|[<-|[]]]; vm_compute in Ews; injection Ews as <-; cbn in Hi; injection Hi as <-; reflexivity. }
  split; [|exact Hb]. replace (norm2 [4]) with 4. 2:{ unfold norm2. cbn. rewrite Rplus_0_r. rewrite sqrt_square; lra. } pose proof eps_lt_1. lra.
Qed.
Definition y_lambda : params := Some [("lambda", PNum (1 # 2))].
Example C90_self_task_arithmetic_nonvacuous :
  let sl := y_pair (weight 2) in let c := y_cfg [sl] (Some "a") y_lambda in
  exists c' saves def w, whole_run (y_world ta_kind) (y_env "task_arithmetic" y_same) "task_arithmetic" elib c c' x_num saves true /\
    layer_weight (y_world ta_kind) c' x_num x_mdef def sl 0 0 w /\
    all_store (y_world ta_kind) (y_env "task_arithmetic" y_same) c x_mdef sl 0 0 {| shp := [1%nat]; dat := [4] |} /\
    (forall t src wi v d, In src (os_sources sl) -> source_weight (y_world ta_kind) x_mdef 0 0 src wi ->
     parameter (for_tensor (layer_reader c' t sl def) (wi_name wi)) "density" (Some (is_model src)) (PNum 1) false = Ok v -> number v d -> 1 <= d) /\
    reader_base (layer_reader c' 0 sl def) = Some "a".
Proof.
  cbv zeta. set (W := y_world ta_kind). set (E := y_env "task_arithmetic" y_same). set (sl := y_pair (weight 2)). set (c := y_cfg [sl] (Some "a") y_lambda).
  destruct (normalize_config W c) as [c'|] eqn:En; [|vm_compute in En; discriminate].
  destruct (plan_to_disk W c x_num) as [saves|] eqn:Ep; [|vm_compute in Ep; discriminate].
  assert (Hs : saves = match plan_to_disk W c x_num with Ok s => s | _ => [] end) by now rewrite Ep.
  assert (Hdef : exists def, In ("default", def) (opt_list (mc_modules c')) /\ om_slices def = Some [sl] /\ mc_base c' = Some "a" /\ om_params def = None /\ mc_params c' = y_lambda).
  { vm_compute in En. injection En as <-. eexists. split; [now left|repeat split; reflexivity]. }
  destruct Hdef as (def & Hdef & Hsl & Hb & Hdp & Hmp).
  eexists c', saves, def, _. split.
  { split; [exists ta_kind; split; [reflexivity|split; reflexivity]|]. split; [reflexivity|]. split; [exact Ep|]. clear Ep.
    vm_compute in Hs. subst saves.
    split; [repeat constructor; cbn; intuition discriminate|].
    split; [intros s [<-|[]]; vm_compute; repeat constructor; cbn; intuition discriminate|].
    split; [apply y_consistent|]. split; [split; [|discriminate]|split; [now left|exact En]].
    intros s [<-|[]].
    set (ds := [("a", {| shp := [1%nat]; dat := [4] |}); ("b", {| shp := [1%nat]; dat := [4] |})] : dict string tensor).
    destruct (C30_succeeds None false (Q2R (1 # 2)) None "a" ds [("b", {| p_weight := Q2R 2; p_density := Q2R 1; p_gamma := 0; p_epsilon := 0 |})] (l_choice elib)) as (y & Ey).
    { now left. }
    { intros k x [[= <- <-]|[[= <- <-]|[]]] Hne; unfold dkeys; cbn; try congruence; auto. }
    exists (Some y). unfold output, merged_tensor. cbn [sv_task mt_gather mt_permuted mt_dtype].
    match goal with |- context [rmapM ?f ?l] => change (rmapM f l) with (Ok [("a", Some {| shp := [1%nat]; dat := [4] |}); ("b", Some {| shp := [1%nat]; dat := [4] |})] : result (list (string * option tensor))) end.
    cbn [rbind]. unfold present. cbn [flat_map fst snd app]. fold ds. unfold E, y_env. cbn [e_method]. unfold merge_with. change (get "task_arithmetic") with (Ok ta_kind). cbn [rbind]. unfold ta_kind at 1. cbn [make_task].
    cbn [mt_base base_field rbind].
    repeat match goal with |- context [bool_field ?d ?k] => change (bool_field d k) with (Ok false) end. cbn [rbind].
    repeat match goal with |- context [float_field ?d ?k] => change (float_field d k) with (Ok (Q2R (1 # 2))) end. cbn [rbind].
    repeat match goal with |- context [dgetE ?d "rescale"] => change (dgetE d "rescale") with (Ok (PNum 0)) end. cbn [rbind].
    change (gta_of None None) with {| g_consensus := None; g_sparsify := None |}. cbn [mt_weight wi_embed].
    match goal with |- context [rmapM ?f (others (Some "a") ds)] => change (rmapM f (others (Some "a") ds)) with
        (Ok [("b", {| p_weight := Q2R 2; p_density := Q2R 1; p_gamma := 0; p_epsilon := 0 |})] : result (dict string tparams)) end.
    cbn [rbind]. change (if truthy (PNum 0) then Some L1 else None) with (@None rescale_norm). unfold some. rewrite Ey. reflexivity. }
  split. { exists "default", [], []. split; [exact Hdef|]. split; [reflexivity|]. split; [exact Hsl|]. split; [vm_compute; lia|].
    split; [eexists; split; [vm_compute; reflexivity|reflexivity]|]. split; [reflexivity|]. split; [reflexivity|]. repeat constructor; cbn; intuition discriminate. }
  split. { split; [reflexivity|]. intros src wi Hsrc (ws & Ews & Hi). destruct Hsrc as [<-|[<-|[]]]; vm_compute in Ews; injection Ews as <-; cbn in Hi; injection Hi as <-; reflexivity. }
  split; [|exact Hb]. intros t src wi v d Hsrc (ws & Ews & Hi) Hp (q & -> & ->).
  unfold parameter, layer_reader, for_tensor in Hp. cbn [r_slice r_module r_config] in Hp. rewrite Hdp, Hmp in Hp. cbn [os_sources sl y_pair os_params] in Hp.
  destruct Hsrc as [<-|[<-|[]]]; cbn in Hp; injection Hp as <-; unfold Q2R; cbn; lra.
Qed.

Print Assumptions C90_passthrough.
Print Assumptions C90_stacked.
Print Assumptions C90_slerp.
Print Assumptions C90_task_arithmetic.
Print Assumptions C90_self_linear.
Print Assumptions C90_self_task_arithmetic.
Print Assumptions C90_self_slerp.
Print Assumptions C90_tiny_slerp_refuted.
