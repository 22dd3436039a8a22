(** C79, whole runs: the tensors read back from the output directory of a merge with a method given by name. *)
From Coq Require Import Reals QArith Qreals Lia Lra Permutation.
From Verif.Base Require Import Py PyStr PyFacts RList.
From Verif.Config Require Import Model.
From Verif.Arch Require Import Model.
From Verif.Plan Require Import Model Spec.
From Verif.Graph Require Import Model Spec.
From Verif.IO Require Import Model Spec WriterProofs RunProofs.
From Verif.Run Require Import Model Spec Props.
From Verif.Plan Require Props.
From Verif.Methods Require Import Model Spec Dispatch DispatchSpec PropsDispatch.
Local Open Scope string_scope.
Local Open Scope list_scope.
Local Open Scope R_scope.

Section Whole.
Context {K : Type}.
Variable (W : world string) (E : env string tensor K) (nbytes : tensor -> nat).

Lemma present_keys (ms : list string) (xs : list (option tensor)) : incl (dkeys (present (combine ms xs))) ms.
Proof.
  revert xs. induction ms as [|m ms IH]; intros xs k; [destruct 1|]. destruct xs as [|x xs]; [destruct 1|].
  unfold present in *. cbn [combine flat_map fst snd]. unfold dkeys. rewrite map_app, in_app_iff. intros [Hin|Hin].
  - destruct x as [x|]; [destruct Hin as [<-|[]]; now left|destruct Hin].
  - right. exact (IH xs k Hin).
Qed.
Lemma present_NoDup (ms : list string) (xs : list (option tensor)) : NoDup ms -> NoDup (dkeys (present (combine ms xs))).
Proof.
  intros HN. revert xs. induction HN as [|m ms Hm HN IH]; intros xs; [constructor|]. destruct xs as [|x xs]; [constructor|].
  specialize (IH xs). pose proof (present_keys ms xs) as Hk. unfold present in *. cbn [combine flat_map fst snd]. unfold dkeys in *. rewrite map_app.
  destruct x as [x|]; cbn; [constructor; auto|exact IH].
Qed.

(** what was written for weight [i] of output layer [total_layers before + j] *)
Definition layer_reader (c' : merge_config string) (t : Q) (sl : output_slice string) (def : output_module string) : reader string :=
  {| r_config := c'; r_t := t; r_tensor := None; r_slice := Some sl; r_module := Some def |}.
(** the weights that the sources of a slice contribute to it, and the tensors they store *)
Definition contributions (c : merge_config string) (mdef : module_def) (sl : output_slice string) (j i : nat)
    (ins : list (string * weight_info)) (xs : list (option tensor)) : Prop :=
  Forall2 (fun s mw => fst mw = is_model s /\
             exists ws, c_layer mdef (is_start s + Z.of_nat j) (w_cfg W (is_model s)) = Ok ws /\
                        nth_error ws i = Some (snd mw)) (os_sources sl) ins /\
  Forall2 (fun mw x => source E (mc_dtype c) mw = Ok x) ins xs.
(** the run, from an empty directory, leaves a model in which [y] is read under the name of [w], whatever was read before *)
Definition leaves A choose safe max saves (w : weight_info) (y : tensor) : Prop :=
  exists f' ix,
    apply_all (ops_of nbytes (new_writer safe None max) (acts (fst (run E A choose (disk_targets E (w_tokenizer W) saves))))) [] = Ok f' /\
    from_disk f' = Ok ix /\
    forall hist, snd (get_tensor f' ix (after f' ix hist) (wi_name w) [] true) = Ok (Some y).

Theorem C79_end_to_end method k L c c' out_cfg saves A choose safe max name mdef def s0 sls before sl rest j wout i w :
  get method = Ok k -> w_params W = parameters k -> w_tparams W = tensor_parameters k -> e_method E = merge_with method L ->
  plan_to_disk W c out_cfg = Ok saves -> NoDup (map sv_name saves) ->
  told_apart E saves -> inputs_consistent E saves -> computable E (w_tokenizer W) saves ->
  (safe = true \/ ~ In "state_dict" (map fst (outputs E saves))) ->
  normalize_config W c = Ok c' -> In (name, def) (opt_list (mc_modules c')) -> dget (w_arch W) name = Some mdef ->
  om_slices def = Some (s0 :: sls) -> s0 :: sls = before ++ sl :: rest -> (j < slice_layers sl)%nat ->
  c_layer mdef (Z.of_nat (total_layers before + j)) out_cfg = Ok wout -> nth_error wout i = Some w ->
  wi_optional w = false -> (w_tokenizer W && wi_embed w)%bool = false -> NoDup (map is_model (os_sources sl)) ->
  exists t ins xs task x y,
    contributions c mdef sl j i ins xs /\
    planned method W (layer_reader c' t sl def) w ins task /\
    (let ds := present (combine (map is_model (os_sources sl)) xs) in
     incl (dkeys ds) (map fst ins) /\ NoDup (dkeys ds) /\ merge_with method L task ds = Ok (Some x)) /\
    cast E (or_else (wi_dtype w) (mc_out_dtype c)) x = Ok y /\
    leaves A choose safe max saves w y.
Proof.
  intros Hk Hp Ht Hm Hpl HN Hta Hic Hc Hsafe Hnorm Hdef Hmd Hsl Esl Hj Hwo Hi Hopt Htok HNs.
  destruct (C63_end_to_end W E nbytes c c' out_cfg saves A choose safe max name mdef def s0 sls before sl rest j wout i w
    Hpl HN Hta Hic Hc Hsafe Hnorm Hdef Hmd Hsl Esl Hj Hwo Hi Hopt Htok HNs)
    as (f' & ix & t & ins & xs & task & x & y & Hf & Hins & Hxs & Hmg & Hex & Hcast & Hfd & Hread).
  assert (Emods : map fst ins = map is_model (os_sources sl)).
  { clear -Hins. induction Hins as [|? ? ? ? [E1 _] _ IH]; cbn; congruence. }
  exists t, ins, xs, task, x, y. split; [split; assumption|]. split.
  { split; [exists k; auto|]. split; [exact Hmg|]. rewrite Emods. exact HNs. }
  split.
  { cbv zeta. split; [rewrite Emods; apply present_keys|]. split; [now apply present_NoDup|]. rewrite Hm in Hex. exact Hex. }
  split; [exact Hcast|]. exists f', ix. auto.
Qed.

(** A linear merge: every entry of the tensor read back is - before the cast to the output dtype - the average of the
    entries stored by the sources that have the weight, weighted as configured. *)
Theorem C79_end_to_end_linear L c c' out_cfg saves A choose safe max name mdef def s0 sls before sl rest j wout i w s :
  w_params W = parameters KLinear -> w_tparams W = tensor_parameters KLinear -> e_method E = merge_with "linear" L ->
  plan_to_disk W c out_cfg = Ok saves -> NoDup (map sv_name saves) ->
  told_apart E saves -> inputs_consistent E saves -> computable E (w_tokenizer W) saves ->
  (safe = true \/ ~ In "state_dict" (map fst (outputs E saves))) ->
  normalize_config W c = Ok c' -> In (name, def) (opt_list (mc_modules c')) -> dget (w_arch W) name = Some mdef ->
  om_slices def = Some (s0 :: sls) -> s0 :: sls = before ++ sl :: rest -> (j < slice_layers sl)%nat ->
  c_layer mdef (Z.of_nat (total_layers before + j)) out_cfg = Ok wout -> nth_error wout i = Some w ->
  wi_optional w = false -> (w_tokenizer W && wi_embed w)%bool = false -> NoDup (map is_model (os_sources sl)) ->
  (forall src ws wi x, In src (os_sources sl) -> c_layer mdef (is_start src + Z.of_nat j) (w_cfg W (is_model src)) = Ok ws ->
     nth_error ws i = Some wi -> source E (mc_dtype c) (is_model src, wi) = Ok (Some x) -> shp x = s /\ wf x) ->
  exists t ins xs x y normalize (weights : string -> R),
    contributions c mdef sl j i ins xs /\
    (exists v, setting (layer_reader c' t sl def) w "normalize" (PNum 1) v /\ flag v normalize) /\
    (let ds := present (combine (map is_model (os_sources sl)) xs) in
     let total := rsum (map weights (dkeys ds)) in
     (forall m, In m (dkeys ds) -> exists v, required_model_setting (layer_reader c' t sl def) ins m "weight" v /\ number v (weights m)) /\
     shp x = s /\ length (dat x) = numel s /\ (normalize = true -> total <> 0) /\
     forall e, (e < numel s)%nat ->
       nth e (dat x) 0 = rsum (map (fun mx => weights (fst mx) * nth e (dat (snd mx)) 0) ds) / (if normalize then total else 1)) /\
    cast E (or_else (wi_dtype w) (mc_out_dtype c)) x = Ok y /\
    leaves A choose safe max saves w y.
Proof.
  intros Hp Ht Hm Hpl HN Hta Hic Hc Hsafe Hnorm Hdef Hmd Hsl Esl Hj Hwo Hi Hopt Htok HNs Hs.
  destruct (C79_end_to_end "linear" KLinear L c c' out_cfg saves A choose safe max name mdef def s0 sls before sl rest j wout i w eq_refl Hp Ht Hm
    Hpl HN Hta Hic Hc Hsafe Hnorm Hdef Hmd Hsl Esl Hj Hwo Hi Hopt Htok HNs)
    as (t & ins & xs & task & x & y & Hcon & HP & (Hinc & HNd & Hex) & Hcast & Hleaves).
  destruct (C79_linear W _ w ins task L _ _ HP Hinc Hex) as (x' & nrm & ws & [= <-] & Hn & Hw & _ & Hv).
  exists t, ins, xs, x, y, nrm, ws. split; [exact Hcon|]. split; [exact Hn|]. split; [|split; [exact Hcast|exact Hleaves]].
  cbv zeta. split; [exact Hw|]. apply Hv. intros m z Hin.
  assert (Hz : exists src ws wi, In src (os_sources sl) /\ c_layer mdef (is_start src + Z.of_nat j) (w_cfg W (is_model src)) = Ok ws /\
     nth_error ws i = Some wi /\ source E (mc_dtype c) (is_model src, wi) = Ok (Some z)).
  { destruct Hcon as [H1 H2]. clear -H1 H2 Hin.
    revert xs H2 Hin. induction H1 as [|sr mw srs ins' [E1 (ws & E2 & E3)] _ IH]; intros xs H2 Hin; [inversion H2; subst; destruct Hin|].
    inversion H2 as [|? x0 ? xs' Hx Hxs]; subst. cbn [map combine] in Hin. unfold present in Hin. cbn [flat_map fst snd] in Hin.
    apply in_app_iff in Hin as [Hin|Hin].
    - destruct x0 as [x0|]; [|destruct Hin]. destruct Hin as [[= _ <-]|[]]. exists sr, ws, (snd mw). split; [now left|]. split; [exact E2|]. split; [exact E3|].
      rewrite <- E1, <- surjective_pairing. exact Hx.
    - destruct (IH xs' Hxs Hin) as (src & ws' & wi & A1 & A2). exists src, ws', wi. split; [now right|exact A2]. }
  destruct Hz as (src & ws' & wi & A1 & A2 & A3 & A4). exact (Hs src ws' wi z A1 A2 A3 A4).
Qed.
End Whole.

(** * An example *)
(** one layer with one weight, merged from models "a" and "b" with weights 1 and 3 *)
Definition x_arch : model_arch :=
  [("default", {| md_arch := json_module {| ja_pre := []; ja_layer := [Plan.Props.wi "layers.${layer_index}.w" false None];
     ja_post := []; ja_key := Some "num_hidden_layers"; ja_override := None |}; md_prefix := None |})].
Definition x_num : cfgval := CVObj [("num_hidden_layers", CVInt 1)].
Definition x_world : world string :=
  {| w_arch := x_arch; w_cfg := fun _ => x_num; w_tensors := fun _ => ["layers.0.w"];
     w_params := parameters KLinear; w_tparams := tensor_parameters KLinear; w_tokenizer := false |}.
Definition x_files (m : string) : fs tensor :=
  [("model.safetensors", FShard true [("layers.0.w", {| shp := [1%nat]; dat := [if eqb m "a" then 1 else 4] |})])].
Definition x_env : env string tensor unit :=
  {| e_str := fun m => m; e_dir := x_files; e_hist := fun _ => []; e_convert := fun _ _ => Ok None; e_cast := fun _ x => Ok x;
     e_method := merge_with "linear" elib; e_tokenizer := Ok tt; e_permute := fun _ _ d => Ok d |}.
Definition x_slice : output_slice string :=
  {| os_sources := [esource "a" (weight 1); esource "b" (weight 3)]; os_base := None; os_params := None |}.
Definition x_cfg : merge_config string :=
  {| mc_modules := None; mc_slices := Some [x_slice]; mc_models := None; mc_base := None; mc_params := None; mc_dtype := None; mc_out_dtype := None |}.
Definition x_saves : list (save_task string) := match plan_to_disk x_world x_cfg x_num with Ok l => l | Err _ => [] end.
Definition x_norm : merge_config string := match normalize_config x_world x_cfg with Ok l => l | Err _ => x_cfg end.
Definition x_mdef : module_def := match dget x_arch "default" with Some d => d | None => {| md_arch := json_module Plan.Props.ex_json; md_prefix := None |} end.

Definition x_result : tensor := {| shp := [1%nat]; dat := [13 / 4] |}.
Lemma x_output s : In s x_saves -> output x_env s = Ok (Some x_result).
Proof.
  intros Hs. vm_compute in Hs. destruct Hs as [<-|[]].
  unfold output, merged_tensor. cbn [sv_task mt_gather mt_permuted mt_dtype].
  match goal with |- context [rmapM ?f ?l] => change (rmapM f l) with (Ok [("a", Some {| shp := [1%nat]; dat := [1] |}); ("b", Some {| shp := [1%nat]; dat := [4] |})] : result (list (string * option tensor))) end.
  cbn [rbind]. unfold present. cbn [flat_map fst snd app]. fold etensors.
  unfold x_env at 1. cbn [e_method]. unfold merge_with. change (get "linear") with (Ok KLinear). cbn [rbind make_task].
  match goal with |- context [bool_field ?d ?k] => change (bool_field d k) with (Ok true) end. cbn [rbind].
  match goal with |- context [numbers ?t ?k ?l] => change (numbers t k l) with (Ok [("a", Q2R 1); ("b", Q2R 3)] : result (dict string R)) end. cbn [rbind].
  unfold some. assert (E1 : Q2R 1 = 1) by (unfold Q2R; cbn; lra). assert (E3 : Q2R 3 = 3) by (unfold Q2R; cbn; lra). rewrite E1, E3.
  match goal with |- context [linear ?e true ?d ?w] => change (linear e true d w) with
    (if Req_EM_T (1 + (3 + 0)) 0 then Err ZeroDivisionError else Ok {| shp := [1%nat]; dat := [(1 * 1 + (3 * 4 + 0)) / (1 + (3 + 0))] |}) end.
  destruct (Req_EM_T (1 + (3 + 0)) 0) as [E|_]; [lra|]. cbn [rbind].
  replace ((1 * 1 + (3 * 4 + 0)) / (1 + (3 + 0))) with (13 / 4) by field. reflexivity.
Qed.

Example C79_end_to_end_nonvacuous :
  plan_to_disk x_world x_cfg x_num = Ok x_saves /\ NoDup (map sv_name x_saves) /\
  told_apart x_env x_saves /\ inputs_consistent x_env x_saves /\ computable x_env false x_saves /\
  normalize_config x_world x_cfg = Ok x_norm /\ dget (w_arch x_world) "default" = Some x_mdef /\
  outputs x_env x_saves = [("layers.0.w", x_result)] /\
  (exists def, In ("default", def) (opt_list (mc_modules x_norm)) /\ om_slices def = Some [x_slice]) /\
  (0 < slice_layers x_slice)%nat /\ NoDup (map is_model (os_sources x_slice)) /\
  (exists w, c_layer x_mdef 0 x_num = Ok [w] /\ wi_name w = "layers.0.w" /\ wi_optional w = false).
Proof.
  split; [vm_compute; reflexivity|]. split; [vm_compute; repeat constructor; cbn; intuition discriminate|].
  split; [intros s Hs; vm_compute in Hs; destruct Hs as [<-|[]]; vm_compute; repeat constructor; cbn; intuition discriminate|].
  split.
  { intros s m w ix _ _ E. change (e_dir x_env m) with (x_files m) in *. injection E as <-. split.
    - intros k file Hk. cbn [ix_paths] in Hk. apply dget_In in Hk. cbn in Hk. destruct Hk as [Hk|[]]. injection Hk as <- <-.
      eexists. split; [reflexivity|now left].
    - intros k file d x Hk Ho Hx. cbn [ix_paths] in *. apply dget_In in Hk. cbn in Hk. destruct Hk as [Hk|[]]. injection Hk as <- <-.
      cbn in Ho. injection Ho as <-. unfold dkeys in Hx. cbn in Hx. destruct Hx as [<-|[]]. reflexivity. }
  split; [split; [intros s Hs; rewrite (x_output s Hs); eauto|discriminate]|].
  split; [vm_compute; reflexivity|]. split; [reflexivity|]. split.
  { unfold outputs. assert (El : exists s, x_saves = [s] /\ sv_name s = "layers.0.w") by (eexists; split; vm_compute; reflexivity).
    destruct El as (s & El & En). pose proof (x_output s) as Ho. rewrite El in *. cbn [flat_map]. rewrite Ho by now left. now rewrite En. }
  split; [eexists; split; [vm_compute; now left|vm_compute; reflexivity]|].
  split; [vm_compute; lia|]. split; [repeat constructor; cbn; intuition discriminate|].
  eexists. split; [vm_compute; reflexivity|]. split; reflexivity.
Qed.

Print Assumptions C79_end_to_end.
Print Assumptions C79_end_to_end_linear.
