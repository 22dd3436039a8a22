(** C12 for the architectures that are shipped: their modules' keys are apart (C87_shipped), so nothing has to be assumed of them. *)
From Verif.Base Require Import Py PyFacts.
From Verif.Config Require Import Model.
From Verif.Arch Require Import Model Data Table Choose.
From Verif.Plan Require Import Model Spec Proofs.
From Verif.Plan Require Props.
From Verif.Recorded Require Import Model Spec Props.
Local Open Scope string_scope.
Local Open Scope list_scope.

(** For every architecture found in the table, AFMoE and GLM-4 included, and every module with a key for its number of layers:
    the output configuration has there the number of layers that are planned, the sum over the module's slices. *)
Theorem C12_shipped_partial {M} {HM : Eqb M} (W : world M) mc a c c' referenced out_cfg name mdef def key sls base v ts cur :
  arch_info_for_config table mc = Ok (Some a) -> w_arch W = modules_of a ->
  validate_config c = Ok tt -> (forall nm d, In (nm, d) (opt_list (mc_modules c)) -> validate_module d = Ok tt) ->
  NoDup (dkeys (opt_list (mc_modules c))) ->
  In (name, mdef) (modules_of a) -> ma_key (md_arch mdef) = Some key -> key <> "" ->
  (mc_base c = Some base \/ (mc_base c = None /\ hd_error referenced = Some base)) ->
  get_config_value (w_cfg W base) key = Ok v ->
  Plan.Props.given_slices c name = Some sls ->
  (forall sl s, In sl sls -> In s (os_sources sl) -> (is_start s <= is_end s)%Z) ->
  model_out_config W c referenced = Ok out_cfg ->
  normalize_config W c = Ok c' -> In (name, def) (opt_list (mc_modules c')) ->
  plan_module W c' out_cfg name def = Ok (ts, cur) ->
  get_config_value out_cfg key = Ok (CVInt cur) /\ cur = Z.of_nat (total_layers sls).
Proof.
  intros Ha HW Hval Hvm Hnd Hin Hkey Hkne. destruct (C87_shipped _ _ Ha) as (Hn & _ & Hk & _). apply in_split in Hin as (before & after & E).
  assert (Hfresh : ~ In name (dkeys before) /\ ~ In name (dkeys after)).
  { rewrite E in Hn. unfold dkeys in Hn. rewrite map_app in Hn. cbn [map fst] in Hn. apply NoDup_remove_2 in Hn. unfold dkeys. split; intros H; apply Hn; apply in_or_app; auto. }
  apply (Plan.Props.C12_layer_count_partial W c c' referenced out_cfg before name mdef after def key sls base v ts cur); auto; [congruence|tauto|].
  intros nm md Hi. apply (Hk name mdef nm md); auto; [rewrite E; apply in_or_app; right; now left| |].
  - rewrite E. apply in_app_or in Hi as [Hi|Hi]; apply in_or_app; [now left|right; now right].
  - intros <-. destruct Hfresh as [H1 H2]. apply in_app_or in Hi as [Hi|Hi]; [apply H1|apply H2]; apply (in_map fst) in Hi; exact Hi.
Qed.

(** * A concrete case: T5, whose decoder is a stack of slices and whose encoder is one model's *)
Definition t5 := {| hc_names := Some ["T5ForConditionalGeneration"]; hc_type := "t5"; hc_fields := CVObj [] |}.
Definition t5_modules : dict string module_def :=
  match arch_info_for_config table t5 with Ok (Some a) => modules_of a | _ => [] end.
Definition t5_world : world nat :=
  {| w_arch := t5_modules; w_cfg := fun _ => CVObj [("num_hidden_layers", CVInt 2); ("num_decoder_layers", CVInt 2)];
     w_tensors := fun _ => []; w_params := []; w_tparams := []; w_tokenizer := false |}.
Definition t5_slices : list (output_slice nat) := [Plan.Props.sl [Plan.Props.src 1 0 2]; Plan.Props.sl [Plan.Props.src 2 1 2]]%nat%Z.
Definition t5_model (m : nat) : output_module nat := {| om_slices := None; om_models := Some [{| im_model := m; im_params := None |}]; om_params := None |}.
Definition t5_cfg : merge_config nat :=
  {| mc_modules := Some [("decoder", {| om_slices := Some t5_slices; om_models := None; om_params := None |}); ("encoder", t5_model 1); ("shared", t5_model 2)];
     mc_slices := None; mc_models := None; mc_base := None; mc_params := None; mc_dtype := None; mc_out_dtype := None |}.
Example C12_shipped_nonvacuous :
  exists a mdef c' out def ts, arch_info_for_config table t5 = Ok (Some a) /\ w_arch t5_world = modules_of a /\
    validate_config t5_cfg = Ok tt /\ (forall nm d, In (nm, d) (opt_list (mc_modules t5_cfg)) -> validate_module d = Ok tt) /\
    NoDup (dkeys (opt_list (mc_modules t5_cfg))) /\
    In ("decoder", mdef) (modules_of a) /\ ma_key (md_arch mdef) = Some "num_decoder_layers" /\
    hd_error (referenced_models t5_cfg) = Some 1%nat /\
    Plan.Props.given_slices t5_cfg "decoder" = Some t5_slices /\
    model_out_config t5_world t5_cfg (referenced_models t5_cfg) = Ok out /\ normalize_config t5_world t5_cfg = Ok c' /\
    In ("decoder", def) (opt_list (mc_modules c')) /\ plan_module t5_world c' out "decoder" def = Ok (ts, 3%Z) /\
    get_config_value out "num_decoder_layers" = Ok (CVInt 3) /\ get_config_value out "num_hidden_layers" = Ok (CVInt 2).
Proof.
  assert (Ha : match arch_info_for_config table t5 with Ok (Some _) => true | _ => false end = true) by (vm_compute; reflexivity).
  destruct (arch_info_for_config table t5) as [[a|]|] eqn:E; try discriminate Ha. clear Ha.
  assert (Hm : w_arch t5_world = modules_of a) by (cbn [w_arch t5_world]; unfold t5_modules; now rewrite E).
  assert (Hk : option_map (fun d => ma_key (md_arch d)) (dget t5_modules "decoder") = Some (Some "num_decoder_layers")) by (vm_compute; reflexivity).
  destruct (dget t5_modules "decoder") as [mdef|] eqn:Ed; [|discriminate Hk]. injection Hk as Hk. apply dget_In in Ed.
  assert (Hp : match model_out_config t5_world t5_cfg (referenced_models t5_cfg), normalize_config t5_world t5_cfg with
               | Ok out, Ok c' => match opt_list (mc_modules c') with
                                  | (nm, def) :: _ => (nm, match plan_module t5_world c' out "decoder" def with Ok (_, n) => Some n | _ => None end,
                                                           get_config_value out "num_decoder_layers", get_config_value out "num_hidden_layers")
                                  | [] => ("", None, Err KeyError, Err KeyError) end
               | _, _ => ("", None, Err KeyError, Err KeyError) end = ("decoder", Some 3%Z, Ok (CVInt 3), Ok (CVInt 2))) by (vm_compute; reflexivity).
  destruct (model_out_config t5_world t5_cfg (referenced_models t5_cfg)) as [out|]; [|discriminate Hp].
  destruct (normalize_config t5_world t5_cfg) as [c'|]; [|discriminate Hp].
  destruct (opt_list (mc_modules c')) as [|[nm def] rest] eqn:Er; [discriminate Hp|].
  destruct (plan_module t5_world c' out "decoder" def) as [[ts n]|] eqn:Epl; [|discriminate Hp].
  assert (Hnm := f_equal (fun x => fst (fst (fst x))) Hp). assert (Hn := f_equal (fun x => snd (fst (fst x))) Hp).
  assert (H1 := f_equal (fun x => snd (fst x)) Hp). assert (H2 := f_equal snd Hp). clear Hp. cbn [fst snd] in Hnm, Hn, H1, H2. injection Hn as ->. subst nm.
  exists a, mdef, c', out, def, ts. split; [reflexivity|]. split; [exact Hm|]. split; [reflexivity|].
  split. { intros nm d [[= <- <-]|[[= <- <-]|[[= <- <-]|[]]]]; reflexivity. }
  split. { repeat constructor; cbn; intuition discriminate. }
  split; [rewrite <- Hm; exact Ed|]. split; [exact Hk|]. split; [reflexivity|]. split; [reflexivity|].
  split; [reflexivity|]. split; [reflexivity|]. split; [rewrite Er; left; reflexivity|]. split; [exact Epl|]. split; [exact H1|exact H2].
Qed.

Print Assumptions C12_shipped_partial.
