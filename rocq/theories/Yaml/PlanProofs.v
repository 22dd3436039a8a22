(** Planning does not depend on the order of the dictionaries. *)
From Coq Require Import QArith Permutation.
From Verif.Base Require Import Py PyFacts.
From Verif.Common Require Import Model.
From Verif.Config Require Import Model.
From Verif.Arch Require Import Model.
From Verif.Yaml Require Import Model Spec Proofs.
From Verif.Plan Require Import Model.
Local Open Scope string_scope.
Local Open Scope list_scope.

Section Planning.
Context {HM : Eqb model_ref}.
Variable W : world model_ref.

Definition cfg_sim (c' c : merge_config model_ref) : Prop :=
  mc_base c' = mc_base c /\ mc_dtype c' = mc_dtype c /\ forall n, param_get (mc_params c') n = param_get (mc_params c) n.
Definition sim (r' r : reader model_ref) : Prop :=
  cfg_sim (r_config r') (r_config r) /\ r_t r' = r_t r /\ r_tensor r' = r_tensor r /\
  r_slice r' = option_map oslice_by_key (r_slice r) /\ r_module r' = option_map omodule_by_key (r_module r).

Lemma param_get_by_key p n : param_get (params_by_key p) n = param_get p n.
Proof. destruct p as [d|]; [|reflexivity]. cbn. apply by_key_dget. Qed.
Lemma try_level_sim (r' r : reader model_ref) s k' k : r_t r' = r_t r -> r_tensor r' = r_tensor r -> k' = k -> try_level r' s k' = try_level r s k.
Proof. intros H1 H2 ->. unfold try_level. now rewrite H1, H2. Qed.
Lemma try_sources_sim (r' r : reader model_ref) n m l k' k : r_t r' = r_t r -> r_tensor r' = r_tensor r -> k' = k ->
  try_sources r' n m (map islice_by_key l) k' = try_sources r n m l k.
Proof.
  intros H1 H2 ->. induction l as [|s l IH]; [reflexivity|]. cbn [map try_sources islice_by_key is_model is_params].
  rewrite param_get_by_key. destruct (eqb (is_model s) m); [|exact IH]. now apply try_level_sim.
Qed.
Lemma parameter_sim r' r n m d q : sim r' r -> parameter r' n m d q = parameter r n m d q.
Proof.
  intros ((_ & _ & Hp) & Ht & Hn & Hs & Hm). unfold parameter. rewrite Hs, Hm, Hp.
  set (kg := try_level r (param_get (mc_params (r_config r)) n) (if q then Err RuntimeError else Ok d)).
  assert (Hg : try_level r' (param_get (mc_params (r_config r)) n) (if q then Err RuntimeError else Ok d) = kg) by now apply try_level_sim.
  rewrite Hg.
  assert (Hmod : match option_map omodule_by_key (r_module r) with Some m => try_level r' (param_get (om_params m) n) kg | None => kg end =
                 match r_module r with Some m => try_level r (param_get (om_params m) n) kg | None => kg end).
  { destruct (r_module r) as [x|]; [|reflexivity]. cbn. rewrite param_get_by_key. now apply try_level_sim. }
  rewrite Hmod. destruct (r_slice r) as [s|]; [|reflexivity]. cbn [option_map oslice_by_key os_params os_sources]. rewrite param_get_by_key.
  destruct m; [apply try_sources_sim|]; auto; now apply try_level_sim.
Qed.
Lemma read_params_sim r' r m f ps : sim r' r -> read_params r' m f ps = read_params r m f ps.
Proof. intros S. unfold read_params. erewrite rmapM_ext'; [reflexivity|]. intros p. cbn beta. now rewrite (parameter_sim r' r _ _ _ _ S). Qed.
Lemma for_tensor_sim r' r n : sim r' r -> sim (for_tensor r' n) (for_tensor r n).
Proof. intros (H1 & H2 & H3 & H4 & H5). repeat split; try apply H1; cbn; auto. Qed.
Lemma with_t_sim r' r t : sim r' r -> sim (with_t r' t) (with_t r t).
Proof. intros (H1 & H2 & H3 & H4 & H5). repeat split; try apply H1; cbn; auto. Qed.
Lemma reader_base_sim r' r : sim r' r -> reader_base r' = reader_base r.
Proof. intros ((H1 & _) & _ & _ & H4 & _). unfold reader_base. rewrite H4, H1. now destruct (r_slice r). Qed.
Lemma plan_tensor_sim w ins ms r' r : sim r' r -> plan_tensor W w ins ms r' = plan_tensor W w ins ms r.
Proof.
  intros S. unfold plan_tensor. rewrite (read_params_sim _ _ None false (w_params W) (for_tensor_sim _ _ (wi_name w) S)), (reader_base_sim _ _ S).
  destruct (if wi_optional w then any_present W (combine ms ins) else Ok true) as [[]|]; [|reflexivity|reflexivity]. cbn [rbind negb].
  destruct (read_params (for_tensor r (wi_name w)) None false (w_params W)); [|reflexivity]. cbn [rbind].
  rewrite (rmapM_ext' _ (fun mw => let '(m, w0) := mw in
    let! d := read_params (for_tensor r (wi_name w0)) (Some m) (match reader_base r with Some b => eqb m b | None => false end) (w_tparams W) in Ok (m, d))).
  2:{ intros [m w0]. cbn beta iota. now rewrite (read_params_sim _ _ (Some m) _ (w_tparams W) (for_tensor_sim _ _ (wi_name w0) S)). }
  destruct S as ((_ & -> & _) & _). reflexivity.
Qed.
Lemma plan_layer_sim out mdef l off t r' r i : sim r' r -> plan_layer W out mdef (map islice_by_key l) off t r' i = plan_layer W out mdef l off t r i.
Proof.
  intros S. unfold plan_layer. rewrite map_map, rmapM_map. cbn [islice_by_key is_start is_model].
  destruct (c_layer mdef i out) as [wo|]; [|reflexivity]. cbn [rbind].
  destruct (rmapM (fun a => c_layer mdef (is_start a + off) (w_cfg W (is_model a))) l) as [wi|]; [|reflexivity]. cbn [rbind].
  erewrite rmapM_ext'; [reflexivity|]. intros [j w]. cbn beta iota. destruct (rmapM (fun ws => nthE ws j) wi); [|reflexivity]. cbn [rbind].
  now rewrite (plan_tensor_sim _ _ _ _ _ (with_t_sim _ _ t S)).
Qed.
Lemma plan_layers_sim out mdef sl r' r num idxs cur : sim r' r ->
  plan_layers W out mdef (oslice_by_key sl) r' num idxs cur = plan_layers W out mdef sl r num idxs cur.
Proof.
  intros S. revert cur. induction idxs as [|i idxs IH]; intros cur; [reflexivity|]. cbn [plan_layers oslice_by_key os_sources].
  rewrite (plan_layer_sim out mdef _ i _ r' r cur S). destruct (plan_layer W out mdef _ i _ r cur); [|reflexivity]. cbn [rbind].
  change {| os_sources := map islice_by_key (os_sources sl); os_base := os_base sl; os_params := params_by_key (os_params sl) |} with (oslice_by_key sl).
  now rewrite IH.
Qed.
Section Config.
Variables c' c : merge_config model_ref.
Hypothesis Hc : cfg_sim c' c.
Lemma plan_slice_sim out mdef def sl cur :
  plan_slice W c' out mdef (omodule_by_key def) (oslice_by_key sl) cur = plan_slice W c out mdef def sl cur.
Proof.
  unfold plan_slice. cbn [oslice_by_key os_sources]. rewrite map_map.
  change (map (fun x => slice_len (islice_by_key x)) (os_sources sl)) with (map slice_len (os_sources sl)).
  destruct (map slice_len (os_sources sl)) as [|n ns]; [reflexivity|]. destruct (forallb (Z.eqb n) ns); [|reflexivity].
  change {| os_sources := map islice_by_key (os_sources sl); os_base := os_base sl; os_params := params_by_key (os_params sl) |} with (oslice_by_key sl).
  apply plan_layers_sim. repeat split; try apply Hc.
Qed.
Lemma plan_slices_sim out mdef def sls cur :
  plan_slices W c' out mdef (omodule_by_key def) (map oslice_by_key sls) cur = plan_slices W c out mdef def sls cur.
Proof.
  revert cur. induction sls as [|sl sls IH]; intros cur; [reflexivity|]. cbn [map plan_slices]. rewrite plan_slice_sim.
  destruct (plan_slice W c out mdef def sl cur); [|reflexivity]. cbn [rbind]. now rewrite IH.
Qed.
Lemma plan_outer_sim def n sl ws : plan_outer W c' (omodule_by_key def) n (oslice_by_key sl) ws = plan_outer W c def n sl ws.
Proof.
  unfold plan_outer. cbn [oslice_by_key os_sources]. rewrite map_map.
  change (map (fun x => is_model (islice_by_key x)) (os_sources sl)) with (map is_model (os_sources sl)).
  change {| os_sources := map islice_by_key (os_sources sl); os_base := os_base sl; os_params := params_by_key (os_params sl) |} with (oslice_by_key sl).
  erewrite rmapM_ext'; [reflexivity|]. intros w. cbn beta. erewrite plan_tensor_sim; [reflexivity|]. repeat split; try apply Hc.
Qed.
Lemma last_map {A B} (f : A -> B) l d : last (map f l) (f d) = f (last l d).
Proof. induction l as [|a l IH]; [reflexivity|]. destruct l; [reflexivity|exact IH]. Qed.
Lemma plan_module_sim out nm def : plan_module W c' out nm (omodule_by_key def) = plan_module W c out nm def.
Proof.
  unfold plan_module. destruct (dgetE (w_arch W) nm) as [mdef|]; [|reflexivity]. cbn [rbind].
  destruct (c_pre mdef out) as [pre|]; [|reflexivity]. cbn [rbind].
  assert (Hs : opt_list (om_slices (omodule_by_key def)) = map oslice_by_key (opt_list (om_slices def))) by (cbn; now destruct (om_slices def)).
  rewrite Hs. rewrite plan_slices_sim. destruct (opt_list (om_slices def)) as [|s sls] eqn:E; [now destruct pre|].
  cbn [map]. cbn [rbind]. rewrite plan_outer_sim. cbn [oslice_by_key os_sources]. rewrite map_length.
  destruct (plan_outer W c def _ s pre); [|reflexivity]. cbn [rbind].
  destruct (plan_slices W c out mdef def (s :: sls) 0); [|reflexivity]. cbn [rbind].
  destruct (c_post mdef out); [|reflexivity]. cbn [rbind].
  change (oslice_by_key s :: map oslice_by_key sls) with (map oslice_by_key (s :: sls)).
  change {| os_sources := map islice_by_key (os_sources s); os_base := os_base s; os_params := params_by_key (os_params s) |} with (oslice_by_key s).
  now rewrite last_map, plan_outer_sim.
Qed.
End Config.

Lemma truthy_map {A B} (f : A -> B) o : truthy (option_map (map f) o) = truthy o.
Proof. now destruct o as [[]|]. Qed.
Lemma truthy_by_key {A B} (f : A -> B) (o : option (dict string A)) : truthy (option_map (fun d => by_key (values f d)) o) = truthy o.
Proof.
  destruct o as [[|[k v] d]|]; [reflexivity| |reflexivity]. cbn [option_map truthy].
  destruct (by_key (values f ((k, v) :: d))) eqn:E; [now apply by_key_nil in E|reflexivity].
Qed.
Definition result_map {A B} (f : A -> B) (r : result A) : result B := match r with Ok a => Ok (f a) | Err e => Err e end.
Lemma rmapM_result {A B C} (f : A -> result B) (g : B -> C) l : rmapM (fun a => result_map g (f a)) l = result_map (map g) (rmapM f l).
Proof. induction l as [|a l IH]; [reflexivity|]. cbn. rewrite IH. destruct (f a); [|reflexivity]. cbn. now destruct (rmapM f l). Qed.
Lemma norm_module_sim b a m : norm_module W b a (omodule_by_key m) = result_map omodule_by_key (norm_module W b a m).
Proof.
  unfold norm_module. destruct m as [sl [[|m0 ms]|] p]; try reflexivity. cbn [omodule_by_key om_models option_map map om_params].
  change (imodel_by_key m0 :: map imodel_by_key ms) with (map imodel_by_key (m0 :: ms)). rewrite rmapM_map.
  set (f := fun im : input_model model_ref => let! n := ma_num a (w_cfg W (im_model im)) in
                    Ok {| is_model := im_model im; is_start := 0; is_end := n; is_params := im_params im |}).
  rewrite (rmapM_ext' _ (fun im => result_map islice_by_key (f im))).
  2:{ intros im. unfold f. cbn [imodel_by_key im_model im_params]. now destruct (ma_num a (w_cfg W (im_model im))). }
  rewrite rmapM_result. fold f. destruct (rmapM f (m0 :: ms)) as [srcs|]; [|reflexivity]. cbn [result_map rbind].
  assert (E : forall b0, existsb (fun im => eqb (im_model im) b0) (map imodel_by_key (m0 :: ms)) = existsb (fun im => eqb (im_model im) b0) (m0 :: ms)).
  { intros b0. induction (m0 :: ms) as [|x l IH]; [reflexivity|]. cbn [map existsb imodel_by_key im_model]. now rewrite IH. }
  destruct b as [b0|]; [rewrite E; destruct (existsb _ (m0 :: ms)); [|destruct (ma_num a (w_cfg W b0)); [|reflexivity]]|];
    cbn [rbind result_map]; unfold omodule_by_key, oslice_by_key; cbn [om_slices om_models om_params option_map map os_sources os_base os_params params_by_key];
    rewrite map_app; reflexivity.
Qed.
Definition module_of_entry (b : option model_ref) (kv : string * output_module model_ref) : result (string * output_module model_ref) :=
  let! md := dgetE (w_arch W) (fst kv) in let! m := norm_module W b (md_arch md) (snd kv) in Ok (fst kv, m).
Lemma module_of_entry_sim b kv : module_of_entry b (fst kv, omodule_by_key (snd kv)) = result_map (fun kv => (fst kv, omodule_by_key (snd kv))) (module_of_entry b kv).
Proof.
  unfold module_of_entry. cbn [fst snd]. destruct (dgetE (w_arch W) (fst kv)); [|reflexivity]. cbn [rbind]. rewrite norm_module_sim.
  now destruct (norm_module W b _ (snd kv)).
Qed.
Lemma modules_sim b ms ms1 : rmapM (module_of_entry b) ms = Ok ms1 -> rmapM (module_of_entry b) (values omodule_by_key ms) = Ok (values omodule_by_key ms1).
Proof.
  intros H. unfold values. rewrite rmapM_map. erewrite rmapM_ext'; [|intros kv; apply module_of_entry_sim]. now rewrite rmapM_result, H.
Qed.
Lemma rmapM_perm {A B} (f : A -> result B) l l' r : Permutation l l' -> rmapM f l = Ok r -> exists r', rmapM f l' = Ok r' /\ Permutation r r'.
Proof.
  intros P. revert r. induction P as [|a l l' P IH|a b l|l1 l2 l3 P1 IH1 P2 IH2]; intros r H.
  - exists r. split; [exact H|reflexivity].
  - cbn in *. ok H. ok H. injection H as <-. destruct (IH _ E0) as (r' & -> & Pr). rewrite E. cbn. eexists. split; [reflexivity|]. now constructor.
  - cbn in *. ok H. ok H. ok E0. ok E0. injection E0 as <-. injection H as <-. rewrite E1, E, E2. cbn. eexists. split; [reflexivity|]. constructor.
  - destruct (IH1 _ H) as (r2 & H2 & Q1). destruct (IH2 _ H2) as (r3 & H3 & Q2). exists r3. split; [exact H3|]. now rewrite Q1.
Qed.

Ltac use_ok H :=
  match type of H with _ = ?r => match goal with |- context [rbind ?x _] => let E := fresh in assert (E : x = r) by exact H; rewrite E; clear E end end.
Lemma normalize_sim c c1 : normalize_config W c = Ok c1 -> exists c1' ms,
  normalize_config W (config_by_key c) = Ok c1' /\ cfg_sim c1' c1 /\ mc_modules c1' = Some ms /\
  Permutation ms (values omodule_by_key (opt_list (mc_modules c1))) /\
  (truthy (mc_modules c) = false -> mc_modules c <> Some [] -> ms = values omodule_by_key (opt_list (mc_modules c1))).
Proof.
  unfold normalize_config. cbn [config_by_key mc_models mc_slices mc_modules mc_base].
  rewrite !truthy_map.
  destruct (truthy (mc_models c)) eqn:Tm; cbn [set_modules mc_slices mc_models mc_modules mc_base config_by_key]; rewrite ?truthy_map.
  - destruct (truthy (mc_slices c)) eqn:Ts.
    + destruct (dkeys (w_arch W)) as [|nm [|]]; try discriminate. cbn [rbind set_modules mc_modules]. intros H. ok H. injection H as <-.
      pose proof (modules_sim (mc_base c) _ _ E) as Hs. unfold values at 1 in Hs. cbn [map fst snd] in Hs.
      unfold omodule_by_key at 1 in Hs. cbn [om_slices om_models om_params option_map params_by_key] in Hs.
      use_ok Hs. cbn [rbind].
      eexists _, _. split; [reflexivity|]. split; [repeat split; cbn; auto; intros n; apply param_get_by_key|]. split; [reflexivity|]. split; [reflexivity|reflexivity].
    + cbn [rbind set_modules mc_modules]. intros H. ok H. injection H as <-.
      pose proof (modules_sim (mc_base c) _ _ E) as Hs. unfold values at 1 in Hs. rewrite map_map in Hs. cbn [fst snd] in Hs.
      unfold omodule_by_key at 1 in Hs. cbn [om_slices om_models om_params option_map params_by_key] in Hs.
      use_ok Hs. cbn [rbind].
      eexists _, _. split; [reflexivity|]. split; [repeat split; cbn; auto; intros n; apply param_get_by_key|]. split; [reflexivity|]. split; [reflexivity|reflexivity].
  - destruct (truthy (mc_slices c)) eqn:Ts.
    + destruct (dkeys (w_arch W)) as [|nm [|]]; try discriminate. cbn [rbind set_modules mc_modules]. intros H. ok H. injection H as <-.
      pose proof (modules_sim (mc_base c) _ _ E) as Hs. unfold values at 1 in Hs. cbn [map fst snd] in Hs.
      unfold omodule_by_key at 1 in Hs. cbn [om_slices om_models om_params option_map params_by_key] in Hs.
      use_ok Hs. cbn [rbind].
      eexists _, _. split; [reflexivity|]. split; [repeat split; cbn; auto; intros n; apply param_get_by_key|]. split; [reflexivity|]. split; [reflexivity|reflexivity].
    + cbn [rbind]. destruct c as [[ms|] sl im b p dt od]; [|discriminate]. cbn [mc_modules mc_base mc_slices mc_models config_by_key option_map set_modules mc_params mc_dtype mc_out_dtype].
      intros H. ok H. injection H as <-. pose proof (modules_sim b _ _ E) as Hs.
      destruct (rmapM_perm _ _ (by_key (values omodule_by_key ms)) _ (Permutation_sym (by_key_perm _)) Hs) as (ms' & Hs' & Pm).
      use_ok Hs'. cbn [rbind].
      eexists _, ms'. split; [reflexivity|]. split; [repeat split; cbn; auto; intros n; apply param_get_by_key|]. split; [reflexivity|]. split; [now symmetry|].
      intros T N. destruct ms; [exfalso; now apply N|discriminate].
Qed.

Lemma plan_by_key c out ts : plan W c out = Ok ts ->
  exists ts', plan W (config_by_key c) out = Ok ts' /\ Permutation ts ts' /\ (mc_modules c = None -> ts' = ts).
Proof.
  unfold plan. intros H. ok H. ok H. injection H as <-. destruct (normalize_sim _ _ E) as (c1' & ms & -> & Hc & Hm & Pm & Em). cbn [rbind]. rewrite Hm. cbn [opt_list].
  set (f := fun kv : string * output_module model_ref => let! p := plan_module W c1' out (fst kv) (snd kv) in Ok (fst p)).
  assert (Hv : rmapM f (values omodule_by_key (opt_list (mc_modules v))) = Ok v0).
  { unfold values. rewrite rmapM_map. rewrite <- E0. apply rmapM_ext'. intros kv. unfold f. cbn [fst snd]. now rewrite (plan_module_sim c1' v Hc). }
  destruct (rmapM_perm f _ ms _ (Permutation_sym Pm) Hv) as (r & Hr & Pr). rewrite Hr. cbn [rbind]. eexists. split; [reflexivity|]. split.
  - clear -Pr. induction Pr; cbn; [constructor|now apply Permutation_app_head| |now etransitivity; eauto].
    rewrite !app_assoc. apply Permutation_app_tail, Permutation_app_comm.
  - intros N. rewrite Em in Hr by (rewrite N; (reflexivity || discriminate)). rewrite Hv in Hr. now injection Hr as ->.
Qed.
Lemma first_len_by_key s : first_len (oslice_by_key s) = first_len s.
Proof. unfold first_len. cbn. now destruct (os_sources s). Qed.
Lemma layers_by_key sls : rmapM first_len (map oslice_by_key sls) = rmapM first_len sls.
Proof. rewrite rmapM_map. apply rmapM_ext', first_len_by_key. Qed.
Lemma opt_list_map {A B} (f : A -> B) o : opt_list (option_map (map f) o) = map f (opt_list o).
Proof. now destruct o. Qed.
Lemma values_dget {A B} (f : A -> B) (d : dict string A) k : dget (values f d) k = option_map f (dget d k).
Proof. induction d as [|[k' v] d IH]; [reflexivity|]. cbn [values map dget fst snd]. destruct (eqb k k'); [reflexivity|exact IH]. Qed.
Lemma module_layers_by_key c nm : module_layers (config_by_key c) nm = module_layers c nm.
Proof.
  unfold module_layers. cbn [config_by_key mc_modules mc_slices]. rewrite truthy_by_key, truthy_map, opt_list_map, layers_by_key.
  assert (E : dget (opt_list (option_map (fun d => by_key (values omodule_by_key d)) (mc_modules c))) nm = option_map omodule_by_key (dget (opt_list (mc_modules c)) nm)).
  { destruct (mc_modules c) as [d|]; [|reflexivity]. cbn [option_map opt_list]. now rewrite by_key_dget, values_dget. }
  rewrite E. destruct (truthy (mc_modules c)); [|reflexivity]. destruct (dget (opt_list (mc_modules c)) nm) as [m|]; [|reflexivity].
  cbn [option_map omodule_by_key om_slices]. now rewrite truthy_map, opt_list_map, layers_by_key.
Qed.
Lemma model_out_by_key c refs : model_out_config W (config_by_key c) refs = model_out_config W c refs.
Proof.
  unfold model_out_config. cbn [config_by_key mc_base].
  erewrite (rmapM_ext' (fun kv => let! n := module_layers (config_by_key c) (fst kv) in Ok (snd kv, n))); [reflexivity|]. intros kv. cbn beta. now rewrite module_layers_by_key.
Qed.
End Planning.
