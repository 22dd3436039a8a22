(** Model of mergekit/plan.py and of [_model_out_config] (merge.py:282-341). *)
From Coq Require Import QArith.
From Verif.Base Require Import Py.
From Verif.Config Require Import Model.
From Verif.Arch Require Import Model.
Local Open Scope string_scope.
Local Open Scope list_scope.

Section Planner.
Context {M : Type} `{Eqb M}.

(** [ConfigParameterDef]: name, required, default *)
Record param_def := { pd_name : string; pd_required : bool; pd_default : pval }.

(** what the planner needs from its environment *)
Record world := {
  w_arch : model_arch;                 (* self.arch_info.modules *)
  w_cfg : M -> cfgval;                 (* ModelReference.config(); loading errors not modelled *)
  w_tensors : M -> list string;        (* LoaderCache().get(model).index.tensor_paths *)
  w_params : list param_def;           (* self._method.parameters() *)
  w_tparams : list param_def;          (* self._method.tensor_parameters() *)
  w_tokenizer : bool }.                (* self._tokenizer_task is set *)

(** The merge task built for an output tensor: [make_task] of the method over [GatherTensors], possibly
    wrapped in [PermutedEmbeddings]. *)
Record merge_task := {
  mt_weight : weight_info;
  mt_gather : dict M weight_info;
  mt_dtype : option string;
  mt_permuted : bool;
  mt_params : dict string pval;
  mt_tparams : dict M (dict string pval);
  mt_base : option M }.

Variable W : world.

(** ** normalize_config (plan.py:90-156) *)
Definition norm_module (base : option M) (a : module_arch) (m : output_module M) : result (output_module M) :=
  match om_models m with
  | Some (m0 :: ms) =>
      let! srcs := rmapM (fun im => let! n := ma_num a (w_cfg W (im_model im)) in
                                    Ok {| is_model := im_model im; is_start := 0; is_end := n;
                                          is_params := im_params im |}) (m0 :: ms) in
      let! extra :=
        match base with
        | Some b => if existsb (fun im => eqb (im_model im) b) (m0 :: ms) then Ok []
                    else let! n := ma_num a (w_cfg W b) in
                         Ok [{| is_model := b; is_start := 0; is_end := n; is_params := None |}]
        | None => Ok []
        end in
      Ok {| om_slices := Some [{| os_sources := srcs ++ extra; os_base := None; os_params := None |}];
            om_models := None; om_params := om_params m |}
  | _ => Ok m
  end.

Definition set_modules (c : merge_config M) (ms : option (dict string (output_module M)))
    (sl : option (list (output_slice M))) (mo : option (list (input_model M))) : merge_config M :=
  {| mc_modules := ms; mc_slices := sl; mc_models := mo; mc_base := mc_base c; mc_params := mc_params c;
     mc_dtype := mc_dtype c; mc_out_dtype := mc_out_dtype c |}.

Definition normalize_config (c : merge_config M) : result (merge_config M) :=
  (* models -> modules.models *)
  let c1 := if truthy (mc_models c)
            then set_modules c (Some (map (fun nm => (nm, {| om_slices := None; om_models := mc_models c; om_params := None |}))
                                          (dkeys (w_arch W))))
                   (mc_slices c) None
            else c in
  (* slices -> modules.slices *)
  let! c2 := if truthy (mc_slices c1) then
               match dkeys (w_arch W) with
               | [nm] => Ok (set_modules c1 (Some [(nm, {| om_slices := mc_slices c1; om_models := None; om_params := None |})])
                               None (mc_models c1))
               | _ => Err RuntimeError
               end
             else Ok c1 in
  (* modules.models -> modules.slices *)
  match mc_modules c2 with
  | None => Err TypeError
  | Some ms =>
      let! ms' := rmapM (fun kv => let! md := dgetE (w_arch W) (fst kv) in
                                   let! m := norm_module (mc_base c) (md_arch md) (snd kv) in
                                   Ok (fst kv, m)) ms in
      Ok (set_modules c2 (Some ms') (mc_slices c2) (mc_models c2))
  end.

(** ** plan_tensor (plan.py:158-236) *)
(** the presence check for optional weights (plan.py:165-175); [[name] + aliases] with a non-empty tuple
    raises TypeError *)
Fixpoint any_present (l : list (M * weight_info)) : result bool :=
  match l with
  | [] => Ok false
  | (m, w) :: rest =>
      match wi_aliases w with
      | Some (_ :: _) => Err TypeError
      | _ => if mem (wi_name w) (w_tensors W m) then Ok true else any_present rest
      end
  end.

(** [{p.name: cfg.parameter(p.name, model=..., required=..., default=...)}] *)
Definition read_params (r : reader M) (m : option M) (force_optional : bool) (ps : list param_def)
  : result (dict string pval) :=
  let! kvs := rmapM (fun p => let! v := parameter r (pd_name p) m (pd_default p) (pd_required p && negb force_optional) in
                              Ok (pd_name p, v)) ps in
  Ok (dict_of kvs).

Definition plan_tensor (weight : weight_info) (weights_in : list weight_info) (models : list M) (r : reader M)
  : result (option merge_task) :=
  let! present := if wi_optional weight then any_present (combine models weights_in) else Ok true in
  if negb present then Ok None
  else
    let! gp := read_params (for_tensor r (wi_name weight)) None false (w_params W) in
    let base := reader_base r in
    let! tp := rmapM (fun mw => let '(m, w) := mw in
                        let! d := read_params (for_tensor r (wi_name w)) (Some m)
                                    (match base with Some b => eqb m b | None => false end) (w_tparams W) in
                        Ok (m, d)) (combine models weights_in) in
    Ok (Some {| mt_weight := weight;
                mt_gather := dict_of (combine models weights_in);
                mt_dtype := mc_dtype (r_config r);
                mt_permuted := w_tokenizer W && wi_embed weight;
                mt_params := gp;
                mt_tparams := dict_of tp;
                mt_base := base |}).

(** [self._tensors.append((weight, task))] unless skipped *)
Definition appended (w : weight_info) (o : option merge_task) : list (weight_info * merge_task) :=
  match o with Some t => [(w, t)] | None => [] end.

(** ** plan_layer (plan.py:238-265); [out_idx] is [self._current_module_layers] *)
Definition enum {A} (l : list A) : list (nat * A) := combine (seq 0 (length l)) l.

Definition plan_layer (out_cfg : cfgval) (mdef : module_def) (sources : list (input_slice M)) (offset : Z) (t : Q)
    (r : reader M) (out_idx : Z) : result (list (weight_info * merge_task)) :=
  let! weights_out := c_layer mdef out_idx out_cfg in
  let! weights_in := rmapM (fun s => c_layer mdef (is_start s + offset) (w_cfg W (is_model s))) sources in
  let! ts := rmapM (fun iw => let '(i, w) := iw in
                     let! ins := rmapM (fun ws => nthE ws i) weights_in in
                     let! o := plan_tensor w ins (map is_model sources) (with_t r t) in
                     Ok (appended w o)) (enum weights_out) in
  Ok (concat ts).

(** ** plan_slice (plan.py:267-298): the plan and the new layer counter *)
Definition slice_len (s : input_slice M) : Z := (is_end s - is_start s)%Z.

Definition depth (num idx : Z) : Q := if (1 <? num)%Z then inject_Z idx / inject_Z (num - 1) else 1.

Fixpoint plan_layers (out_cfg : cfgval) (mdef : module_def) (sl : output_slice M) (r : reader M) (num : Z)
    (idxs : list Z) (cur : Z) : result (list (weight_info * merge_task) * Z) :=
  match idxs with
  | [] => Ok ([], cur)
  | i :: rest =>
      let! a := plan_layer out_cfg mdef (os_sources sl) i (depth num i) r cur in
      let! b := plan_layers out_cfg mdef sl r num rest (cur + 1) in
      Ok (a ++ fst b, snd b)
  end.

Definition plan_slice (c : merge_config M) (out_cfg : cfgval) (mdef : module_def) (def : output_module M)
    (sl : output_slice M) (cur : Z) : result (list (weight_info * merge_task) * Z) :=
  match map slice_len (os_sources sl) with
  | [] => Err IndexError
  | n :: ns =>
      if forallb (Z.eqb n) ns
      then plan_layers out_cfg mdef sl
             {| r_config := c; r_t := 0; r_tensor := None; r_slice := Some sl; r_module := Some def |}
             n (layer_range n) cur
      else Err RuntimeError
  end.

Fixpoint plan_slices (c : merge_config M) (out_cfg : cfgval) (mdef : module_def) (def : output_module M)
    (sls : list (output_slice M)) (cur : Z) : result (list (weight_info * merge_task) * Z) :=
  match sls with
  | [] => Ok ([], cur)
  | sl :: rest =>
      let! a := plan_slice c out_cfg mdef def sl cur in
      let! b := plan_slices c out_cfg mdef def rest (snd a) in
      Ok (fst a ++ fst b, snd b)
  end.

(** pre- and post-weights (plan.py:306-331): [n] copies of the output weight, zipped with the models *)
Definition plan_outer (c : merge_config M) (def : output_module M) (n : nat) (sl : output_slice M)
    (ws : list weight_info) : result (list (weight_info * merge_task)) :=
  let! ts := rmapM (fun w => let! o := plan_tensor w (repeat w n) (map is_model (os_sources sl))
                               {| r_config := c; r_t := 0; r_tensor := Some (wi_name w); r_slice := Some sl;
                                  r_module := Some def |} in
                             Ok (appended w o)) ws in
  Ok (concat ts).

(** ** plan_module (plan.py:300-331) *)
Definition plan_module (c : merge_config M) (out_cfg : cfgval) (name : string) (def : output_module M)
  : result (list (weight_info * merge_task) * Z) :=
  let! mdef := dgetE (w_arch W) name in
  let! pre := c_pre mdef out_cfg in
  let sls := opt_list (om_slices def) in
  (* [definition.slices[0]] is only evaluated inside the loops *)
  let! first := match sls, pre with s :: _, _ => Ok (Some s) | [], [] => Ok None | [], _ => Err IndexError end in
  let! a := match first with Some s => plan_outer c def (length (os_sources s)) s pre | None => Ok [] end in
  let! b := plan_slices c out_cfg mdef def sls 0 in
  let! post := c_post mdef out_cfg in
  let! d := match first, post with
            | Some s, _ => plan_outer c def (length (os_sources s)) (last sls s) post
            | None, [] => Ok []
            | None, _ => Err IndexError
            end in
  Ok (a ++ fst b ++ d, snd b).

(** ** _plan (plan.py:377-382), starting from an empty [_tensors] *)
Definition plan (c0 : merge_config M) (out_cfg : cfgval) : result (list (weight_info * merge_task)) :=
  let! c := normalize_config c0 in
  let! ts := rmapM (fun kv => let! p := plan_module c out_cfg (fst kv) (snd kv) in Ok (fst p)) (opt_list (mc_modules c)) in
  Ok (concat ts).

(** ** plan_to_disk (plan.py:333-363): the save tasks *)
Record save_task := { sv_name : string; sv_task : merge_task; sv_optional : bool; sv_dtype : option string }.
Definition or_else {A} (a b : option A) : option A := match a with Some _ => a | None => b end.
Definition plan_to_disk (c0 : merge_config M) (out_cfg : cfgval) : result (list save_task) :=
  let! ts := plan c0 out_cfg in
  Ok (map (fun wt => {| sv_name := wi_name (fst wt); sv_task := snd wt; sv_optional := wi_optional (fst wt);
                        sv_dtype := or_else (wi_dtype (fst wt)) (mc_out_dtype c0) |}) ts).

(** ** _model_out_config (merge.py:282-341): the layer counts. [referenced] is [referenced_models()], in
    whatever order the set iterates. Setting a dtype does not concern us. *)
Definition first_len (s : output_slice M) : result Z :=
  match os_sources s with x :: _ => Ok (slice_len x) | [] => Err IndexError end.
Definition zsum (l : list Z) : Z := fold_right Z.add 0%Z l.

Definition module_layers (c : merge_config M) (name : string) : result (option Z) :=
  let use sls := let! ls := rmapM first_len sls in Ok (Some (zsum ls)) in
  match (if truthy (mc_modules c) then dget (opt_list (mc_modules c)) name else None) with
  | Some d => if truthy (om_slices d) then use (opt_list (om_slices d)) else Ok None
  | None => if truthy (mc_slices c) then use (opt_list (mc_slices c)) else Ok None
  end.

(** [set_config_value] failures are logged and swallowed (merge.py:333-339) *)
Definition set_layers (cfg : cfgval) (key : option string) (n : Z) : cfgval :=
  match key with
  | Some k => if String.eqb k "" then cfg else
              match set_config_value cfg k (CVInt n) with Ok c => c | Err _ => cfg end
  | None => cfg
  end.

Definition model_out_config (c : merge_config M) (referenced : list M) : result cfgval :=
  let! base := match mc_base c with
               | Some b => Ok b
               | None => match referenced with m :: _ => Ok m | [] => Err IndexError end
               end in
  let! counts := rmapM (fun kv => let! n := module_layers c (fst kv) in Ok (snd kv, n)) (w_arch W) in
  Ok (fold_left (fun cfg dn => match snd dn with
                               | Some n => set_layers cfg (ma_key (md_arch (fst dn))) n
                               | None => cfg end) counts (w_cfg W base)).
End Planner.
Arguments world : clear implicits. Arguments merge_task : clear implicits. Arguments save_task : clear implicits.
