(** Model of how a merge gets its architecture definition: the table of shipped definitions (architecture/json_definitions.py),
    the definitions made for mixture-of-experts models (architecture/moe_defs.py) and the choice between them
    (architecture/__init__.py). Equality of definitions is structural; Python compares the modules without their order.
    Logging is not modelled. *)
From Verif.Base Require Import Py.
From Verif.Arch Require Import Model Data.
Local Open Scope string_scope.
Local Open Scope list_scope.

(** [JsonModuleArchDef] (json_definitions.py:27-34) *)
Record json_def := { jd_type : string; jd_names : list string; jd_arch : json_arch }.
(** the three kinds of [ModuleArchitecture] that a definition is made of *)
Inductive module_info := MJson (d : json_def) | MAfmoe (experts : Z) | MGlm4 (experts : Z).
(** [ModuleDefinition] (base.py:121-124) *)
Record module_entry := { me_info : module_info; me_prefix : option string; me_subfolder : option string }.
(** [ModelArchitecture] (base.py:127-132) *)
Record architecture := {
  ar_modules : dict string module_entry; ar_names : list string; ar_type : string;
  ar_tagalong : option (list string); ar_vocab : option string }.

(** [==] on definitions *)
Definition weight_info_dec (x y : weight_info) : {x = y} + {x <> y}.
Proof. decide equality; repeat first [apply bool_dec|apply string_dec|decide equality]. Defined.
Definition json_arch_dec (x y : json_arch) : {x = y} + {x <> y}.
Proof. decide equality; repeat first [apply weight_info_dec|apply string_dec|apply Z.eq_dec|decide equality]. Defined.
Definition module_info_dec (x y : module_info) : {x = y} + {x <> y}.
Proof. decide equality; try apply Z.eq_dec. decide equality; repeat first [apply json_arch_dec|apply string_dec|decide equality]. Defined.
Definition module_entry_dec (x y : module_entry) : {x = y} + {x <> y}.
Proof. decide equality; repeat first [apply module_info_dec|apply string_dec|decide equality]. Defined.
Definition architecture_dec (x y : architecture) : {x = y} + {x <> y}.
Proof. decide equality; repeat first [apply module_entry_dec|apply string_dec|decide equality]. Defined.
Definition same_arch (x y : architecture) : bool := if architecture_dec x y then true else false.

(** ** Mixture-of-experts modules (moe_defs.py) *)
(** [ModuleArchitecture.num_layers] (base.py:72-74) *)
Definition base_num (key : option string) (c : cfgval) : result Z :=
  match key with
  | None => Err AttributeError
  | Some k => let! v := get_config_value c k in match v with CVInt z => Ok z | _ => Err TypeError end
  end.
(** [WeightInfo(name=..., optional=...)] *)
Definition plain_weight (name : string) (optional : bool) : weight_info :=
  {| wi_name := name; wi_embed := false; wi_optional := optional; wi_aliases := None; wi_dtype := None; wi_tied := None |}.
(** [f"model.layers.{index}"] (43, 82) *)
Definition layer_prefix (i : Z) : string := ("model.layers." ++ str_of_Z i)%string.

(** AFMOE_PARTIAL_MODULE_ARCH (15-16); that the table leads to it is part of C78 *)
Definition afmoe_partial : json_arch := a_afmoe_partial_default.
Definition expert_params : list string := ["up_proj"; "gate_proj"; "down_proj"].
Definition expert_name (i e : Z) (param : string) : string :=
  (layer_prefix i ++ ".mlp.experts." ++ str_of_Z e ++ "." ++ param ++ ".weight")%string.
(** AfmoeModuleArchitecture (19-52) *)
Definition afmoe_module (experts : Z) : module_arch :=
  {| ma_pre := ma_pre (json_module afmoe_partial);
     ma_post := ma_post (json_module afmoe_partial);
     ma_layer := fun i c =>
       let! ws := ma_layer (json_module afmoe_partial) i c in
       Ok (ws ++ flat_map (fun e => map (fun p => plain_weight (expert_name i e p) true) expert_params) (layer_range experts));
     ma_key := ja_key afmoe_partial;
     ma_num := base_num (ja_key afmoe_partial) |}.

(** GLM4_MODULE_ARCH (55-56) *)
Definition glm4_moe : json_arch := a_glm4moe_default.
Definition glm4_tensors : list string :=
  [".mlp.experts.gate_up_proj"; ".mlp.experts.down_proj"; ".mlp.gate.weight"; ".mlp.gate.e_score_correction_bias"].
Definition glm4_shared : list string :=
  [".mlp.shared_experts.gate_proj.weight"; ".mlp.shared_experts.up_proj.weight"; ".mlp.shared_experts.down_proj.weight"].
(** Glm4MoeModuleArchitecture (59-107) *)
Definition glm4_module (experts : Z) : module_arch :=
  {| ma_pre := ma_pre (json_module glm4_moe);
     ma_post := ma_post (json_module glm4_moe);
     ma_layer := fun i c =>
       match attr c "first_k_dense_replace" with
       | None => Err AttributeError
       | Some (CVInt k) =>
           if (i <? k)%Z then ma_layer (json_module glm4_moe) i c
           else
             let! ws := ma_layer (json_module glm4_moe) i c in
             Ok (map (fun s => plain_weight (layer_prefix i ++ s)%string false) glm4_tensors
                 ++ map (fun s => plain_weight (layer_prefix i ++ s)%string false) glm4_shared
                 ++ filter (fun w => negb (infix ".mlp." (wi_name w))) ws)
       | Some _ => Err TypeError
       end;
     ma_key := ja_key glm4_moe;
     ma_num := base_num (ja_key glm4_moe) |}.

Definition module_of (m : module_info) : module_arch :=
  match m with MJson d => json_module (jd_arch d) | MAfmoe n => afmoe_module n | MGlm4 n => glm4_module n end.

(** [ModelArchitecture.all_weights] (base.py:134-139) *)
Definition model_weights (a : architecture) (c : cfgval) : result (list weight_info) :=
  let! ws := rmapM (fun m => let! l := all_weights (module_of (me_info (snd m))) c in
                             Ok (map (prefix_weight (me_prefix (snd m))) l)) (ar_modules a) in
  Ok (concat ws).

(** ** The table *)
(** _load_all_architectures (json_definitions.py:171-186), of the definitions in the order of the directory *)
Definition name_to_arch (t : list architecture) : dict string (list architecture) :=
  fold_left (fun d a =>
    fold_left (fun d n => dset d n (match dget d n with Some l => l | None => [] end ++ [a])) (ar_names a) d) t [].

(** ** The choice (architecture/__init__.py) *)
(** [PretrainedConfig]: [architectures] may be [None] *)
Record model_config := { hc_names : option (list string); hc_type : string; hc_fields : cfgval }.

(** [from_config] (moe_defs.py:26-28, 66-68): an attribute that must be a number. Booleans and numeric strings, which pydantic
    turns into numbers, are outside the model. *)
Definition experts_of (c : model_config) (key : string) : result Z :=
  match attr (hc_fields c) key with
  | None => Err AttributeError
  | Some (CVInt n) => Ok n
  | Some _ => Err ValidationError
  end.
Definition single_module (m : module_info) (name type : string) : architecture :=
  {| ar_modules := [("default", {| me_info := m; me_prefix := None; me_subfolder := None |})];
     ar_names := [name]; ar_type := type; ar_tagalong := None; ar_vocab := None |}.

(** arch_info_for_config (33-67) *)
Definition arch_info_for_config (t : list architecture) (c : model_config) : result (option architecture) :=
  match hc_names c with
  | None => Err TypeError                                  (* [len(None)] *)
  | Some [name] =>
      if eqb name "AfmoeForCausalLM" then
        let! n := experts_of c "num_experts" in Ok (Some (single_module (MAfmoe n) name "afmoe"))
      else if eqb name "Glm4MoeForCausalLM" then
        let! n := experts_of c "n_routed_experts" in Ok (Some (single_module (MGlm4 n) name "glm4_moe"))
      else match dget (name_to_arch t) name with
           | None => Ok None
           | Some [a] => Ok (Some a)
           | Some l => Ok (find (fun a => eqb (ar_type a) (hc_type c)) l)
           end
  | Some _ => Err RuntimeError
  end.

(** get_architecture_info (70-91), of the configurations of the referenced models in the order of the set they are kept in *)
Inductive choice := Declared (a : architecture) | Inferred.
Fixpoint declared (l : list (option architecture)) : option (list architecture) :=
  match l with
  | [] => Some []
  | None :: _ => None
  | Some a :: l => match declared l with Some r => Some (a :: r) | None => None end
  end.
Definition get_architecture_info (t : list architecture) (models : list model_config) (allow_crimes : bool) : result choice :=
  match models with
  | [] => Err ValueError
  | _ =>
      let! infos := rmapM (arch_info_for_config t) models in
      match declared infos with
      | Some (a0 :: l) =>
          if negb allow_crimes && existsb (fun a => negb (same_arch a a0)) (a0 :: l) then Err RuntimeError else Ok (Declared a0)
      | _ => Ok Inferred
      end
  end.
