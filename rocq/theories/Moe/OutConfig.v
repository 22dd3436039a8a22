(** Model of the configuration mergekit-moe writes: [_generate_config] of the four architectures (moe/mixtral.py:60-90,
    deepseek.py:71-99, qwen.py:71-95, qwen3.py:54-74), [select_dtype] (common.py:46-57), and their place in [write_model]
    (mixtral.py:103-117, deepseek.py:109-121, qwen.py:105-115, qwen3.py:84-94).

    A configuration object has a class and fields; of two entries with one name the first counts. What is assumed of
    transformers: a class made from keyword arguments keeps each of them and has its own defaults for the others; [to_dict]
    gives the fields, the class's own model type and types of tensors as their names; [save_pretrained] writes that
    dictionary. Not modelled: the warning about powers of two. *)
From Verif.Base Require Import Py PyStr.
From Verif.Arch Require Import Model Data.
From Verif.IO Require Model.
From Verif.Moe Require Import Model Gates Whole.
Local Open Scope string_scope.
Local Open Scope list_scope.

(** values; [JDtype] is a torch.dtype, [JOther] anything else *)
Inductive jv := JInt (z : Z) | JStr (s : string) | JBool (b : bool) | JNull | JStrs (l : list string) | JMap (l : list (string * string))
  | JDtype (s : string) | JOther (k : nat).
Record cls := { cl_type : string; cl_defaults : dict string jv }.
Record conf := { co_cls : cls; co_fields : dict string jv }.
(** [cls( **kw)] *)
Definition make (k : cls) (kw : dict string jv) : conf := {| co_cls := k; co_fields := kw ++ cl_defaults k |}.
Definition serial (v : jv) : jv := match v with JDtype s => JStr s | _ => v end.
Definition to_dict (c : conf) : dict string jv := ("model_type", JStr (cl_type (co_cls c))) :: map (fun kv => (fst kv, serial (snd kv))) (co_fields c).
Definition setf (k : string) (v : jv) (c : conf) : conf := {| co_cls := co_cls c; co_fields := (k, v) :: co_fields c |}.
Definition getf (k : string) (c : conf) : result jv := match dget (co_fields c) k with Some v => Ok v | None => Err AttributeError end.

(** the classes of transformers; [MistralConfig], [MixtralConfig], [Qwen2MoeConfig], [Qwen3MoeConfig] *)
Record classes := { k_mistral : cls; k_mixtral : cls; k_qwen2moe : cls; k_qwen3moe : cls }.

(** [experts_per_token or d] *)
Definition or_default (k d : Z) : Z := if (k =? 0)%Z then d else k.

(** mixtral.py:60-90; a base of another class is first made into a Mistral configuration *)
Definition mixtral_config (K : classes) (base : conf) (n shared k : Z) : result conf :=
  if negb (shared =? 0)%Z then Err NotImplementedError else
  let! base := (if eqb (cl_type (co_cls base)) (cl_type (k_mistral K)) then Ok base
                else let! mp := getf "max_position_embeddings" base in
                     Ok (setf "max_position_embeddings" mp (setf "sliding_window" JNull (make (k_mistral K) (to_dict base))))) in
  Ok (setf "sliding_window" JNull (setf "num_experts_per_tok" (JInt (or_default k 2)) (setf "num_local_experts" (JInt n)
     (setf "architectures" (JStrs ["MixtralForCausalLM"]) (make (k_mixtral K) (to_dict base)))))).

(** deepseek.py:71-99: a plain dictionary *)
Definition auto_map : list (string * string) :=
  [("AutoConfig", "deepseek-ai/deepseek-moe-16b-base--configuration_deepseek.DeepseekConfig");
   ("AutoModel", "deepseek-ai/deepseek-moe-16b-base--modeling_deepseek.DeepseekModel");
   ("AutoModelForCausalLM", "deepseek-ai/deepseek-moe-16b-base--modeling_deepseek.DeepseekForCausalLM")].
Definition deepseek_config (base : conf) (n shared k : Z) : result (dict string jv) :=
  if (1 <? shared)%Z then Err NotImplementedError else
  let res := ("norm_topk_prob", JBool true) :: ("scoring_func", JStr "softmax") :: ("moe_layer_freq", JInt 1) :: ("first_k_dense_replace", JInt 0) ::
             ("num_experts_per_tok", JInt (or_default k (if (shared =? 0)%Z then 2 else 1))) ::
             ("n_shared_experts", if (shared =? 0)%Z then JNull else JInt shared) :: ("n_routed_experts", JInt n) ::
             ("model_type", JStr "deepseek") :: ("architectures", JStrs ["DeepseekForCausalLM"]) :: to_dict base in
  match dget res "intermediate_size" with
  | Some v => Ok (("auto_map", JMap auto_map) :: ("moe_intermediate_size", v) :: res)
  | None => Err KeyError
  end.

(** qwen.py:71-95 *)
Definition qwen_config (K : classes) (base : conf) (n k : Z) : result conf :=
  let out := setf "use_sliding_window" (JBool false) (setf "sliding_window" JNull (setf "norm_topk_prob" (JBool true) (setf "decoder_sparse_step" (JInt 1)
            (setf "num_experts_per_tok" (JInt (or_default k 2)) (setf "num_experts" (JInt n)
            (setf "architectures" (JStrs ["Qwen2MoeForCausalLM"]) (make (k_qwen2moe K) (to_dict base)))))))) in
  let! v := getf "intermediate_size" out in
  Ok (setf "moe_intermediate_size" v (setf "shared_expert_intermediate_size" v out)).

(** qwen3.py:54-74 *)
Definition qwen3_config (K : classes) (base : conf) (n k : Z) : result conf :=
  let out := setf "norm_topk_prob" (JBool true) (setf "decoder_sparse_step" (JInt 1) (setf "num_experts_per_tok" (JInt (or_default k 2))
            (setf "num_experts" (JInt n) (setf "architectures" (JStrs ["Qwen3MoeForCausalLM"]) (make (k_qwen3moe K) (to_dict base)))))) in
  let! v := getf "intermediate_size" out in
  Ok (setf "moe_intermediate_size" v out).

(** [dtype_from_name] (mergekit/common.py:228-244) *)
Definition dtype_from_name (name : string) : result (option string) :=
  if eqb name "" then Ok None else
  let name := if String.prefix "torch." name then String.substring 6 (String.length name - 6) name else name in
  if mem name ["bfloat16"; "float16"; "float32"; "int64"] then Ok (Some name) else Err RuntimeError.
(** [select_dtype] (moe/common.py:46-57) *)
Definition select_dtype (dtype : option string) (base : conf) : result (option string) :=
  let! out := match dtype with Some s => dtype_from_name s | None => Ok None end in
  match out with
  | Some s => Ok (Some s)
  | None => match dget (co_fields base) "torch_dtype" with
            | Some (JDtype s) => Ok (Some s)
            | Some (JStr s) => dtype_from_name s
            | _ => Ok None
            end
  end.

(** the dictionary written as config.json, and the type the tensors are cast to *)
Definition out_config {F} (K : classes) (a : arch) (base : conf) (dtype : option string) (c : moe_config F) : result (dict string jv * option string) :=
  let n := Z.of_nat (length (c_experts F c)) in
  let shared := Z.of_nat (length (c_shared F c)) in
  let! dt := select_dtype dtype base in
  let set_if (o : conf) := match dt with Some s => setf "torch_dtype" (JDtype s) o | None => o end in
  match a with
  | Mixtral => let! o := mixtral_config K base n shared (c_per_token F c) in
               Ok (to_dict (setf "torch_dtype" (match dt with Some s => JDtype s | None => JNull end) o), dt)
  | DeepSeek => let! o := deepseek_config base n shared (c_per_token F c) in
                Ok (match dt with Some s => ("torch_dtype", JStr s) :: o | None => o end, dt)
  | Qwen => let! o := qwen_config K base n (c_per_token F c) in Ok (to_dict (set_if o), dt)
  | Qwen3 => let! o := qwen3_config K base n (c_per_token F c) in Ok (to_dict (set_if o), dt)
  end.

(** a run with its configuration: [o dt] are the operations on tensors that cast to [dt] *)
Definition configured_run {T F} (o : option string -> ops T F) (of_rows : list vec -> T) (dirs : string -> IO.Model.fs T) (cfg : cfgval) (d : dims)
    (dense : json_arch) (draw : nat -> nat -> nat -> Rdefinitions.R) (model_type : string -> string) (available : list arch)
    (m : llm) (tk : tokenizer) (K : classes) (base : conf) (dtype : option string) (c : moe_config F) (allow_all_same : bool)
    : result (outcome (arch * dict string jv * list (string * T))) :=
  let! r := build F draw model_type available m tk c allow_all_same in
  match r with
  | Exit => Ok Exit
  | Go (a, routers, shared) =>
      let! (k, dt) := out_config K a base dtype c in
      let! _ := open_all dirs (c_base F c) (c_experts F c) in
      let! saves := write_model (o dt) dirs cfg d dense a c (map of_rows routers) (map of_rows shared) in
      Ok (Go (a, k, saves))
  end.
