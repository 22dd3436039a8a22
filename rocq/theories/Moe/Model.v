(** Model of mergekit/moe (common.py, mixtral.py, qwen.py, qwen3.py, deepseek.py, config.py), of the gate slicing in
    scripts/moe.py, and of mergekit/architecture/conversion.py.

    Simplifications: a tensor is an abstract value with the operations the writers apply; a loader is the finite map
    of tensors it can return (C20 shows that this is what LazyTensorLoader is); the output is the list of
    [save_tensor] calls in order (C15 shows what ends up on disk); the random noise of [torch.randn_like] is an
    arbitrary function of the tensor being written; the JSON/transformers configuration that is written beside the
    weights is not modelled. The conversion registry of transformers is a parameter of the converter; the entries
    the writers use are transcribed in [mixtral_registry] and [qwen3_registry]. *)
From Verif.Base Require Import Py PyStr.
From Verif.Arch Require Import Model Data.
Local Open Scope string_scope.
Local Open Scope list_scope.

(** ** Strings *)
Fixpoint drop (n : nat) (s : string) : string :=
  match n, s with O, _ => s | S n, String _ s => drop n s | S _, "" => "" end.

(** [s.replace(old, new)] for non-empty [old]; [fuel] is the length of [s] *)
Fixpoint replace_fuel (fuel : nat) (old new s : string) : string :=
  match fuel with
  | O => s
  | S f => if String.prefix old s then (new ++ replace_fuel f old new (drop (String.length old) s))%string
           else match s with "" => "" | String c s => String c (replace_fuel f old new s) end
  end.
Definition replace (old new s : string) : string := replace_fuel (String.length s) old new s.

(** [s.endswith(x)] *)
Fixpoint ends_with (x s : string) : bool :=
  String.eqb x s || match s with "" => false | String _ s => ends_with x s end.

(** [s.partition(sep)] when [sep in s] *)
Fixpoint partition (sep s : string) : string * string :=
  if String.prefix sep s then ("", drop (String.length sep) s)
  else match s with "" => ("", "") | String c s => let (a, b) := partition sep s in (String c a, b) end.

(** ** conversion.py *)

(** [_natural_sort_key] (conversion.py:31-34). [re.split] with a capturing group alternates text and digits and
    always ends with text; the key is the list of (text, number after it), the last one without a number.
    [scan d s] splits [s] where [d] is the run of digits read so far, if any. *)
Fixpoint natural_key_from (text : string) (num : option Z) (s : string) : list (string * option Z) :=
  match s with
  | "" => match num with None => [(text, None)] | Some z => [(text, Some z); ("", None)] end
  | String c s =>
      if is_digit c
      then natural_key_from text (Some (match num with None => 0 | Some z => z end * 10 + (Z.of_nat (nat_of_ascii c) - 48))%Z) s
      else match num with
           | None => natural_key_from (text ++ String c "")%string None s
           | Some z => (text, Some z) :: natural_key_from (String c "") None s
           end
  end.
Definition natural_key (s : string) : list (string * option Z) := natural_key_from "" None s.

(** comparison of the keys as Python tuples *)
Fixpoint key_le (a b : list (string * option Z)) : bool :=
  match a, b with
  | [], _ => true
  | _ :: _, [] => false
  | (s, n) :: a, (t, m) :: b =>
      match String.compare s t with
      | Lt => true | Gt => false
      | Eq => match n, m with
              | None, _ => true
              | Some _, None => false
              | Some n, Some m => if Z.eqb n m then key_le a b else Z.leb n m
              end
      end
  end.
Definition name_le (x y : string) : bool := key_le (natural_key x) (natural_key y).

(** [sorted(.., key=_natural_sort_key)], a stable sort *)
Fixpoint insert_name (x : string) (l : list string) : list string :=
  match l with [] => [x] | y :: l => if name_le x y then x :: y :: l else y :: insert_name x l end.
Definition sort_names (l : list string) : list string := fold_right insert_name [] l.

(** [_expanded_target_keys] (conversion.py:50-57) *)
Definition expanded_target_keys (renamed : string) (targets : list string) : list string :=
  match targets with
  | [] => [renamed]
  | t0 :: _ => if infix t0 renamed
               then let (p, s) := partition t0 renamed in map (fun t => p ++ t ++ s)%string targets
               else [renamed]
  end.

Section Moe.
Context {T F : Type}.

(** A transform of the registry: a renaming, or a converter that renames a source key (returning the matched source
    pattern) and turns the tensors collected for one layer, in the order they were added, into named results. *)
Inductive transform :=
| Renaming (f : string -> option string)
| Converter (rename : string -> option (string * string)) (targets : list string)
            (run : string -> list (string * T) -> dict string T).

(** dict.update *)
Definition dupdate (d e : dict string T) : dict string T := fold_left (fun d p => dset d (fst p) (snd p)) e d.

(** the tensors a converter is given: (renamed key, (source pattern, tensor)) in order (conversion.py:37-47, 99-109) *)
Definition collected (rename : string -> option (string * string)) (targets : list string) (available : dict string T)
    (target : string) : list (string * (string * T)) :=
  flat_map (fun k => match rename k, dget available k with
                     | Some (r, p), Some t => if mem target (expanded_target_keys r targets) then [(r, (p, t))] else []
                     | _, _ => []
                     end) (sort_names (dkeys available)).

(** the loop over [conversion_layers] (conversion.py:116-120). The set's iteration order is taken to be insertion
    order. *)
Fixpoint run_layers (run : string -> list (string * T) -> dict string T) (added : list (string * (string * T)))
    (layers : list string) (available : dict string T) (target : string) : T + dict string T :=
  match layers with
  | [] => inr available
  | l :: layers =>
      let converted := run l (map snd (filter (fun x => String.eqb (fst x) l) added)) in
      match dget converted target with
      | Some t => inl t
      | None => run_layers run added layers (dupdate available converted) target
      end
  end.

(** [convert_checkpoint_tensors] (conversion.py:74-125) with the mapping already looked up *)
Fixpoint convert_checkpoint_tensors (ts : list transform) (available : dict string T) (target : string) : option T :=
  match ts with
  | [] => dget available target
  | Renaming f :: ts =>
      let additions := flat_map (fun k => match f k, dget available k with Some k', Some t => [(k', t)] | _, _ => [] end)
                                (sort_names (dkeys available)) in
      convert_checkpoint_tensors ts (dupdate available additions) target
  | Converter rename targets run :: ts =>
      let added := collected rename targets available target in
      match run_layers run added (dedup (map fst added)) available target with
      | inl t => Some t
      | inr available => convert_checkpoint_tensors ts available target
      end
  end.

(** ** Tensors, experts, loaders *)
Record ops := {
  o_scale : F -> T -> T;                (* tensor * residual_scale *)
  o_noise : string -> F -> T -> T;      (* tensor + randn_like(tensor) * noise_scale, for the tensor being written *)
  o_cast : T -> T;                      (* .to(dtype=out_dtype).contiguous() *)
  o_zeros : Z -> T;                     (* torch.zeros *)
  o_stack : list T -> T;                (* MergeModulelist(dim=0) *)
  o_concat : list T -> T }.             (* Concatenate(dim=1) *)

(** [Expert] (config.py:12-22); [Optional] prompt lists only matter up to truth, so [None] is the empty list *)
Record expert := {
  ex_model : string; ex_positive : list string; ex_negative : list string;
  ex_noise : option F; ex_residual : option F }.

(** [noise_and_scale] (common.py:60-68) *)
Definition noise_and_scale (o : ops) (tag : string) (t : T) (e : expert) (is_residual : bool) : T :=
  let t := match ex_noise e with Some s => o_noise o tag s t | None => t end in
  match ex_residual e with Some s => if is_residual then o_scale o s t else t | None => t end.

Definition tensors := dict string T.

(** [loader.get_tensor(name, aliases)] *)
Fixpoint get_any (d : tensors) (names : list string) : result T :=
  match names with
  | [] => Err KeyError
  | n :: names => match dget d n with Some t => Ok t | None => get_any d names end
  end.
(** a method call on the result of [loaders.get(..)], which may be None *)
Definition use_loader (l : option tensors) (names : list string) : result T :=
  match l with None => Err AttributeError | Some d => get_any d names end.

(** [initialize_io] (common.py:19-43): loaders for the base model and the experts *)
Definition initialize_loaders (disk : string -> tensors) (base : string) (experts : list expert) : dict string tensors :=
  dict_of (map (fun m => (m, disk m)) (base :: map ex_model experts)).

(** the list of aliases of [copy_tensor_out] (common.py:82-84). [aliases] is the tuple itself when it is not empty,
    and [tuple += list] raises. *)
Definition copy_aliases (w : weight_info) : result (list string) :=
  match wi_aliases w with
  | Some (a :: al) =>
      if wi_optional w then Ok (a :: al)
      else match wi_tied w with
           | Some (t :: ts) => Ok ((a :: al) ++ t :: ts)
           | _ => Err TypeError
           end
  | _ => if wi_optional w then Ok [] else Ok (match wi_tied w with Some l => l | None => [] end)
  end.

(** [copy_tensor_out] (common.py:71-104); the result is the list of saves (none or one) *)
Definition copy_tensor_out (o : ops) (w : weight_info) (loader : option tensors) (e : option expert) (is_residual : bool)
    (out_name : string) : result (list (string * T)) :=
  let! al := copy_aliases w in
  match use_loader loader (wi_name w :: al) with
  | Ok t => Ok [(out_name, o_cast o (match e with Some e => noise_and_scale o out_name t e is_residual | None => t end))]
  | Err KeyError => if wi_optional w then Ok [] else Err KeyError
  | Err x => Err x
  end.

(** [enumerate] *)
Definition enumerate {A} (l : list A) : list (Z * A) := combine (map Z.of_nat (seq 0 (List.length l))) l.

(** ** The fused writers: mixtral.py:94-188 and qwen3.py:77-164 *)

(** The registry entries ("mixtral", "qwen3_moe" in transformers.conversion_mapping): keys
    [<pre>.experts.<x>.<param>.weight] with [param] among the patterns become [<pre>.experts.<target>]; tensors are
    collected per pattern; the results per pattern are stacked, and concatenated when there are several patterns. *)
Fixpoint join_dots (l : list string) : string :=
  match l with [] => "" | [x] => x | x :: l => (x ++ "." ++ join_dots l)%string end.
Definition expert_rename (patterns : list string) (target : string) (k : string) : option (string * string) :=
  match rev (split_on "."%char k) with
  | w :: p :: _ :: ex :: pre =>
      if String.eqb w "weight" && String.eqb ex "experts" && mem p patterns
      then Some (join_dots (rev pre ++ ["experts"; target]), p) else None
  | _ => None
  end.
Definition expert_run (o : ops) (patterns : list string) (layer : string) (l : list (string * T)) : dict string T :=
  let stacked := map (fun p => o_stack o (map snd (filter (fun x => String.eqb (fst x) p) l))) patterns in
  match stacked with
  | [t] => [(layer, t)]
  | _ => [(layer, o_concat o stacked)]
  end.
Definition expert_converter (o : ops) (patterns : list string) (target : string) : transform :=
  Converter (expert_rename patterns target) [(".experts." ++ target)%string] (expert_run o patterns).
Definition mixtral_registry (o : ops) : list transform :=
  [expert_converter o ["w1"; "w3"] "gate_up_proj"; expert_converter o ["w2"] "down_proj"].
Definition qwen3_registry (o : ops) : list transform :=
  [expert_converter o ["gate_proj"; "up_proj"] "gate_up_proj"; expert_converter o ["down_proj"] "down_proj"].

Definition layer_prefix (i : Z) : string := ("model.layers." ++ str_of_Z i ++ ".mlp")%string.
(** f"model.layers.{i}.mlp.{param}.weight" *)
Definition mlp_source (i : Z) (param : string) : string := (layer_prefix i ++ "." ++ param ++ ".weight")%string.
(** f"{layer_prefix}.experts.{k}.{param}.weight" *)
Definition expert_name (i k : Z) (param : string) : string :=
  (layer_prefix i ++ ".experts." ++ str_of_Z k ++ "." ++ param ++ ".weight")%string.
Definition router_name (i : Z) : string := (layer_prefix i ++ ".gate.weight")%string.

(** [convert_and_save_checkpoint_tensors] (common.py:107-124) *)
Definition convert_and_save (o : ops) (ts : list transform) (src : dict string T) (target : string)
  : result (list (string * T)) :=
  match convert_checkpoint_tensors ts src target with
  | Some t => Ok [(target, o_cast o t)]
  | None => Err RuntimeError
  end.

(** one layer of experts (mixtral.py:133-180, qwen3.py:118-154). [params] pairs the source parameter with the name
    it has in the checkpoint layout; the dictionaries are filled in that order. *)
Definition expert_tensors (o : ops) (loaders : dict string tensors) (params : list (string * string)) (i : Z)
    (experts : list expert) : result (list (string * (string * T))) :=
  let! per := rmapM (fun ke =>
    rmapM (fun sp =>
      let! t := use_loader (dget loaders (ex_model (snd ke))) [mlp_source i (fst sp)] in
      let name := expert_name i (fst ke) (snd sp) in
      Ok (fst sp, (name, noise_and_scale o name t (snd ke) (String.eqb (fst sp) "down_proj")))) params)
    (enumerate experts) in
  Ok (concat per).
Definition write_layer (o : ops) (ts : list transform) (loaders : dict string tensors) (params : list (string * string))
    (experts : list expert) (i : Z) : result (list (string * T)) :=
  let! all := expert_tensors o loaders params i experts in
  let down := dict_of (map snd (filter (fun x => String.eqb (fst x) "down_proj") all)) in
  let gate_up := dict_of (map snd (filter (fun x => negb (String.eqb (fst x) "down_proj")) all)) in
  let! a := convert_and_save o ts gate_up (layer_prefix i ++ ".experts.gate_up_proj")%string in
  let! b := convert_and_save o ts down (layer_prefix i ++ ".experts.down_proj")%string in
  Ok (a ++ b).

Definition save_routers (o : ops) (name : Z -> string) (ws : list T) : list (string * T) :=
  map (fun iw => (name (fst iw), o_cast o (snd iw))) (enumerate ws).

Definition mixtral_params : list (string * string) := [("gate_proj", "w1"); ("down_proj", "w2"); ("up_proj", "w3")].
Definition mixtral_write (o : ops) (disk : string -> tensors) (c : cfgval) (base : string) (experts : list expert)
    (routers : list T) : result (list (string * T)) :=
  let! n := ja_num a_mistral_default c in
  if negb (Z.eqb (Z.of_nat (List.length routers)) n) then Err AssertionError else
  let loaders := initialize_loaders disk base experts in
  let! ws := all_weights (json_module a_mistral_default) c in
  let! kept := rmapM (fun w => if infix ".mlp." (wi_name w) then Ok []
                               else copy_tensor_out o w (dget loaders base) None false (wi_name w)) ws in
  let! fused := rmapM (write_layer o (mixtral_registry o) loaders mixtral_params experts) (layer_range n) in
  Ok (concat kept ++ concat fused ++ save_routers o router_name routers).

Definition qwen3_params : list (string * string) :=
  [("gate_proj", "gate_proj"); ("up_proj", "up_proj"); ("down_proj", "down_proj")].
Definition qwen3_write (o : ops) (disk : string -> tensors) (c : cfgval) (base : string) (experts : list expert)
    (routers : list T) : result (list (string * T)) :=
  let! n := ja_num a_qwen3_default c in
  let loaders := initialize_loaders disk base experts in
  let! ws := all_weights (json_module a_qwen3_default) c in
  let! kept := rmapM (fun w =>
    if infix ".mlp." (wi_name w) then Ok []
    else match use_loader (dget loaders base) (wi_name w :: match wi_aliases w with Some l => l | None => [] end) with
         | Ok t => Ok [(wi_name w, o_cast o t)]
         | Err KeyError => if wi_optional w then Ok [] else Err KeyError
         | Err e => Err e
         end) ws in
  let! fused := rmapM (write_layer o (qwen3_registry o) loaders qwen3_params experts) (layer_range n) in
  Ok (concat kept ++ concat fused ++ save_routers o router_name routers).

(** ** The per-expert writers: deepseek.py:98-181 and qwen.py:96-194 *)

(** the experts of one MLP weight (deepseek.py:135-165, qwen.py:127-155) *)
Definition copy_experts (o : ops) (loaders : dict string tensors) (experts : list expert) (shared : option expert)
    (shared_infix : string) (w : weight_info) : result (list (string * T)) :=
  let residual := infix "down_proj" (wi_name w) in
  let! per := rmapM (fun ke =>
    copy_tensor_out o w (dget loaders (ex_model (snd ke))) (Some (snd ke)) residual
      (replace ".mlp." (".mlp.experts." ++ str_of_Z (fst ke) ++ ".")%string (wi_name w))) (enumerate experts) in
  let! sh := match shared with
             | None => Ok []
             | Some s => copy_tensor_out o w (dget loaders (ex_model s)) (Some s) residual
                           (replace ".mlp." shared_infix (wi_name w))
             end in
  Ok (concat per ++ sh).

(** deepseek.py. [arch] is [arch_info_for_config(base_cfg)], the definition of the base model's architecture. *)
Definition deepseek_write (o : ops) (disk : string -> tensors) (arch : json_arch) (c : cfgval) (base : string)
    (experts : list expert) (shared : option expert) (routers : list T) : result (list (string * T)) :=
  let loaders := initialize_loaders disk base experts in
  let! ws := all_weights (json_module arch) c in
  let! out := rmapM (fun w =>
    if infix ".mlp." (wi_name w) then copy_experts o loaders experts shared ".mlp.shared_experts." w
    else copy_tensor_out o w (dget loaders base) None false (wi_name w)) ws in
  Ok (concat out ++ save_routers o router_name routers).

(** the attention sizes of the output configuration (qwen.py:165-176) *)
Record dims := { hidden_size : Z; num_heads : Z; num_kv_heads : Z }.
Definition bias_zeros (o : ops) (d : dims) (name : string) : result T :=
  if Z.eqb (num_heads d) 0 then Err ZeroDivisionError else
  let head_dim := (hidden_size d / num_heads d)%Z in
  Ok (o_zeros o ((if ends_with "k_proj.bias" name || ends_with "v_proj.bias" name then num_kv_heads d else num_heads d) * head_dim)%Z).

Definition shared_gate_name (i : Z) : string := (layer_prefix i ++ ".shared_expert_gate.weight")%string.
(** qwen.py; the shared expert is compulsory *)
Definition qwen_write (o : ops) (disk : string -> tensors) (c : cfgval) (d : dims) (base : string)
    (experts : list expert) (shared : expert) (routers shared_routers : list T) : result (list (string * T)) :=
  let loaders := initialize_loaders disk base experts in
  let! ws := all_weights (json_module a_qwen2_default) c in
  let! out := rmapM (fun w =>
    if infix ".mlp." (wi_name w) then copy_experts o loaders experts (Some shared) ".mlp.shared_expert." w
    else match use_loader (dget loaders base) (wi_name w :: match wi_aliases w with Some l => l | None => [] end) with
         | Ok t => Ok [(wi_name w, o_cast o t)]
         | Err KeyError =>
             if ends_with "_proj.bias" (wi_name w) then let! z := bias_zeros o d (wi_name w) in Ok [(wi_name w, o_cast o z)]
             else if wi_optional w then Ok [] else Err KeyError
         | Err e => Err e
         end) ws in
  let! rs := rmapM (fun iw => let! s := nthE shared_routers (Z.to_nat (fst iw)) in
                              Ok [(router_name (fst iw), o_cast o (snd iw)); (shared_gate_name (fst iw), o_cast o s)])
                   (enumerate routers) in
  Ok (concat out ++ concat rs).

(** ** scripts/moe.py: which gates are computed and how they are split (moe.py:42-79). [gates] are the gate vectors of
    one layer, one per element of [need_gates]. *)
Definition need_gates (experts shared : list expert) (gate_mode : string) : result (list expert) :=
  match shared with
  | [] => Ok experts
  | _ =>
      let prompts e := match ex_positive e with [] => false | _ => true end in
      let has := existsb prompts shared in
      if negb (forallb (fun e => Bool.eqb (prompts e) has) shared) then Err AssertionError
      else if has || String.eqb gate_mode "random" || String.eqb gate_mode "uniform_random"
           then Ok (experts ++ shared) else Ok experts
  end.
(** [get_gate_params] (router.py:72-150): one vector per layer and expert; [vec e] lists the vectors of expert [e], one
    per layer ([randn]/[rand] draws, or the normalised hidden states of its prompts). The last lines stack them by
    expert and permute to (layer, expert, hidden). *)
Definition gate_params {V} (vec : expert -> list V) (layers : nat) (experts : list expert) : result (list (list V)) :=
  rmapM (fun i => rmapM (fun e => nthE (vec e) i) experts) (seq 0 layers).
Definition split_gates {V} (experts : list expert) (gates : list V) : list V * list V :=
  (firstn (List.length experts) gates, skipn (List.length experts) gates).

(** ** [is_bad_config] (config.py:45-86) *)
Definition prompt_tup (e : expert) : list string * list string := (ex_positive e, ex_negative e).
Definition prompts_eqb (a b : list string * list string) : bool :=
  let leq := fix leq (x y : list string) := match x, y with
    | [], [] => true | a :: x, b :: y => String.eqb a b && leq x y | _, _ => false end in
  leq (fst a) (fst b) && leq (snd a) (snd b).
Definition is_bad_config (experts_per_token : Z) (experts : list expert) (gate_mode : string) (allow_all_same : bool) : result bool :=
  if Z.ltb experts_per_token 1 then Ok true
  else if Z.ltb (Z.of_nat (List.length experts)) experts_per_token then Ok true
  else if String.eqb gate_mode "random" then Ok false
  else if existsb (fun e => match ex_positive e with [] => true | _ => false end) experts then Ok true
  else match experts with
       | [] => Err IndexError
       | e0 :: es =>
           if forallb (fun e => prompts_eqb (prompt_tup e) (prompt_tup e0)) es then Ok true
           else if negb allow_all_same && forallb (fun e => String.eqb (ex_model e) (ex_model e0)) es then Ok true
           else Ok false
       end.
End Moe.
Arguments transform T : clear implicits.
Arguments ops T F : clear implicits.
Arguments expert F : clear implicits.
Arguments tensors T : clear implicits.
