(** Specification vocabulary for C41: the tensors of a mixture-of-experts model, by name. *)
From Verif.Base Require Import Py PyStr.
From Verif.Moe Require Import Model.
Local Open Scope string_scope.
Local Open Scope list_scope.

(** "model.layers.<i>.<s>" *)
Definition layer_name (i : Z) (s : string) : string := ("model.layers." ++ str_of_Z i ++ "." ++ s)%string.

Definition projections : list string := ["gate_proj"; "up_proj"; "down_proj"].
(** a projection of the dense models' MLP *)
Definition dense_mlp (i : Z) (p : string) : string := layer_name i ("mlp." ++ p ++ ".weight").
(** parameter [q] of expert number [k] *)
Definition expert_slot (i : Z) (k : nat) (q : string) : string :=
  layer_name i ("mlp.experts." ++ str_of_Z (Z.of_nat k) ++ "." ++ q ++ ".weight").

(** the per-layer tensors of the dense models outside the MLP *)
Definition mistral_attn : list string :=
  ["input_layernorm.weight"; "self_attn.q_proj.weight"; "self_attn.k_proj.weight"; "self_attn.v_proj.weight";
   "self_attn.o_proj.weight"; "post_attention_layernorm.weight"].
Definition qwen2_attn : list string :=
  ["input_layernorm.weight"; "post_attention_layernorm.weight"; "self_attn.k_proj.bias"; "self_attn.k_proj.weight";
   "self_attn.o_proj.weight"; "self_attn.q_proj.bias"; "self_attn.q_proj.weight"; "self_attn.v_proj.bias";
   "self_attn.v_proj.weight"].
Definition qwen3_attn : list string :=
  ["input_layernorm.weight"; "post_attention_layernorm.weight"; "self_attn.k_norm.weight"; "self_attn.k_proj.weight";
   "self_attn.q_norm.weight"; "self_attn.q_proj.weight"; "self_attn.v_proj.weight"; "self_attn.o_proj.weight"].

(** the tensors outside the MLP of a dense model with [n] layers *)
Inductive dense_name (attn : list string) (n : Z) : string -> Prop :=
| d_embed : dense_name attn n "model.embed_tokens.weight"
| d_norm : dense_name attn n "model.norm.weight"
| d_head : dense_name attn n "lm_head.weight"
| d_layer i s : (0 <= i < n)%Z -> In s attn -> dense_name attn n (layer_name i s).

Section Spec.
Context {T F : Type}.

(** what an expert makes of its own tensor: noise first, then the residual scale on the output projection only *)
Definition adjusted (o : ops T F) (e : expert F) (p : string) (slot : string) (t : T) : T :=
  let noisy := match ex_noise e with None => t | Some s => o_noise o slot s t end in
  match ex_residual e with
  | Some s => if String.eqb p "down_proj" then o_scale o s noisy else noisy
  | None => noisy
  end.

(** [ts] lists, in expert order, each expert's own adjusted tensor for projection [p] of layer [i] *)
Definition experts_in_order (o : ops T F) (disk : string -> tensors T) (experts : list (expert F)) (i : Z) (p q : string)
    (ts : list T) : Prop :=
  List.length ts = List.length experts /\
  forall k e, nth_error experts k = Some e ->
    exists t, dget (disk (ex_model e)) (dense_mlp i p) = Some t /\
              nth_error ts k = Some (adjusted o e p (expert_slot i k q) t).

(** The output of the writers that fuse the experts of a layer (Mixtral, Qwen3 MoE). [q] is the name a projection
    has in the checkpoint layout. *)
Inductive fused_output (o : ops T F) (disk : string -> tensors T) (attn : list string) (q : string -> string) (n : Z)
    (base : string) (experts : list (expert F)) (routers : list T) : string -> T -> Prop :=
| fo_base nm t : dense_name attn n nm -> dget (disk base) nm = Some t ->
    fused_output o disk attn q n base experts routers nm (o_cast o t)
| fo_gate_up i gs us : (0 <= i < n)%Z ->
    experts_in_order o disk experts i "gate_proj" (q "gate_proj") gs ->
    experts_in_order o disk experts i "up_proj" (q "up_proj") us ->
    fused_output o disk attn q n base experts routers (layer_name i "mlp.experts.gate_up_proj")
      (o_cast o (o_concat o [o_stack o gs; o_stack o us]))
| fo_down i ds : (0 <= i < n)%Z ->
    experts_in_order o disk experts i "down_proj" (q "down_proj") ds ->
    fused_output o disk attn q n base experts routers (layer_name i "mlp.experts.down_proj") (o_cast o (o_stack o ds))
| fo_router j r : nth_error routers j = Some r ->
    fused_output o disk attn q n base experts routers (layer_name (Z.of_nat j) "mlp.gate.weight") (o_cast o r).

(** the output of the writers that keep experts apart (DeepSeek, Qwen2 MoE): their common part *)
Inductive split_output (o : ops T F) (disk : string -> tensors T) (attn : list string) (n : Z)
    (base : string) (experts : list (expert F)) (shared : option (expert F)) (shared_part : string) (routers : list T)
  : string -> T -> Prop :=
| so_base nm t : dense_name attn n nm -> dget (disk base) nm = Some t ->
    split_output o disk attn n base experts shared shared_part routers nm (o_cast o t)
| so_expert i k e p t : (0 <= i < n)%Z -> nth_error experts k = Some e -> In p projections ->
    dget (disk (ex_model e)) (dense_mlp i p) = Some t ->
    split_output o disk attn n base experts shared shared_part routers (expert_slot i k p)
      (o_cast o (adjusted o e p (expert_slot i k p) t))
| so_shared i s p t : (0 <= i < n)%Z -> shared = Some s -> In p projections ->
    dget (disk (ex_model s)) (dense_mlp i p) = Some t ->
    split_output o disk attn n base experts shared shared_part routers (layer_name i ("mlp." ++ shared_part ++ "." ++ p ++ ".weight"))
      (o_cast o (adjusted o s p (layer_name i ("mlp." ++ shared_part ++ "." ++ p ++ ".weight")) t))
| so_router j r : nth_error routers j = Some r ->
    split_output o disk attn n base experts shared shared_part routers (layer_name (Z.of_nat j) "mlp.gate.weight") (o_cast o r).

(** what Qwen2 MoE adds: attention biases the base model lacks are zero, and the shared expert has a gate *)
Inductive qwen_extra (o : ops T F) (disk : string -> tensors T) (d : dims) (n : Z) (base : string) (routers shared_routers : list T)
  : string -> T -> Prop :=
| qe_bias i x : (0 <= i < n)%Z -> In x ["q_proj"; "k_proj"; "v_proj"] ->
    dget (disk base) (layer_name i ("self_attn." ++ x ++ ".bias")) = None ->
    qwen_extra o disk d n base routers shared_routers (layer_name i ("self_attn." ++ x ++ ".bias"))
      (o_cast o (o_zeros o ((if String.eqb x "q_proj" then num_heads d else num_kv_heads d) * (hidden_size d / num_heads d))%Z))
| qe_gate j r : nth_error shared_routers j = Some r -> (j < List.length routers)%nat ->
    qwen_extra o disk d n base routers shared_routers (layer_name (Z.of_nat j) "mlp.shared_expert_gate.weight") (o_cast o r).

(** every tensor needed is there *)
Definition base_complete (disk : string -> tensors T) (attn : list string) (n : Z) (base : string) : Prop :=
  forall nm, dense_name attn n nm -> nm <> "lm_head.weight" -> In nm (dkeys (disk base)).
Definition mlp_complete (disk : string -> tensors T) (n : Z) (m : string) : Prop :=
  forall i p, (0 <= i < n)%Z -> In p projections -> In (dense_mlp i p) (dkeys (disk m)).
End Spec.
