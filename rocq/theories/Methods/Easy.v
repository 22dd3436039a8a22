(** Model of mergekit/merge_methods/easy_define.py: what a decorated function is called with.

    The annotations of the function are summarised by a [decl]. Values of parameters have an arbitrary type. *)
From Verif.Base Require Import Py.
Local Open Scope string_scope.
Local Open Scope list_scope.

(** the result of inspecting the signature (32-109) *)
Record decl := {
  d_base_tensor : bool;          (* has an argument base_tensor *)
  d_require_base : bool;         (* annotated torch.Tensor rather than Optional *)
  d_base_model : bool;           (* has an argument base_model *)
  d_params : list string;        (* arguments of type int, float or bool *)
  d_tensor_params : list string  (* arguments of type List[float] or List[int] *)
}.

Section Easy.
Context {M T V : Type} `{Eqb M}.

(** the arguments of the call, apart from output_weight and base_model *)
Record call := {
  c_tensors : list T;
  c_base : option T;                     (* base_tensor, when the function takes one *)
  c_params : dict string V;
  c_tensor_params : dict string (list V) }.

(** the task has a field base_model only if the function asks for it (113-116, 186-187) *)
Definition field_base (d : decl) (base_model : option M) : option M :=
  if d_base_model d || d_base_tensor d then base_model else None.

(** [_execute] (142-166). [order] is the iteration order of [set(tensors.keys())]; [list(model_refs)] after a
    removal keeps it. *)
Definition refs_of (d : decl) (base : option M) (tensors : dict M T) (order : list M) : list M :=
  match base with
  | Some b => if mem b (dkeys tensors)
              then let rest := filter (fun m => negb (eqb m b)) order in if d_base_tensor d then rest else b :: rest
              else order
  | None => order
  end.
Definition execute (d : decl) (base_model : option M) (tensors : dict M T) (params : dict string V)
    (tparams : dict M (dict string V)) (order : list M) : result call :=
  let base := field_base d base_model in
  let refs := refs_of d base tensors order in
  let base_tensor := match base with Some b => dget tensors b | None => None end in
  let! ts := rmapM (dgetE tensors) refs in
  if d_base_tensor d && d_require_base d && match base_tensor with None => true | Some _ => false end
  then Err ValueError
  else
    let! ps := rmapM (fun k => let! v := dgetE params k in Ok (k, v)) (d_params d) in
    let! tps := rmapM (fun k => let! vs := rmapM (fun m => let! p := dgetE tparams m in dgetE p k) refs in Ok (k, vs)) (d_tensor_params d) in
    Ok {| c_tensors := ts; c_base := if d_base_tensor d then base_tensor else None; c_params := ps; c_tensor_params := tps |}.
End Easy.
Arguments call T V : clear implicits.

(** The five decorated functions of the repository. *)
Definition nearswap_decl := {| d_base_tensor := true; d_require_base := true; d_base_model := false; d_params := ["t"]; d_tensor_params := [] |}.
Definition sce_decl := {| d_base_tensor := true; d_require_base := true; d_base_model := false; d_params := ["int8_mask"; "select_topk"]; d_tensor_params := [] |}.
Definition ram_decl := {| d_base_tensor := true; d_require_base := true; d_base_model := false; d_params := ["epsilon"]; d_tensor_params := [] |}.
Definition ramplus_decl := {| d_base_tensor := true; d_require_base := true; d_base_model := false; d_params := ["r"; "alpha"; "epsilon"]; d_tensor_params := [] |}.
Definition multislerp_decl := {| d_base_tensor := true; d_require_base := false; d_base_model := false; d_params := ["normalize_weights"; "eps"]; d_tensor_params := ["weight"] |}.
