(** Model of mergekit/scripts/merge_raw_pytorch.py. Model paths are strings; [ModelReference.model_validate({"model":
    {"path": p}})] is injective in [p], so the reference is written as the path itself. [dtype] casts, the writer's
    options and progress bars are left out. *)
From Coq Require Import QArith.
From Verif.Base Require Import Py.
From Verif.Config Require Import Model.
From Verif.IO Require Import Model.
Local Open Scope string_scope.
Local Open Scope list_scope.

(** [ConfigParameterDef] (merge_methods/base.py:39-42). [None] is Python's [None]. *)
Record param_def := { pd_name : string; pd_required : bool; pd_default : option pval }.

(** merge_raw_pytorch.py:24-26 *)
Record model_def := { md_model : string; md_params : params }.

(** merge_raw_pytorch.py:29-34; the merge method is given by its two lists of parameter definitions *)
Record raw_config := { rc_models : list model_def; rc_params : params; rc_base : option string }.
Record method := { me_params : list param_def; me_tensor_params : list param_def }.

(** Python truthiness of a value [evaluate_setting] can return *)
Definition truthy_val (v : option pval) : bool :=
  match v with
  | None => false
  | Some (PNum q) => negb (Qeq_bool q 0)
  | Some (PStr s) => negb (eqb s "")
  | Some (PCond _ _) => true
  | Some (PList l) => match l with [] => false | _ => true end
  end.

(** [evaluate_setting(tensor_name, setting)], [t] left at its default 0 *)
Definition eval0 (tensor : string) (s : pval) : result (option pval) := evaluate_setting (Some tensor) 0 s.

(** one round of the loop at merge_raw_pytorch.py:173-185 *)
Definition global_step (c : raw_config) (tensor : string) (acc : dict string (option pval)) (d : param_def)
  : result (dict string (option pval)) :=
  let! acc := match rc_params c with
              | Some ps => match dget ps (pd_name d) with
                           | Some s => let! v := eval0 tensor s in
                                       Ok (match v with Some _ => dset acc (pd_name d) v | None => acc end)
                           | None => Ok acc end
              | None => Ok acc end in
  if dmem acc (pd_name d) then Ok acc
  else if pd_required d then Err RuntimeError
  else Ok (dset acc (pd_name d) (pd_default d)).

Fixpoint rfold {A B} (f : A -> B -> result A) (a : A) (l : list B) : result A :=
  match l with [] => Ok a | x :: l => let! a := f a x in rfold f a l end.

Definition global_params (c : raw_config) (me : method) (tensor : string) : result (dict string (option pval)) :=
  rfold (global_step c tensor) [] (me_params me).

(** the value chosen in the inner loop (merge_raw_pytorch.py:192-206) *)
Definition tensor_value (c : raw_config) (tensor : string) (d : param_def) (m : model_def) : result (option pval) :=
  match md_params m with
  | None => Err AttributeError
  | Some ps =>
      let! v := eval0 tensor (match dget ps (pd_name d) with Some s => s | None => PList [] end) in
      if truthy_val v then Ok v
      else
        let! v := eval0 tensor (match rc_params c with
                                | Some ((_ :: _) as gs) => match dget gs (pd_name d) with Some s => s | None => PList [] end
                                | _ => PList [] end) in
        if truthy_val v then Ok v
        else if pd_required d then Err RuntimeError
        else Ok (pd_default d)
  end.

Definition tparams := dict string (dict string (option pval)).

(** merge_raw_pytorch.py:189-206: one pass of the body of the two loops *)
Definition tensor_step (c : raw_config) (tensor : string) (d : param_def) (acc : tparams) (m : model_def) : result tparams :=
  let cur := match dget acc (md_model m) with Some x => x | None => [] end in
  let! v := tensor_value c tensor d m in
  Ok (dset acc (md_model m) (dset cur (pd_name d) v)).

Definition tensor_params (c : raw_config) (me : method) (tensor : string) : result tparams :=
  rfold (fun acc d => rfold (tensor_step c tensor d) acc (rc_models c)) [] (me_tensor_params me).

(** [construct_param_dicts] (merge_raw_pytorch.py:169-207) *)
Definition construct_param_dicts (c : raw_config) (me : method) (tensor : string)
  : result (dict string (option pval) * tparams) :=
  let! g := global_params c me tensor in
  let! t := tensor_params c me tensor in
  Ok (g, t).

(** The models whose tensors are gathered for one output: the listed models, then the base model
    (merge_raw_pytorch.py:101-112); a dict, so each path once. *)
Definition inputs (c : raw_config) : list string :=
  let ms := dedup (map md_model (rc_models c)) in
  match rc_base c with
  | Some b => if mem b ms then ms else ms ++ [b]
  | None => ms
  end.

Record planned := {
  pl_tensor : string; pl_inputs : list string; pl_global : dict string (option pval); pl_tparams : tparams }.

(** the body of the planning loop (merge_raw_pytorch.py:100-161); [None] is [continue]. [index_of m] is the index of
    the checkpoint at [m]. *)
Definition plan_one (c : raw_config) (me : method) (index_of : string -> index) (union inter : bool) (tensor : string)
  : result (option planned) :=
  let has := filter (fun m => dmem (ix_paths (index_of m)) tensor) (inputs c) in
  let plan :=
    let! (g, t) := construct_param_dicts c me tensor in
    Ok (Some {| pl_tensor := tensor; pl_inputs := inputs c; pl_global := g; pl_tparams := t |}) in
  if (length has <? length (inputs c))%nat then
    if inter then Ok None else if union then plan else Err RuntimeError
  else plan.

Fixpoint plan_loop (c : raw_config) (me : method) (index_of : string -> index) (union inter : bool) (order : list string)
  : result (list planned) :=
  match order with
  | [] => Ok []
  | x :: rest =>
      let! o := plan_one c me index_of union inter x in
      let! l := plan_loop c me index_of union inter rest in
      Ok (match o with Some p => p :: l | None => l end)
  end.

(** [plan_flat_merge] (merge_raw_pytorch.py:75-166). The tensor names are gathered in a Python set (81-84) and
    iterated in that set's order: [order] is the order, and [plan_flat_merge] is used with [tensor_order c index_of order]. *)
Definition tensor_order (c : raw_config) (index_of : string -> index) (order : list string) : Prop :=
  NoDup order /\
  forall x, In x order <-> exists m, In m (rc_models c) /\ In x (dkeys (ix_paths (index_of (md_model m)))).
Definition plan_flat_merge := plan_loop.

(** [SimpleLoadTensor.execute] (merge_raw_pytorch.py:65-72): no aliases, and [raise_on_missing] left at [True].
    [hist] is what this loader was used for before. *)
Definition load {T} (disk : string -> fs T) (index_of : string -> index) (hist : list call) (m tensor : string)
  : result (option T) :=
  snd (get_tensor (disk m) (index_of m) (after (disk m) (index_of m) hist) tensor [] true).
