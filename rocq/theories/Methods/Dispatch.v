(** Model of mergekit/merge_methods/registry.py, of [get] (merge_methods/__init__.py:15-18) and of the [parameters],
    [tensor_parameters] and [make_task] of every merge method: from the name of a method and the parameters read by the
    planner to the arithmetic of Methods/Model.v and Methods/More.v.

    Models are strings. Numbers of the configuration are exact, so 1e-5 is 1/100000. Python's None, which only defaults
    can be, is written [PList []] (no setting evaluates to a list). A task is represented by its [execute]: a function of
    what the library calls return and of the tensors gathered. *)
From Coq Require Import Reals QArith Qreals.
From Verif.Base Require Import Py.
From Verif.Config Require Import Model.
From Verif.Arch Require Import Model.
From Verif.Plan Require Import Model.
From Verif.Sparsify Require Import Model.
From Verif.Methods Require Import Model More Easy.
Local Open Scope string_scope.
Local Open Scope list_scope.

Inductive kind :=
| KLinear | KSlerp | KNuslerp | KPassthrough | KStock | KFusion | KKarcher
| KGta (g : gta_method) (default_normalize default_rescale : bool)
| KMultislerp | KNearswap | KRam | KRamplus | KSce.

Definition gta_of (c : option consensus) (s : option method) : gta_method := {| g_consensus := c; g_sparsify := s |}.

(** registry.py:20-103; then the decorated functions in the order of the imports (merge_methods/__init__.py:4-7) *)
Definition registry : dict string kind :=
  [("linear", KLinear); ("slerp", KSlerp); ("nuslerp", KNuslerp); ("passthrough", KPassthrough);
   ("model_stock", KStock); ("arcee_fusion", KFusion); ("karcher", KKarcher);
   ("task_arithmetic", KGta (gta_of None None) false false);
   ("ties", KGta (gta_of (Some CSum) (Some Magnitude)) true false);
   ("dare_ties", KGta (gta_of (Some CSum) (Some Random)) false true);
   ("dare_linear", KGta (gta_of None (Some Random)) false true);
   ("breadcrumbs", KGta (gta_of None (Some MagnitudeOutliers)) false false);
   ("breadcrumbs_ties", KGta (gta_of (Some CSum) (Some MagnitudeOutliers)) false false);
   ("della", KGta (gta_of (Some CSum) (Some DellaMagprune)) true true);
   ("della_linear", KGta (gta_of None (Some DellaMagprune)) false true);
   ("multislerp", KMultislerp); ("nearswap", KNearswap); ("ram", KRam); ("ramplus_tl", KRamplus); ("sce", KSce)].

(** [get] (__init__.py:15-18) *)
Definition get (name : string) : result kind :=
  match dget registry name with Some k => Ok k | None => Err RuntimeError end.

Definition none_value : pval := PList [].
Definition of_bool (b : bool) : pval := PNum (if b then 1 else 0).
Definition req (n : string) : param_def := {| pd_name := n; pd_required := true; pd_default := none_value |}.
Definition opt (n : string) (d : pval) : param_def := {| pd_name := n; pd_required := false; pd_default := d |}.

(** [parameters] of linear.py:75-78, slerp.py:74-75, nuslerp.py:93-105, model_stock.py:117-120, arcee_fusion.py:122-123,
    karcher.py:82-86, generalized_task_arithmetic.py:48-58; passthrough has none; of the decorated functions, the
    arguments annotated int, float or bool (easy_define.py:68-92): multislerp.py:16-22, nearswap.py:16-18, ram.py:16-20
    and 46-52, sce.py:19-24 *)
Definition parameters (k : kind) : list param_def :=
  match k with
  | KLinear => [opt "normalize" (of_bool true)]
  | KSlerp => [req "t"]
  | KNuslerp => [opt "nuslerp_row_wise" (of_bool false); opt "nuslerp_flatten" (of_bool true)]
  | KPassthrough => []
  | KStock => [opt "filter_wise" (of_bool false)]
  | KFusion => []
  | KKarcher => [opt "max_iter" (PNum 10); opt "tol" (PNum (1 # 100000))]
  | KGta _ n r => [opt "int8_mask" (of_bool false); opt "normalize" (of_bool n); opt "rescale" (of_bool r); opt "lambda" (PNum 1)]
  | KMultislerp => [opt "normalize_weights" (of_bool true); opt "eps" (PNum (1 # 100000000))]
  | KNearswap => [req "t"]
  | KRam => [opt "epsilon" (PNum (1 # 100000))]
  | KRamplus => [opt "r" (PNum (1 # 10)); opt "alpha" (PNum (2 # 10)); opt "epsilon" (PNum (1 # 100000))]
  | KSce => [opt "int8_mask" (of_bool false); opt "select_topk" (PNum 1)]
  end.

(** [tensor_parameters] of linear.py:80-81, nuslerp.py:107-108, passthrough.py:48-49,
    generalized_task_arithmetic.py:60-79; multislerp.py:18 *)
Definition tensor_parameters (k : kind) : list param_def :=
  match k with
  | KLinear | KNuslerp | KMultislerp => [req "weight"]
  | KPassthrough => [opt "scale" none_value]
  | KGta g _ _ =>
      [req "weight"; opt "density" (PNum 1)] ++
      match g_sparsify g with
      | Some MagnitudeOutliers => [opt "gamma" (PNum (1 # 100))]
      | Some DellaMagprune => [opt "epsilon" (PNum (15 # 100))]
      | _ => []
      end
  | _ => []
  end.

(** ** Validation of the fields of a task by pydantic, when it is built *)
(** [bool]: a number must be 0 or 1 *)
Definition bool_field (d : dict string pval) (key : string) : result bool :=
  let! v := dgetE d key in
  match v with
  | PNum q => if Qeq_bool q 0 then Ok false else if Qeq_bool q 1 then Ok true else Err ValidationError
  | _ => Err ValidationError
  end.
(** [float] *)
Definition float_field (d : dict string pval) (key : string) : result R :=
  let! v := dgetE d key in match v with PNum q => Ok (Q2R q) | _ => Err ValidationError end.
(** [int]: a number must be integral *)
Definition int_field (d : dict string pval) (key : string) : result Z :=
  let! v := dgetE d key in
  match v with PNum q => if Qeq_bool q (inject_Z (Qtrunc q)) then Ok (Qtrunc q) else Err ValidationError | _ => Err ValidationError end.
(** [base_model: ModelReference] *)
Definition base_field (base : option string) : result string :=
  match base with Some b => Ok b | None => Err ValidationError end.
(** [if parameters["rescale"]] *)
Definition truthy (v : pval) : bool :=
  match v with PNum q => negb (Qeq_bool q 0) | PStr s => negb (eqb s "") | PCond _ _ => true | PList l => match l with [] => false | _ => true end end.

(** ** What the library calls return *)
Record lib := {
  l_choice : string -> choices;                  (* while the task vector of a model is sparsified *)
  l_order : list string -> list string;          (* the iteration order of a set *)
  l_topk : list R -> nat -> list nat;            (* torch.topk of sce *)
  l_perm1 : list nat; l_perm2 : list nat }.      (* torch.randperm of arcee_fusion *)

(** a value of Any used as a number; None is not one *)
Definition num (v : pval) : result R := match v with PNum q => Ok (Q2R q) | _ => Err TypeError end.
(** [tensor_parameters[model][key]] *)
Definition model_value (t : merge_task string) (key : string) (m : string) : result pval :=
  let! d := dgetE (mt_tparams t) m in dgetE d key.
Definition model_number (t : merge_task string) (key : string) (m : string) : result R :=
  let! v := model_value t key m in num v.
(** one number per model *)
Definition numbers (t : merge_task string) (key : string) (ms : list string) : result (dict string R) :=
  rmapM (fun m => let! x := model_number t key m in Ok (m, x)) ms.

(** get_task_vectors (generalized_task_arithmetic.py:221-226) copies the parameters of a model; those that the method
    does not have are left to the defaults of [sparsify] (sparsify.py:182-183) *)
Definition optional_number (t : merge_task string) (key : string) (m : string) : result R :=
  let! d := dgetE (mt_tparams t) m in
  match dget d key with Some v => num v | None => Ok 0%R end.
Definition gta_params (t : merge_task string) (m : string) : result (string * tparams) :=
  let! w := model_number t "weight" m in
  let! d := model_number t "density" m in
  let! g := optional_number t "gamma" m in
  let! e := optional_number t "epsilon" m in
  Ok (m, {| p_weight := w; p_density := d; p_gamma := g; p_epsilon := e |}).

(** a decorated function called by [_execute] (easy_define.py:142-166) *)
Definition easy (d : decl) (t : merge_task string) (L : lib) (ds : dict string tensor) : result (call tensor pval) :=
  Easy.execute d (mt_base t) ds (mt_params t) (mt_tparams t) (l_order L (dkeys ds)).
Definition arg (c : call tensor pval) (key : string) : result R := let! v := dgetE (c_params c) key in num v.
Definition base_arg (c : call tensor pval) : result tensor :=
  match c_base c with Some b => Ok b | None => Err ValueError end.
Definition some {A} (r : result A) : result (option A) := let! x := r in Ok (Some x).

Definition others (base : option string) (ds : dict string tensor) : list string :=
  filter (fun m => negb (match base with Some b => eqb m b | None => false end)) (dkeys ds).

(** ** make_task, and execute of the task made.
    linear.py:83-97 and 32-57, slerp.py:77-91 and 33-56, nuslerp.py:110-128 and 35-82, passthrough.py:51-60 and 25-34,
    model_stock.py:122-136 and 33-87, arcee_fusion.py:125-134 and 71-98, karcher.py:88-108 and 40-57,
    generalized_task_arithmetic.py:81-99 and 119-184, easy_define.py:175-194 and 142-166.
    Parameters of type Any are looked at before the tensors; the code may find the tensors wrong first. *)
Definition make_task (k : kind) (t : merge_task string)
  : result (lib -> dict string tensor -> result (option tensor)) :=
  let e := wi_embed (mt_weight t) in
  let ps := mt_params t in
  match k with
  | KLinear =>
      let! n := bool_field ps "normalize" in
      Ok (fun _ ds => let! ws := numbers t "weight" (dkeys ds) in some (linear e n ds ws))
  | KSlerp =>
      let! b := base_field (mt_base t) in
      let! x := float_field ps "t" in
      Ok (fun _ ds => some (slerp_task e x b ds))
  | KNuslerp =>
      let! rw := bool_field ps "nuslerp_row_wise" in
      let! fl := bool_field ps "nuslerp_flatten" in
      Ok (fun _ ds =>
            let! ws := match ds with [_] => Ok [] | _ => numbers t "weight" (others (mt_base t) ds) end in
            some (nuslerp_task e rw fl (mt_base t) ds ws))
  | KPassthrough =>
      Ok (fun _ ds =>
            let! sc := match ds with
                       | [(m, _)] => let! d := dgetE (mt_tparams t) m in
                                     match dget d "scale" with
                                     | Some (PList []) | None => Ok []
                                     | Some v => let! x := num v in Ok [(m, x)]
                                     end
                       | _ => Ok []
                       end in
            some (passthrough ds sc))
  | KStock =>
      let! b := base_field (mt_base t) in
      let! fw := bool_field ps "filter_wise" in
      Ok (fun _ ds => model_stock e (wi_optional (mt_weight t)) fw b ds)
  | KFusion =>
      let! b := base_field (mt_base t) in
      Ok (fun L ds => some (arcee_fusion e (l_perm1 L) (l_perm2 L) b ds))
  | KKarcher =>
      let! mi := int_field ps "max_iter" in
      let! tol := float_field ps "tol" in
      Ok (fun _ ds => some (karcher e (Z.to_nat mi) tol ds))
  | KGta g _ _ =>
      let! b := base_field (mt_base t) in
      let! _ := bool_field ps "int8_mask" in
      let! n := bool_field ps "normalize" in
      let! l := float_field ps "lambda" in
      let! rs := dgetE ps "rescale" in
      Ok (fun L ds =>
            let! pr := rmapM (gta_params t) (others (Some b) ds) in
            some (gta g e n (if truthy rs then Some L1 else None) l b ds pr (l_choice L)))
  | KMultislerp =>
      Ok (fun L ds =>
            let! c := easy multislerp_decl t L ds in
            let! vs := dgetE (c_tensor_params c) "weight" in
            let! ws := rmapM num vs in
            let! n := dgetE (c_params c) "normalize_weights" in
            let! ep := arg c "eps" in
            some (multislerp (c_tensors c) ws (c_base c) (truthy n) ep))
  | KNearswap =>
      let! _ := base_field (mt_base t) in
      Ok (fun L ds =>
            let! c := easy nearswap_decl t L ds in
            let! b := base_arg c in let! x := arg c "t" in
            some (nearswap (c_tensors c) b x))
  | KRam =>
      let! _ := base_field (mt_base t) in
      Ok (fun L ds =>
            let! c := easy ram_decl t L ds in
            let! b := base_arg c in let! ep := arg c "epsilon" in
            some (ram (c_tensors c) b ep))
  | KRamplus =>
      let! _ := base_field (mt_base t) in
      Ok (fun L ds =>
            let! c := easy ramplus_decl t L ds in
            let! b := base_arg c in let! r := arg c "r" in let! al := arg c "alpha" in let! ep := arg c "epsilon" in
            some (ramplus (c_tensors c) b r al ep))
  | KSce =>
      let! _ := base_field (mt_base t) in
      Ok (fun L ds =>
            let! c := easy sce_decl t L ds in
            let! b := base_arg c in let! k := arg c "select_topk" in
            some (sce (l_topk L) (c_tensors c) b k))
  end.

(** the tensor merged by a method given by name: what the planner builds and the executor runs
    (plan.py:58 and 225-235) *)
Definition merge_with (name : string) (L : lib) (t : merge_task string) (ds : dict string tensor) : result (option tensor) :=
  let! k := get name in
  let! ex := make_task k t in
  ex L ds.
