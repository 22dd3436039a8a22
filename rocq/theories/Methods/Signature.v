(** Model of mergekit/merge_methods/easy_define.py, the part that looks at the signature of the decorated function
    ([__merge_method], 26-109), and of Python's binding of the arguments [_execute] calls it with (153-166).

    Annotations are summarised by what the code can tell apart. Defaults are values of the configuration; None is
    [none_value] (Dispatch.v). *)
From Coq Require Import QArith.
From Verif.Base Require Import Py.
From Verif.Config Require Import Model.
From Verif.Plan Require Import Model.
From Verif.Methods Require Import Easy Dispatch.
Local Open Scope string_scope.
Local Open Scope list_scope.

Inductive ann :=
| AMissing                   (* no annotation: inspect.Parameter.empty *)
| ANull                      (* annotated None *)
| AInt | AFloat | ABool
| ATensor                    (* torch.Tensor *)
| ANoneType                  (* type(None), inside a union *)
| AList (args : list ann)    (* List[...] or list[...] *)
| ABareList                  (* typing.List: an origin but no __args__ *)
| AUnion (args : list ann)   (* typing.Union[...], Optional[...] *)
| APipe (args : list ann)    (* A | B: no __origin__ *)
| AOther.                    (* anything else, such as str, Dict[...] or a quoted annotation *)
Inductive pkind := PPositional | POrdinary | PKeyword | PVarArgs | PVarKeywords.
Record sparam := { sp_name : string; sp_kind : pkind; sp_ann : ann; sp_default : option pval }.

Record inspected := {
  in_decl : decl;
  in_output_weight : bool;
  in_params : list param_def;      (* parameters *)
  in_tparams : list param_def      (* tensor_parameters *)
}.

Definition param_named (sig : list sparam) (n : string) : option sparam := find (fun p => eqb (sp_name p) n) sig.
Definition has (sig : list sparam) (n : string) : bool := match param_named sig n with Some _ => true | None => false end.

(** 40-49 *)
Definition check_tensors (a : ann) : result unit :=
  match a with
  | AList [ATensor] => Ok tt
  | ABareList => Err AttributeError
  | _ => Err ValueError
  end.
(** 50-67: is the base tensor required? *)
Definition check_base (a : ann) : result bool :=
  match a with
  | ATensor => Ok true
  | AUnion [ATensor; ANoneType] | AUnion [ANoneType; ATensor] => Ok false
  | _ => Err ValueError
  end.
(** the definition of a parameter (79-90, 96-109) *)
Definition definition (p : sparam) : param_def :=
  {| pd_name := sp_name p; pd_required := match sp_default p with None => true | Some _ => false end;
     pd_default := match sp_default p with Some d => d | None => none_value end |}.
(** 73-109: nothing, a method-wide parameter ([false]) or a per-model one ([true]) *)
Definition classify (p : sparam) : result (option (bool * param_def)) :=
  match sp_ann p with
  | ANull => Err ValueError
  | AInt | AFloat | ABool => Ok (Some (false, definition p))
  | ABareList => Err AttributeError
  | AList [] => Err IndexError
  | AList (AInt :: _) | AList (AFloat :: _) =>
      match sp_default p with
      | Some d => if is_num d then Ok (Some (true, definition p)) else Err ValueError
      | None => Ok (Some (true, definition p))
      end
  | _ => Ok None
  end.
(** the names treated apart (22, 69-72) *)
Definition special (n : string) : bool := mem n ["base_tensor"; "tensors"; "output_weight"; "base_model"].
Definition of_kind (per_model : bool) (cs : list (option (bool * param_def))) : list param_def :=
  flat_map (fun c => match c with Some (b, d) => if Bool.eqb b per_model then [d] else [] | None => [] end) cs.

Definition inspect (sig : list sparam) : result inspected :=
  match param_named sig "tensors" with
  | None => Err ValueError
  | Some p =>
      let! _ := check_tensors (sp_ann p) in
      let! required := match param_named sig "base_tensor" with
                       | Some b => check_base (sp_ann b)
                       | None => Ok false
                       end in
      let! cs := rmapM (fun p => if special (sp_name p) then Ok None else classify p) sig in
      Ok {| in_decl := {| d_base_tensor := has sig "base_tensor"; d_require_base := required; d_base_model := has sig "base_model";
                          d_params := map pd_name (of_kind false cs); d_tensor_params := map pd_name (of_kind true cs) |};
            in_output_weight := has sig "output_weight"; in_params := of_kind false cs; in_tparams := of_kind true cs |}
  end.

(** ** the call *)
Section Call.
Context {T : Type}.
Inductive argument :=
| GTensors (ts : list T) | GBase (t : option T) | GOutputWeight | GBaseModel
| GValue (v : pval) | GValues (vs : list pval)
| GDefault (v : pval).       (* not passed: the default of the signature *)
(** the keywords of [func(tensors=tensors, **inner_kwargs)] (153-166) *)
Definition passed (i : inspected) (c : call T pval) : dict string argument :=
  [("tensors", GTensors (c_tensors c))]
  ++ (if in_output_weight i then [("output_weight", GOutputWeight)] else [])
  ++ (if d_base_model (in_decl i) then [("base_model", GBaseModel)] else [])
  ++ (if d_base_tensor (in_decl i) then [("base_tensor", GBase (c_base c))] else [])
  ++ map (fun kv => (fst kv, GValue (snd kv))) (c_params c)
  ++ map (fun kv => (fst kv, GValues (snd kv))) (c_tensor_params c).

Definition by_name (k : pkind) : bool := match k with POrdinary | PKeyword => true | _ => false end.
Definition single (k : pkind) : bool := match k with PVarArgs | PVarKeywords => false | _ => true end.
(** Python binds keywords to parameters: a keyword that names no parameter that may be given by name is an error unless there
    is a [**kwargs]; so is a parameter without value and default *)
Definition bind (sig : list sparam) (kw : dict string argument) : result (dict string argument) :=
  let takes n := existsb (fun p => eqb (sp_name p) n && by_name (sp_kind p)) sig in
  let catches := existsb (fun p => match sp_kind p with PVarKeywords => true | _ => false end) sig in
  if negb catches && existsb (fun kv => negb (takes (fst kv))) kw then Err TypeError
  else rmapM (fun p => match (if by_name (sp_kind p) then dget kw (sp_name p) else None) with
                       | Some a => Ok (sp_name p, a)
                       | None => match sp_default p with Some d => Ok (sp_name p, GDefault d) | None => Err TypeError end
                       end) (filter (fun p => single (sp_kind p)) sig).
End Call.
Arguments argument T : clear implicits.

(** ** The decorated functions of the repository: nearswap.py:16-18, sce.py:19-24, ram.py:16-20 and 46-52, multislerp.py:16-22 *)
Definition arg_of (n : string) (a : ann) : sparam := {| sp_name := n; sp_kind := POrdinary; sp_ann := a; sp_default := None |}.
Definition arg_with (n : string) (a : ann) (d : pval) : sparam := {| sp_name := n; sp_kind := POrdinary; sp_ann := a; sp_default := Some d |}.
Definition tensors_arg : sparam := arg_of "tensors" (AList [ATensor]).
Definition base_arg_req : sparam := arg_of "base_tensor" ATensor.
Definition nearswap_sig := [tensors_arg; base_arg_req; arg_of "t" AFloat].
Definition sce_sig := [tensors_arg; base_arg_req; arg_with "int8_mask" ABool (of_bool false); arg_with "select_topk" AFloat (PNum 1)].
Definition ram_sig := [tensors_arg; base_arg_req; arg_with "epsilon" AFloat (PNum (1 # 100000))].
Definition ramplus_sig := [tensors_arg; base_arg_req; arg_with "r" AFloat (PNum (1 # 10)); arg_with "alpha" AFloat (PNum (2 # 10));
  arg_with "epsilon" AFloat (PNum (1 # 100000))].
Definition multislerp_sig := [tensors_arg; arg_of "weight" (AList [AFloat]); arg_with "base_tensor" (AUnion [ATensor; ANoneType]) none_value;
  arg_with "normalize_weights" ABool (of_bool true); arg_with "eps" AFloat (PNum (1 # 100000000))].
