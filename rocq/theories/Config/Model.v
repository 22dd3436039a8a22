(** Model of mergekit/config.py. *)
From Coq Require Import QArith.
From Verif.Base Require Import Py.
Local Open Scope string_scope.
Local Open Scope list_scope.

(** Values a parameter setting can take (config.py:12-23): numbers (float/int/bool), strings,
    [ConditionalParameter], lists. Numbers are exact rationals. *)
Inductive pval :=
| PNum (q : Q)
| PStr (s : string)
| PCond (value : pval) (filter : option string)
| PList (l : list pval).

Definition is_num (v : pval) : bool := match v with PNum _ => true | _ => false end.
Definition is_scalar (v : pval) : bool := match v with PNum _ | PStr _ => true | _ => false end.
Definition num_of (v : pval) : Q := match v with PNum q => q | _ => 0 end.

(** Python [int(x)] on a float: truncation towards zero *)
Definition Qtrunc (q : Q) : Z := Z.quot (Qnum q) (QDen q).

(** [(cond.filter is None) or (cond.filter == "*") or (tensor_name and cond.filter in tensor_name)]
    (config.py:43-47) *)
Definition filter_matches (name : option string) (f : option string) : bool :=
  match f with
  | None => true
  | Some f => String.eqb f "*" ||
              match name with
              | Some s => negb (String.eqb s "") && infix f s
              | None => false end
  end.

(** [evaluate_setting] (config.py:26-52). [Ok None] is Python's [None]. *)
Fixpoint evaluate_setting (name : option string) (t : Q) (s : pval) {struct s} : result (option pval) :=
  match s with
  | PNum _ | PStr _ => Ok (Some s)
  | PCond _ _ => Err RuntimeError
  | PList l =>
      let n := Z.of_nat (length l) in
      if forallb is_num l then
        let scaled := (t * inject_Z (n - 1))%Q in
        let i0 := Qtrunc scaled in
        let i1 := Z.min (n - 1) (i0 + 1) in
        let frac := (scaled - inject_Z i0)%Q in
        let! a := py_index l i0 in
        let! b := py_index l i1 in
        Ok (Some (PNum ((1 - frac) * num_of a + frac * num_of b)))
      else if forallb is_scalar l then
        let! a := py_index l (Qtrunc (t * inject_Z (n - 1))) in Ok (Some a)
      else
        (fix go (l : list pval) : result (option pval) :=
           match l with
           | [] => Ok None
           | PCond v f :: rest => if filter_matches name f then evaluate_setting name t v else go rest
           | _ :: _ => Err AttributeError
           end) l
  end.

(** [Optional[Dict[str, ParameterSetting]]] *)
Definition params := option (dict string pval).

Section Cfg.
Context {M : Type} `{Eqb M}.

(** config.py:55-75 *)
Record input_slice := { is_model : M; is_start : Z; is_end : Z; is_params : params }.
Record input_model := { im_model : M; im_params : params }.
Record output_slice := { os_sources : list input_slice; os_base : option M; os_params : params }.
Record output_module := {
  om_slices : option (list output_slice); om_models : option (list input_model); om_params : params }.

(** [MergeConfiguration] (config.py:85-99), the fields the planner uses *)
Record merge_config := {
  mc_modules : option (dict string output_module);
  mc_slices : option (list output_slice);
  mc_models : option (list input_model);
  mc_base : option M;
  mc_params : params;
  mc_dtype : option string;
  mc_out_dtype : option string
}.

(** truthiness of an optional list/dict *)
Definition truthy {A} (o : option (list A)) : bool := match o with Some (_ :: _) => true | _ => false end.

(** [OutputModuleDefinition.validate_inputs] (config.py:77-82) *)
Definition validate_module (m : output_module) : result unit :=
  if (negb (truthy (om_slices m)) && negb (truthy (om_models m)))
     || (truthy (om_slices m) && truthy (om_models m))
  then Err RuntimeError else Ok tt.

(** [MergeConfiguration.validate_inputs] (config.py:123-137) *)
Definition validate_config (c : merge_config) : result unit :=
  let b2n (b : bool) := if b then 1%nat else 0%nat in
  if Nat.eqb (b2n (truthy (mc_modules c)) + b2n (truthy (mc_slices c)) + b2n (truthy (mc_models c)))%nat 1%nat
  then Ok tt else Err RuntimeError.

Definition opt_list {A} (o : option (list A)) : list A := match o with Some l => l | None => [] end.

(** [referenced_models] (config.py:101-121); a Python set turned into a list: here in insertion order, the
    actual order is unspecified (theorems only use membership and duplicate-freeness). *)
Definition slice_models (s : output_slice) : list M := map is_model (os_sources s).
Definition module_models (m : output_module) : list M :=
  map im_model (opt_list (om_models m)) ++ flat_map slice_models (opt_list (om_slices m)).
Definition referenced_models (c : merge_config) : list M :=
  dedup ((match mc_base c with Some b => [b] | None => [] end)
         ++ map im_model (opt_list (mc_models c))
         ++ flat_map slice_models (opt_list (mc_slices c))
         ++ flat_map (fun kv => module_models (snd kv)) (opt_list (mc_modules c))).

(** [ConfigReader] (config.py:152-157) *)
Record reader := {
  r_config : merge_config; r_t : Q; r_tensor : option string;
  r_slice : option output_slice; r_module : option output_module }.

(** [ConfigReader.base_model] (config.py:159-166) *)
Definition reader_base (r : reader) : option M :=
  match r_slice r with
  | Some s => match os_base s with Some b => Some b | None => mc_base (r_config r) end
  | None => mc_base (r_config r)
  end.

(** [for_out_slice/for_tensor/with_t/for_module] (config.py:168-202) *)
Definition for_out_slice (r : reader) (s : output_slice) : reader :=
  {| r_config := r_config r; r_t := r_t r; r_tensor := r_tensor r; r_slice := Some s; r_module := r_module r |}.
Definition for_tensor (r : reader) (n : string) : reader :=
  {| r_config := r_config r; r_t := r_t r; r_tensor := Some n; r_slice := r_slice r; r_module := r_module r |}.
Definition with_t (r : reader) (t : Q) : reader :=
  {| r_config := r_config r; r_t := t; r_tensor := r_tensor r; r_slice := r_slice r; r_module := r_module r |}.
Definition for_module (r : reader) (m : output_module) : reader :=
  {| r_config := r_config r; r_t := r_t r; r_tensor := r_tensor r; r_slice := r_slice r; r_module := Some m |}.

(** [params and name in params] then [params[name]] *)
Definition param_get (p : params) (name : string) : option pval :=
  match p with Some d => dget d name | None => None end.

(** one level: [if present: value = evaluate_setting(...); if value is not None: return value] else continue *)
Definition try_level (r : reader) (s : option pval) (k : result pval) : result pval :=
  match s with
  | None => k
  | Some s => let! v := evaluate_setting (r_tensor r) (r_t r) s in
              match v with Some v => Ok v | None => k end
  end.

(** the loop over slice sources (config.py:212-220) *)
Fixpoint try_sources (r : reader) (name : string) (m : M) (srcs : list input_slice) (k : result pval)
  : result pval :=
  match srcs with
  | [] => k
  | s :: rest => if eqb (is_model s) m then try_level r (param_get (is_params s) name) (try_sources r name m rest k)
                 else try_sources r name m rest k
  end.

(** [ConfigReader.parameter] (config.py:204-251) *)
Definition parameter (r : reader) (name : string) (model : option M) (default : pval) (required : bool)
  : result pval :=
  let k_end := if required then Err RuntimeError else Ok default in
  let k_global := try_level r (param_get (mc_params (r_config r)) name) k_end in
  let k_module := match r_module r with
                  | Some m => try_level r (param_get (om_params m) name) k_global
                  | None => k_global end in
  match r_slice r with
  | None => k_module
  | Some s =>
      let k_slice := try_level r (param_get (os_params s) name) k_module in
      match model with
      | Some m => try_sources r name m (os_sources s) k_slice
      | None => k_slice
      end
  end.
End Cfg.
Arguments input_slice : clear implicits. Arguments input_model : clear implicits.
Arguments output_slice : clear implicits. Arguments output_module : clear implicits.
Arguments merge_config : clear implicits. Arguments reader : clear implicits.
