(** Models of the commands that write a merge configuration from their arguments: scripts/legacy.py (66-123) and
    scripts/layershuffle.py (53-107).

    Numbers are exact rationals. Not modelled: printing the configuration, [run_merge] (see Run). *)
From Coq Require Import QArith.
From Verif.Base Require Import Py.
From Verif.Common Require Import Model.
From Verif.Config Require Import Model.
Local Open Scope string_scope.
Local Open Scope list_scope.

(** [models[idx].parameters[key] = v] (95, 104): IndexError beyond the end *)
Definition set_param (key : string) (ms : list (string * dict string pval)) (iv : nat * Q) : result (list (string * dict string pval)) :=
  match nth_error ms (fst iv) with
  | None => Err IndexError
  | Some (m, ps) => Ok (firstn (fst iv) ms ++ (m, dset ps key (PNum (snd iv))) :: skipn (S (fst iv)) ms)
  end.
Fixpoint set_params (key : string) (ms : list (string * dict string pval)) (ivs : list (nat * Q)) : result (list (string * dict string pval)) :=
  match ivs with [] => Ok ms | iv :: ivs => let! ms := set_param key ms iv in set_params key ms ivs end.
(** one value for all models, or one per position (91-95, 101-104) *)
Definition spread (key : string) (vs : list Q) (ms : list (string * dict string pval)) : result (list (string * dict string pval)) :=
  match vs with
  | [] => Ok ms
  | _ => let vs := match vs with [v] => repeat v (length ms) | _ => vs end in
         set_params key ms (combine (seq 0 (length vs)) vs)
  end.

Record legacy_args := {
  a_merge : list string; a_density : list Q; a_weight : list Q; a_method : string; a_base : option string;
  a_normalize : bool; a_int8_mask : bool; a_naive_count : bool; a_bf16 : bool }.
Definition num_of_bool (b : bool) : pval := PNum (if b then 1 else 0).

(** The command up to [run_merge] (82-117): the method and the configuration. [MergeConfiguration] accepts numbers, lists and
    conditionals as parameters (config.py:20-22) but no string, so ["count"] does not validate. *)
Definition legacy (a : legacy_args) : result (string * merge_config model_ref) :=
  let ms := map (fun m => (m, [] : dict string pval)) (a_merge a) in
  let ms := match a_base a with
            | Some b => if eqb b "" || mem b (a_merge a) then ms else ms ++ [(b, [] : dict string pval)]
            | None => ms
            end in
  let! refs := rmapM (fun m => parse_ref (fst m)) ms in
  let! ms := spread "density" (a_density a) ms in
  let! (ms, ps) :=
    (if eqb (a_method a) "slerp"
     then match a_weight a with [w] => Ok (ms, [("t", PNum w)]) | _ => Err AssertionError end
     else let! ms := spread "weight" (a_weight a) ms in Ok (ms, [])) in
  let ps := if a_int8_mask a then dset ps "int8_mask" (num_of_bool true) else ps in
  if a_naive_count a then Err ValidationError
  else
    let ps := dset ps "normalize" (num_of_bool (a_normalize a)) in
    let! base := match a_base a with Some b => let! r := parse_ref b in Ok (Some r) | None => Ok None end in
    let c := {| mc_modules := None; mc_slices := None;
                mc_models := Some (map (fun rm => {| im_model := fst rm; im_params := Some (snd (snd rm)) |}) (combine refs ms));
                mc_base := base; mc_params := Some ps;
                mc_dtype := if a_bf16 a then Some "bfloat16" else None; mc_out_dtype := None |} in
    let! _ := validate_config c in
    Ok (a_method a, c).

(** ** layershuffle *)
(** one source model and a range of its layers *)
Definition one_slice (m : model_ref) (lo hi : Z) : output_slice model_ref :=
  {| os_sources := [{| is_model := m; is_start := lo; is_end := hi; is_params := None |}]; os_base := None; os_params := None |}.
(** The loop over the layers (89-107); [choice i] is the model drawn for layer [i]. A slice would be joined to the previous one if its
    model were equal to [str(src_model)] (91), a string; a reference and a string are never equal. *)
Definition ref_equals_str (r : model_ref) (s : string) : bool := false.
Definition add_layer (choice : Z -> model_ref) (out : list (output_slice model_ref)) (i : Z) : list (output_slice model_ref) :=
  match rev out with
  | s :: before =>
      match os_sources s with
      | src :: _ => if ref_equals_str (is_model src) (str_ref (choice i))
                    then rev before ++ [one_slice (is_model src) (is_start src) (i + 1)]
                    else out ++ [one_slice (choice i) i (i + 1)]
      | [] => out ++ [one_slice (choice i) i (i + 1)]
      end
  | [] => out ++ [one_slice (choice i) i (i + 1)]
  end.
Definition shuffled (choice : Z -> model_ref) (n : nat) : list (output_slice model_ref) :=
  fold_left (add_layer choice) (map Z.of_nat (seq 0 n)) [].
(** the loop of --full-random before shuffling (69-85): [draw m k] is the result of the [k]-th [random.randrange(0, num_layers)] *)
Definition full_random (layers : model_ref -> Z) (draw : model_ref -> nat -> Z) (mws : list (model_ref * Q)) : list (output_slice model_ref) :=
  flat_map (fun mw => let n := Qtrunc (inject_Z (layers (fst mw)) * snd mw) in
                      map (fun k => one_slice (fst mw) (draw (fst mw) k) (draw (fst mw) k + 1)) (seq 0 (Z.to_nat n))) mws.
(** The command (53-107). [arch_info] is a [ModelArchitecture] (or None), which has no method [num_layers] (65). *)
Inductive arch_object := AnArchitecture | NoArchitecture.
Definition num_layers_of (a : arch_object) : result nat := Err AttributeError.
Definition layershuffle (arch : model_ref -> result arch_object) (choice : Z -> model_ref) (models : list string)
    : result (list (output_slice model_ref)) :=
  let! ms := rmapM parse_ref models in
  match ms with
  | [] => Err IndexError
  | m0 :: _ => let! a := arch m0 in let! n := num_layers_of a in Ok (shuffled choice n)
  end.
