(** Model of a whole run of mergekit/scripts/extract_lora.py: the tensors of the adapter file (276-303, 477-546), the file
    (357-364) and what loading the adapter makes of the base model.

    Weights and biases are matrices over the reals (a bias is one row). [base_get] and [model_get] are the two models' LoadTensor
    tasks: [Ok None] for an optional tensor that is missing. [torch]'s broadcasting is not modelled: shapes that differ
    raise. The tasks run in some order; which exception ends an unsuccessful run depends on it. *)
From Coq Require Import Reals.
From Verif.Base Require Import LinAlg Py.
From Verif.ExtractLora Require Import Model Spec.
Local Open Scope string_scope.
Local Open Scope list_scope.

Record extract_opts := { eo_max_rank : nat; eo_distribute : bool; eo_eps : R }.
Definition dtask_of (eo : extract_opts) (transpose : bool) : dtask :=
  {| dt_max_rank := eo_max_rank eo; dt_distribute := eo_distribute eo; dt_transpose := transpose; dt_eps := eo_eps eo |}.

(** names in the adapter file (294-303, 515-516, 537, 547) *)
Definition out_name (module suffix : string) : string := ("base_model.model." ++ module ++ suffix)%string.
Definition a_suffix (transpose : bool) : string := if transpose then ".lora_embedding_A" else ".lora_A.weight".
Definition b_suffix (transpose : bool) : string := if transpose then ".lora_embedding_B" else ".lora_B.weight".

Section Extract.
Variable svd : mat -> mat * (nat -> R) * mat.
Variables base_get model_get : string -> result (option mat).
Variable eo : extract_opts.

(** TaskVectorTask.execute (267-268) on what was loaded: [None - x] and [x - None] raise *)
Definition load_vector (name : string) : result mat :=
  let! b := base_get name in
  let! m := model_get name in
  match b, m with
  | Some b, Some m => if Nat.eqb (rows b) (rows m) && Nat.eqb (cols b) (cols m) then Ok (task_vector b m) else Err RuntimeError
  | _, _ => Err TypeError
  end.
(** SaveTensor of a loaded tensor (io/tasks.py): an optional one may be missing *)
Definition save_loaded (out name : string) : result (list (string * mat)) :=
  let! t := model_get name in
  Ok match t with Some t => [(out, t)] | None => [] end.

(** what an action adds to the file (plan_lora_module, LoRAModuleSaveTask, plan_module_to_save), and its decomposition *)
Definition extract_action (a : action) : result (list (string * mat) * list (string * (mat * mat))) :=
  match a with
  | ALora n tp bias =>
      let! tv := load_vector (n ++ ".weight")%string in
      let ab := decompose svd (dtask_of eo tp) tv in
      let! bias := if bias then let! d := load_vector (n ++ ".bias")%string in Ok [(out_name n ".lora_B.bias", d)] else Ok [] in
      Ok ((out_name n (a_suffix tp), fst ab) :: (out_name n (b_suffix tp), snd ab) :: bias, [(n, ab)])
  | AFull n bias =>
      let! w := save_loaded (out_name n ".weight") (n ++ ".weight")%string in
      let! b := if bias then save_loaded (out_name n ".bias") (n ++ ".bias")%string else Ok [] in
      Ok (w ++ b, [])
  end.
(** all of them, in the order of the plan: the saves and the decompositions *)
Definition extract (acts : list action) : result (list (string * mat) * list (string * (mat * mat))) :=
  let! l := rmapM extract_action acts in
  Ok (concat (map fst l), concat (map snd l)).
End Extract.

(** * What a loader of adapters does with the result: a module listed in [modules_to_save], by name or by the last part of its
      name, takes the saved weight; another module whose last part is a target is changed by (alpha/r) B A, transposed for an
      embedding; a module the file has nothing for stays as it is *)
Definition madd (a : mat) (k : R) (b : mat) : mat := {| rows := rows a; cols := cols a; at_ := fun i j => (at_ a i j + k * at_ b i j)%R |}.
Definition with_adapter (c : adapter_config) (file : dict string mat) (embedding : bool) (n : string) (base : mat) : mat :=
  if mem n (ac_modules_to_save c) || mem (last_part n) (ac_modules_to_save c) then
    match dget file (out_name n ".weight") with Some t => t | None => base end
  else if mem (last_part n) (ac_targets c) then
    match dget file (out_name n (a_suffix embedding)), dget file (out_name n (b_suffix embedding)) with
    | Some a, Some b => let p := mmul b a in
                        madd base (INR (peft_alpha c n) / INR (peft_rank c n)) (if embedding then tr p else p)
    | _, _ => base
    end
  else base.
