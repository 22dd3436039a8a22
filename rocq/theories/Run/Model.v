(** Model of a whole merge run: the tasks of mergekit/io/tasks.py, the task graph built by [plan_to_disk] and
    [plan_in_memory] (plan.py:333-375) and the executor loop of [run_merge] (merge.py:71-102).

    This joins the planner ([Plan]), the executor ([Graph]), the tensor loader and the tensor writer ([IO]).
    Abstract here: the merge method ([e_method]), the embedding permutation and the tokenizer ([e_permute],
    [e_tokenizer]), the checkpoint conversion ([e_convert]) and dtype casts ([e_cast]); each is any function that may
    raise. Not modelled: devices, [clone], and failures of the writer itself (C17_failed_write, C19). *)
From Coq Require Import QArith.
From Verif.Base Require Import Py PyStr.
From Verif.Config Require Import Model.
From Verif.Arch Require Import Model.
From Verif.Plan Require Import Model.
From Verif.Graph Require Import Model.
From Verif.IO Require Import Model.
Local Open Scope string_scope.
Local Open Scope list_scope.

(** ** Equality of task fields (pydantic [__eq__]; [ImmutableMap]s are compared with their order here; the code compares
    them by identity, so it may run a task again where the model runs it once, with the same value) *)
Definition Eqb_of_dec {A} (d : forall x y : A, {x = y} + {x <> y}) : Eqb A.
Proof.
  refine {| eqb := fun x y => if d x y then true else false |}.
  intros x y. destruct (d x y); split; congruence.
Defined.
Definition dec_of {A} `{Eqb A} (x y : A) : {x = y} + {x <> y}.
Proof.
  destruct (eqb x y) eqn:E; [left|right].
  - now apply eqb_iff.
  - intros ->. assert (eqb y y = true) by now apply eqb_iff. congruence.
Defined.
Definition opt_dec {A} (d : forall x y : A, {x = y} + {x <> y}) (x y : option A) : {x = y} + {x <> y}.
Proof. decide equality. Defined.
Definition pair_dec {A B} (d : forall x y : A, {x = y} + {x <> y}) (d' : forall x y : B, {x = y} + {x <> y})
  (x y : A * B) : {x = y} + {x <> y}.
Proof. decide equality. Defined.
Definition Q_dec (x y : Q) : {x = y} + {x <> y}.
Proof. decide equality; [apply Pos.eq_dec|apply Z.eq_dec]. Defined.
Fixpoint pval_dec (x y : pval) {struct x} : {x = y} + {x <> y}.
Proof.
  decide equality; [apply Q_dec|apply string_dec|apply opt_dec, string_dec|apply (list_eq_dec pval_dec)].
Defined.
Definition strs_dec := opt_dec (list_eq_dec string_dec).
Definition weight_dec (x y : weight_info) : {x = y} + {x <> y}.
Proof. decide equality; try apply strs_dec; try apply opt_dec; try apply string_dec; apply Bool.bool_dec. Defined.

Section Run.
Context {M : Type} `{Eqb M} {T K : Type}.

(** ** Tasks. The fields of a task that are tasks themselves are its arguments. *)
Inductive lbl :=
| LLoad (m : M) (tensor : string) (dtype : option string) (optional : bool) (aliases tied : option (list string))
| LGather (g : dict M weight_info) (dtype : option string)
| LTokenizer
| LPermute (base : option M)
| LMerge (t : merge_task M)
| LWriter
| LSave (name : string) (optional : bool) (dtype : option string)
| LFinalize
| LReturn (w : weight_info) (dtype : option string).

Definition task_dec (x y : merge_task M) : {x = y} + {x <> y}.
Proof.
  decide equality; try apply opt_dec; try apply (list_eq_dec (pair_dec _ _)); try apply string_dec; try apply dec_of;
    try apply Bool.bool_dec; try apply weight_dec.
  - apply list_eq_dec, pair_dec; [apply dec_of|apply list_eq_dec, pair_dec; [apply string_dec|apply pval_dec]].
  - apply list_eq_dec, pair_dec; [apply string_dec|apply pval_dec].
  - apply list_eq_dec, pair_dec; [apply dec_of|apply weight_dec].
Defined.
Definition lbl_dec (x y : lbl) : {x = y} + {x <> y}.
Proof.
  decide equality; try apply strs_dec; try apply opt_dec; try apply string_dec; try apply dec_of;
    try apply Bool.bool_dec; try apply weight_dec; try apply task_dec.
  apply list_eq_dec, pair_dec; [apply dec_of|apply weight_dec].
Defined.
#[export] Instance Eqb_lbl : Eqb lbl := Eqb_of_dec lbl_dec.

(** ** The environment of a run *)
Record env := {
  e_str : M -> string;                       (* str(ModelReference) *)
  e_dir : M -> fs T;                         (* the directory of the model, LoRA already merged *)
  e_hist : lbl -> list call;                 (* what was read from the model's loader before this task *)
  e_convert : M -> string -> result (option T); (* convert_checkpoint_tensors(model_type, source_tensors, target) *)
  e_cast : string -> T -> result T;          (* x.to(dtype=dtype_from_name(name)) *)
  e_method : merge_task M -> dict M T -> result (option T);   (* execute of the merge method's task *)
  e_tokenizer : result K;                    (* BuildTokenizer.execute *)
  e_permute : option M -> K -> dict M T -> result (dict M T)  (* PermutedEmbeddings.execute *)
}.
Variable E : env.

(** [a or b] on optional strings *)
Definition or_str (a b : option string) : option string :=
  match a with Some s => if eqb s "" then b else a | None => b end.
Definition names_of (o : option (list string)) : list string := match o with Some l => l | None => [] end.

(** GatherTensors.arguments (tasks.py:149-161) *)
Definition arg_key (mw : M * weight_info) : string := (e_str E (fst mw) ++ ":" ++ wi_name (snd mw))%string.
Definition load_task (dtype : option string) (mw : M * weight_info) : task lbl :=
  let w := snd mw in
  Node (LLoad (fst mw) (wi_name w) (or_str (wi_dtype w) dtype) (wi_optional w) (wi_aliases w) (wi_tied w)) [].
Definition gather_task (g : dict M weight_info) (dtype : option string) : task lbl :=
  Node (LGather g dtype) (dict_of (map (fun mw => (arg_key mw, load_task dtype mw)) g)).

(** BuildTokenizer has no arguments; PermutedEmbeddings.arguments (embed.py:27-28) *)
Definition tokenizer_task : task lbl := Node LTokenizer [].
Definition input_task (t : merge_task M) : task lbl :=
  let g := gather_task (mt_gather t) (mt_dtype t) in
  if mt_permuted t then Node (LPermute (mt_base t)) [("tokenizer_info", tokenizer_task); ("tensors", g)] else g.
(** the method's task: [arguments] is [{"tensors": ...}] in every method (e.g. linear.py:29-30) *)
Definition merge_node (t : merge_task M) : task lbl := Node (LMerge t) [("tensors", input_task t)].

(** plan_to_disk (plan.py:333-363), SaveTensor.arguments (tasks.py:215-216),
    FinalizeModel.arguments (tasks.py:241-245) *)
Definition writer_task : task lbl := Node LWriter [].
Definition save_node (s : save_task M) : task lbl :=
  Node (LSave (sv_name s) (sv_optional s) (sv_dtype s))
       [("writer", writer_task); ("tensor", merge_node (sv_task s))].
Definition unused (i : nat) : string := ("_unused_" ++ str_of_Z (Z.of_nat i))%string.
Definition finalize_node (saves : list (task lbl)) : task lbl :=
  Node LFinalize (("writer", writer_task) :: map (fun it => (unused (fst it), snd it)) (enumerate_from 0 saves)).
Definition disk_targets (tokenizer : bool) (saves : list (save_task M)) : list (task lbl) :=
  let ss := map save_node saves in
  ss ++ [finalize_node ss] ++ (if tokenizer then [tokenizer_task] else []).

(** plan_in_memory (plan.py:365-375) *)
Definition return_node (s : save_task M) : task lbl :=
  Node (LReturn (mt_weight (sv_task s)) (sv_dtype s)) [("tensor", merge_node (sv_task s))].
Definition memory_targets (saves : list (save_task M)) : list (task lbl) := map return_node saves.

(** ** Values. [SaveTensor] and [FinalizeModel] return [None]; the model records what they did to the writer. *)
Inductive value :=
| VTensor (x : option T)
| VTensors (d : dict M T)
| VTok (k : K)
| VWriter
| VSaved (name : string) (x : option T)
| VFinalized.

Definition cast (dtype : option string) (x : T) : result T :=
  match dtype with Some d => if eqb d "" then Ok x else e_cast E d x | None => Ok x end.

(** the first target whose conversion gives a tensor (tasks.py:94-108) *)
Fixpoint converted (m : M) (targets : list string) : result (option T) :=
  match targets with
  | [] => Ok None
  | t :: r => let! o := e_convert E m t in match o with Some x => Ok (Some x) | None => converted m r end
  end.

(** LoadTensor._resolve_name and execute (tasks.py:85-92, 110-126) *)
Definition exec_load (l : lbl) (m : M) (tensor : string) (dtype : option string) (optional : bool)
    (aliases tied : option (list string)) : result value :=
  let! ix := from_disk (e_dir E m) in
  let! x := match find (fun n => dmem (ix_paths ix) n) (tensor :: names_of aliases ++ names_of tied) with
            | Some n => if eqb n "" then converted m (tensor :: names_of aliases)
                        else snd (get_tensor (e_dir E m) ix (after (e_dir E m) ix (e_hist E l)) n [] true)
            | None => converted m (tensor :: names_of aliases)
            end in
  match x with
  | None => if optional then Ok (VTensor None) else Err RuntimeError
  | Some x => let! y := cast dtype x in Ok (VTensor (Some y))
  end.

(** GatherTensors.execute (tasks.py:169-175) *)
Definition exec_gather (g : dict M weight_info) (args : list (string * value)) : result value :=
  let key2model := dict_of (map (fun mw => (arg_key mw, fst mw)) g) in
  let! kvs := rmapM (fun km => match dget args (fst km) with
                               | Some (VTensor x) => Ok (snd km, x)
                               | Some _ => Err TypeError
                               | None => Err KeyError
                               end) key2model in
  Ok (VTensors (dict_of (flat_map (fun mx => match snd mx with Some x => [(fst mx, x)] | None => [] end) kvs))).

(** SaveTensor.execute (tasks.py:227-234), ReturnTensor.execute (268-271) *)
Definition exec_save (name : string) (optional : bool) (dtype : option string) (x : option T) : result value :=
  match x with
  | None => if optional then Ok (VSaved name None) else Err RuntimeError
  | Some x => let! y := cast dtype x in Ok (VSaved name (Some y))
  end.
Definition exec_return (dtype : option string) (x : option T) : result value :=
  match x, dtype with
  | Some x, _ => let! y := cast dtype x in Ok (VTensor (Some y))
  | None, Some d => if eqb d "" then Ok (VTensor None) else Err AttributeError   (* None.dtype *)
  | None, None => Ok (VTensor None)
  end.

Definition exec (l : lbl) (args : list (string * value)) : result value :=
  match l with
  | LLoad m tensor dtype optional aliases tied => exec_load l m tensor dtype optional aliases tied
  | LGather g _ => exec_gather g args
  | LTokenizer => let! k := e_tokenizer E in Ok (VTok k)
  | LPermute base =>
      match dget args "tokenizer_info", dget args "tensors" with
      | Some (VTok k), Some (VTensors d) => let! d' := e_permute E base k d in Ok (VTensors d')
      | _, _ => Err TypeError
      end
  | LMerge t =>
      match dget args "tensors" with
      | Some (VTensors d) => let! x := e_method E t d in Ok (VTensor x)
      | _ => Err TypeError
      end
  | LWriter => Ok VWriter
  | LSave name optional dtype =>
      match dget args "writer", dget args "tensor" with
      | Some VWriter, Some (VTensor x) => exec_save name optional dtype x
      | _, _ => Err TypeError
      end
  | LFinalize => match dget args "writer" with Some VWriter => Ok VFinalized | _ => Err TypeError end
  | LReturn _ dtype => match dget args "tensor" with Some (VTensor x) => exec_return dtype x | _ => Err TypeError end
  end.

(** moving values between devices does not change them *)
Definition sem : semantics lbl value := {| execute := exec; to_math := fun v => v; to_store := fun v => v |}.

(** ** The run (merge.py:71-102): plan, then the executor over all targets *)
Definition run (A : attrs lbl) (choose : nat -> list nat -> nat) (targets : list (task lbl))
  : list (event value) * option exn := snd (executor_run_tasks A sem choose targets).

(** the calls made on the writer, in the order the tasks ran. Every save task and the finalize task is a target of
    the run, so each one that completes is reported. *)
Inductive act := ASave (n : string) (t : T) | AFinalize.
Definition acts_of (v : value) : list act :=
  match v with VSaved n (Some t) => [ASave n t] | VFinalized => [AFinalize] | _ => [] end.
Definition acts (evs : list (event value)) : list act := flat_map (fun hv => acts_of (snd hv)) (yields evs).

(** what those calls do to the output directory, writing synchronously *)
Definition job_ops (j : option (string * content T)) : list (op T) :=
  match j with Some x => write_file (fst x) (snd x) | None => [] end.
Fixpoint ops_of (nbytes : T -> nat) (w : writer T) (l : list act) : list (op T) :=
  match l with
  | [] => []
  | ASave n t :: r => let (w', j) := save_tensor nbytes w n t in job_ops j ++ ops_of nbytes w' r
  | AFinalize :: r => let (w', j) := flush w in job_ops j ++ finalize_ops w' ++ ops_of nbytes w' r
  end.

(** what was returned in memory *)
Definition returned (evs : list (event value)) : list (option T) :=
  flat_map (fun hv => match snd hv with VTensor x => [x] | _ => [] end) (yields evs).
End Run.
Arguments lbl : clear implicits. Arguments env M T K : clear implicits. Arguments value : clear implicits.
