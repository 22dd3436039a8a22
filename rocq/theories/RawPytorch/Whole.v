(** Model of a whole run of mergekit-pytorch (scripts/merge_raw_pytorch.py:37-72, 75-166, 253-270): opening the files, planning,
    and the saves that reach the writer.

    [disk m] is the directory the path [m] is in and [file_of m] its last component. [cast] is what [config.dtype] does to a
    tensor (nothing when it is not set) and [merge] what the task made by [make_task] computes; both may raise. The
    validation in [make_task] belongs to [merge], so that which exception ends an unsuccessful run is not modelled. *)
From Coq Require Import QArith Permutation.
From Verif.Base Require Import Py.
From Verif.Config Require Import Model.
From Verif.IO Require Import Model.
From Verif.RawPytorch Require Import Model.
Local Open Scope string_scope.
Local Open Scope list_scope.

Section Whole.
Context {T : Type}.
Variables (disk : string -> fs T) (file_of : string -> string).
Variable cast : T -> result T.
Variable merge : string -> list (string * T) -> option string -> dict string (option pval) -> tparams -> result (option T).
Variables (c : raw_config) (me : method) (union inter : bool).

(** SimpleLoaderCache.get (49-54): the loader of a path, opened once *)
Definition opened (m : string) : result index := from_file (disk m) (file_of m).
Definition the_index (m : string) : index := match opened m with Ok ix => ix | Err _ => {| ix_paths := [] |} end.

(** the loaders that are opened: those of the listed models (88-90), and with the first tensor that of the base model
    (115-119) *)
Definition prepare (order : list string) : result unit :=
  let! _ := rmapM (fun d => opened (md_model d)) (rc_models c) in
  match rc_base c, order with
  | Some b, _ :: _ => let! _ := opened b in Ok tt
  | _, _ => Ok tt
  end.

(** SimpleLoadTensor.execute (65-72) on a loader used as [hist] says *)
Definition load_cast (hist : string -> string -> list call) (tensor m : string) : result (list (string * T)) :=
  let! x := load disk the_index (hist m tensor) m tensor in
  match x with Some x => let! y := cast x in Ok [(m, y)] | None => Ok [] end.
(** TensorDictWrapper (merge_methods/base.py:18-30), the merge task and SaveTensor.execute (io/tasks.py:227-234) for one
    planned tensor; the weight is not optional *)
Definition saved (hist : string -> string -> list call) (p : planned) : result (string * T) :=
  let! ts := rmapM (load_cast hist (pl_tensor p)) (pl_inputs p) in
  let! r := merge (pl_tensor p) (concat ts) (rc_base c) (pl_global p) (pl_tparams p) in
  match r with
  | Some r => let! t := cast r in Ok (pl_tensor p, t)
  | None => Err RuntimeError
  end.

(** main (240-270): [order] is the order of the set of names, and the saves reach the writer in any order *)
Definition raw_run (hist : string -> string -> list call) (order : list string) (saves : list (string * T)) : Prop :=
  exists plan perm, prepare order = Ok tt /\ plan_flat_merge c me the_index union inter order = Ok plan /\
    Permutation perm plan /\ rmapM (saved hist) perm = Ok saves.
End Whole.
