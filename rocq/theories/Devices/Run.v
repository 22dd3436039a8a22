(** Model of a merge run (Run/Model.v) with tensors on devices: [LoadTensor] reads to a device (mergekit/io/tasks.py 94-126),
    the executor moves arguments and results (mergekit/graph.py 467-485), the tasks are what they are. *)
From Verif.Base Require Import Py.
From Verif.Graph Require Import Model.
From Verif.Run Require Import Model.
From Verif.Devices Require Import Model.
Local Open Scope list_scope.

Section PlacedRun.
Context {M : Type} `{Eqb M} {T K : Type}.
(** [E]: what reading a tensor gives; [E']: what the other tasks do with tensors on devices *)
Variable E : env M T K.
Variable E' : env M (device * T) K.
Definition moved (cur : string -> nat) (n : dname) (x : device * T) : device * T := if eqb (device_of (fst x)) n then x else (resolve cur n, snd x).
(** [_move_tensors] on the values of these tasks: tensors and dictionaries of tensors; the tokenizer information and the writer are
    other objects, and saving returns [None] *)
Definition move_value (cur : string -> nat) (n : dname) (v : value M (device * T) K) : value M (device * T) K :=
  match v with
  | VTensor (Some x) => VTensor (Some (moved cur n x))
  | VTensors d => VTensors (map (fun mx => (fst mx, moved cur n (snd mx))) d)
  | _ => v
  end.
(** [device=self.device or "cpu"] is [read] *)
Definition exec_on (cur : string -> nat) (read : dname) (l : lbl M) (args : list (string * value M (device * T) K)) : result (value M (device * T) K) :=
  match l with
  | LLoad m tensor dtype optional aliases tied =>
      let! v := exec_load E l m tensor dtype optional aliases tied in
      match v with VTensor x => Ok (VTensor (option_map (fun y => (resolve cur read, y)) x)) | _ => Err TypeError end
  | _ => exec E' l args
  end.
Definition sem_on (cur : string -> nat) (read math store : dname) : semantics (lbl M) (value M (device * T) K) :=
  {| execute := exec_on cur read; to_math := move_value cur math; to_store := move_value cur store |}.
Definition run_on (cur : string -> nat) (read math store : dname) (A : attrs (lbl M)) (choose : nat -> list nat -> nat) (targets : list (task (lbl M)))
  : list (event (value M (device * T) K)) * option exn := snd (executor_run_tasks A (sem_on cur read math store) choose targets).
End PlacedRun.
