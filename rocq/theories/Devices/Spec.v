(** Vocabulary for C85. *)
From Verif.Base Require Import Py.
From Verif.Graph Require Import Model.
From Verif.Devices Require Import Model.
Local Open Scope list_scope.

Section Spec.
Context {K T O : Type}.
Notation pval := (pval K T O).
(** all tensors in a value are on device [d] *)
Inductive on (d : device) : pval -> Prop :=
| on_tensor x : on d (PTensor d x)
| on_dict l : (forall k v, In (k, v) l -> on d v) -> on d (PDict l)
| on_list l : (forall v, In v l -> on d v) -> on d (PList l)
| on_tuple l : (forall v, In v l -> on d v) -> on d (PTuple l)
| on_other o : on d (POther o).
Definition all_on (d : device) (args : list (string * pval)) : Prop := forall k v, In (k, v) args -> on d v.
(** the value has no tensors *)
Definition bare (v : pval) : Prop := forall d, on d v.
(** the same value with all tensors on the CPU: what is left of it if devices are not looked at *)
Fixpoint content (v : pval) : pval :=
  match v with
  | PTensor _ x => PTensor Cpu x
  | PDict l => PDict (map (fun kv => (fst kv, content (snd kv))) l)
  | PList l => PList (map content l)
  | PTuple l => PTuple (map content l)
  | POther o => POther o
  end.
Definition contents (args : list (string * pval)) : list (string * pval) := map (fun kv => (fst kv, content (snd kv))) args.

Context {L : Type}.
Notation exec := (L -> list (string * pval) -> result pval).
(** given arguments on one device, whichever it is, a task does what [pure] does *)
Definition portable (e pure : exec) : Prop := forall l args d, all_on d args -> rmap content (e l args) = pure l (contents args).
(** the task does what [pure] does wherever its arguments are *)
Definition indifferent (e pure : exec) (l : L) : Prop := forall args, rmap content (e l args) = pure l (contents args).
(** an executor that never moves anything *)
Definition in_place (e : exec) : semantics L pval := {| execute := e; to_math := fun v => v; to_store := fun v => v |}.
End Spec.
(** events with their values changed *)
Definition event_map {V W} (f : V -> W) (e : event V) : event W :=
  match e with EExec h => EExec h | EYield h v => EYield h (f v) | EKeep ks => EKeep ks end.
