(** Model of a merge with [options.multi_gpu]: the targets of [plan_to_disk] given to [MultiGPUExecutor] (mergekit/merge.py 71-102),
    with the calls made on the tensor writer.

    [MultiGPU] models the executor, [Run] the tasks. Here the calls of the device workers, which share one writer behind a lock
    (io/tensor_writer.py 29, 56, 66-84), interleave in any order. *)
From Verif.Base Require Import Py.
From Verif.Config Require Import Model.
From Verif.Plan Require Import Model.
From Verif.Graph Require Import Model.
From Verif.IO Require Import Model.
From Verif.MultiGPU Require Import Model.
From Verif.Run Require Import Model.
Local Open Scope string_scope.
Local Open Scope list_scope.

Section Parallel.
Context {M : Type} `{Eqb M} {T K : Type}.
Notation val := (value M T K).

(** [main_thread_only] of TensorWriterTask and FinalizeModel is true (io/tasks.py 202-203, 250-251), that of SaveTensor is
    [force_main_thread] (224-225), which the planner leaves at False (plan.py 339-356); the others inherit False (graph.py 103-110).
    [duplicate_per_gpu] of LoadTensor is [per_gpu] (140-141), which GatherTensors leaves at False (149-161); the others inherit
    False (graph.py 112-119). *)
Definition gpu_attrs (A : attrs (lbl M)) : attrs (lbl M) :=
  {| priority := priority A; group_label := group_label A; uses_accelerator := uses_accelerator A;
     main_thread_only := fun l => match l with LWriter | LFinalize => true | _ => false end;
     duplicate_per_gpu := fun _ => false |}.

Variable (E : env M T K) (A : attrs (lbl M)) (u : universe (lbl M)).
(** [None], put on the queue for results nobody needs *)
Definition none : val := VTensor None.
Definition lead ch p := lead_run (gpu_attrs A) (sem E) u ch p.
Definition worker ch p res0 tasks := worker_run (gpu_attrs A) (sem E) u ch p res0 tasks.
Definition trail ch p res1 := trail_run (gpu_attrs A) (sem E) u ch p res1.
(** the results the workers start from *)
Definition led ch p : dict nat val := dset_all [] (yields (fst (lead ch p))).

(** what the workers put on the queue, and what they do to the writer *)
Definition puts ch (chw : nat -> nat -> list nat -> nat) targets p : list (list (nat * val)) :=
  map (fun dt => map (put none targets p) (yields (fst (worker (chw (fst dt)) p (led ch p) (snd dt))))) (p_assign p).
Definition worker_acts ch (chw : nat -> nat -> list nat -> nat) p : list (list (act (T:=T))) :=
  map (fun dt => acts (fst (worker (chw (fst dt)) p (led ch p) (snd dt)))) (p_assign p).

(** saves executed by the trailing stage, with any value *)
Definition redone (evs : list (event val)) (again : list (act (T:=T))) : Prop :=
  forall a, In a again -> exists h t n o d x,
    In h (executed evs) /\ nth_error (u_tasks u) h = Some t /\ label t = LSave n o d /\ a = ASave n x.

(** [run] (multigpu_executor.py 131-205): entries left behind on the queue, result, calls on the writer. When a worker fails, the
    exception leaves the [with] block of the thread pool (167-181), which waits for the other workers to end. The trailing
    stage finalises, and saves again what it executes again; the values of those saves are left open ([redone]). *)
Inductive gpu_run (targets : list nat) (p : partition) : list (nat * val) -> result (list (nat * val)) -> list (act (T:=T)) -> Prop :=
| gpu_lead_error ch e lost :
    snd (lead ch p) = Some e -> gpu_run targets p lost (Err e) (acts (fst (lead ch p)))
| gpu_worker_error ch chw d tasks e lost cs :
    snd (lead ch p) = None ->
    In (d, tasks) (p_assign p) -> snd (worker (chw d) p (led ch p) tasks) = Some e ->
    interleaved (worker_acts ch chw p) cs ->
    gpu_run targets p lost (Err e) (acts (fst (lead ch p)) ++ cs)
| gpu_end ch chw q got lost cht cs again :
    snd (lead ch p) = None ->
    (forall d tasks, In (d, tasks) (p_assign p) -> snd (worker (chw d) p (led ch p) tasks) = None) ->
    interleaved (puts ch chw targets p) q -> q = got ++ lost ->
    interleaved (worker_acts ch chw p) cs ->
    redone (fst (trail cht p (dset_all (led ch p) got))) again ->
    gpu_run targets p lost
      (match snd (trail cht p (dset_all (led ch p) got)) with
       | Some e => Err e
       | None => Ok (filter (fun hv => mem (fst hv) targets)
                  (dset_all (dset_all (led ch p) got)
                     (filter (fun hv => mem (fst hv) targets) (yields (fst (trail cht p (dset_all (led ch p) got)))))))
       end)
      (acts (fst (lead ch p)) ++ cs ++ again ++ acts (fst (trail cht p (dset_all (led ch p) got)))).

(** the tokenizer that [run_merge] saves (merge.py 83-86): the last one reported *)
Definition found_tokenizer (ys : list (nat * val)) : option K :=
  fold_left (fun t hv => match snd hv with VTok k => Some k | _ => t end) ys None.
End Parallel.
