(** The buffered evaluation strategy of mergekit-evolve: mergekit/evo/strategy.py:104-205, with the two remote functions
    of mergekit/evo/helpers.py:50-125 as the tasks it starts.

    Ray is modelled as a table of started tasks, each pending or finished with an outcome; an object reference is an
    index into the table. A task finishes at an arbitrary moment. The asyncio actor is a state machine: its coroutines
    switch only at awaits, so [evaluate_genotype] (one append to the queue) and one stretch of the processing loop between
    two suspension points are single steps. Submissions are allowed between any two steps (the code allows them at the
    two awaits only, so this model has more behaviours). Not modelled: cancellation of futures, and Ray's own failures
    other than as failed tasks. *)
From Verif.Base Require Import Py.
Local Open Scope list_scope.

Section Strategy.
(** genotypes, merged models on disk, evaluation results *)
Context {G P R : Type}.

(** [merge_model] (helpers.py:93-111) returns a path, or None for an invalid genotype, or raises *)
Inductive merge_outcome := Merged (p : P) | Invalid | MergeFailed.
(** [evaluate_model] (helpers.py:50-88) returns scores or raises *)
Inductive eval_outcome := Scored (r : R) | EvalFailed.
Inductive task :=
| TMerge (x : G) (o : option merge_outcome)
| TEval (m : nat) (o : option eval_outcome).   (* argument: the reference of a merge task *)

Record state := {
  st_queue : list (G * nat);           (* self.input_queue: genotypes and futures *)
  st_merging : list (nat * nat);       (* reference -> future *)
  st_merged : list (nat * nat);        (* (future, reference) *)
  st_evaluating : list (nat * nat);    (* reference -> future *)
  st_tasks : list task;                (* Ray's tasks *)
  st_answers : list (nat * R);         (* futures whose result was set *)
  st_submitted : list (G * nat);       (* all requests so far *)
  st_waiting : bool;                   (* the loop is at ray.wait (else at its top) *)
  st_alive : bool;                     (* the loop is running *)
  st_shutdown : bool                   (* self._shutdown *)
}.
Definition initial : state :=
  {| st_queue := []; st_merging := []; st_merged := []; st_evaluating := []; st_tasks := []; st_answers := [];
     st_submitted := []; st_waiting := false; st_alive := true; st_shutdown := false |}.

(** strategy.py:147-156: while there are requests and fewer than [n] merges, start a merge for the oldest *)
Fixpoint start_merges (n : nat) (queue : list (G * nat)) (merging : list (nat * nat)) (held : nat) (tasks : list task)
  : list (G * nat) * list (nat * nat) * list task :=
  match queue with
  | (x, f) :: queue' =>
      if Nat.ltb (List.length merging + held) n
      then start_merges n queue' (merging ++ [(List.length tasks, f)]) held (tasks ++ [TMerge x None])
      else (queue, merging, tasks)
  | [] => (queue, merging, tasks)
  end.
(** strategy.py:158-176: while there are merged models and fewer than [n] evaluations, evaluate the newest.
    [merged] is given newest first. *)
Fixpoint start_evals (n : nat) (merged : list (nat * nat)) (evaluating : list (nat * nat)) (tasks : list task)
  : list (nat * nat) * list (nat * nat) * list task :=
  match merged with
  | (f, m) :: merged' =>
      if Nat.ltb (List.length evaluating) n
      then start_evals n merged' (evaluating ++ [(List.length tasks, f)]) (tasks ++ [TEval m None])
      else (merged, evaluating, tasks)
  | [] => (merged, evaluating, tasks)
  end.
(** strategy.py:147-176 *)
Definition fill (n : nat) (s : state) : state :=
  let '(queue, merging, tasks) := start_merges n (st_queue s) (st_merging s) (List.length (st_merged s)) (st_tasks s) in
  let '(rest, evaluating, tasks) := start_evals n (rev (st_merged s)) (st_evaluating s) tasks in
  {| st_queue := queue; st_merging := merging; st_merged := rev rest; st_evaluating := evaluating; st_tasks := tasks;
     st_answers := st_answers s; st_submitted := st_submitted s; st_waiting := true; st_alive := st_alive s;
     st_shutdown := st_shutdown s |}.

(** a task is finished *)
Definition finished (t : task) : bool :=
  match t with TMerge _ (Some _) | TEval _ (Some _) => true | _ => false end.
Definition ready (s : state) (r : nat) : bool :=
  match nth_error (st_tasks s) r with Some t => finished t | None => false end.
Definition outcome_of (s : state) (r : nat) : option eval_outcome :=
  match nth_error (st_tasks s) r with Some (TEval _ o) => o | _ => None end.

(** strategy.py:184-190 for one ready reference, or none after the timeout. [await r] raises if the task failed:
    the loop ends (201-203). *)
Definition process (r : option nat) (s : state) : state :=
  let back (mg md ev : list (nat * nat)) (an : list (nat * R)) (alive : bool) :=
    {| st_queue := st_queue s; st_merging := mg; st_merged := md; st_evaluating := ev; st_tasks := st_tasks s;
       st_answers := an; st_submitted := st_submitted s; st_waiting := false; st_alive := alive; st_shutdown := st_shutdown s |} in
  match r with
  | None => back (st_merging s) (st_merged s) (st_evaluating s) (st_answers s) true
  | Some r =>
      match dget (st_merging s) r with
      | Some f => back (ddel (st_merging s) r) (st_merged s ++ [(f, r)]) (st_evaluating s) (st_answers s) true
      | None =>
          match dget (st_evaluating s) r with
          | Some f =>
              match outcome_of s r with
              | Some (Scored v) => back (st_merging s) (st_merged s) (ddel (st_evaluating s) r) (st_answers s ++ [(f, v)]) true
              | _ => back (st_merging s) (st_merged s) (ddel (st_evaluating s) r) (st_answers s) false
              end
          | None => back (st_merging s) (st_merged s) (st_evaluating s) (st_answers s) true
          end
      end
  end.

(** strategy.py:133-136 *)
Definition submit (x : G) (f : nat) (s : state) : state :=
  {| st_queue := st_queue s ++ [(x, f)]; st_merging := st_merging s; st_merged := st_merged s; st_evaluating := st_evaluating s;
     st_tasks := st_tasks s; st_answers := st_answers s; st_submitted := st_submitted s ++ [(x, f)]; st_waiting := st_waiting s;
     st_alive := st_alive s; st_shutdown := st_shutdown s |}.
(** strategy.py:204-205, and the loop condition at 146 *)
Definition set_flags (shutdown alive : bool) (s : state) : state :=
  {| st_queue := st_queue s; st_merging := st_merging s; st_merged := st_merged s; st_evaluating := st_evaluating s;
     st_tasks := st_tasks s; st_answers := st_answers s; st_submitted := st_submitted s; st_waiting := st_waiting s;
     st_alive := alive; st_shutdown := shutdown |}.
Definition set_tasks (tasks : list task) (s : state) : state :=
  {| st_queue := st_queue s; st_merging := st_merging s; st_merged := st_merged s; st_evaluating := st_evaluating s;
     st_tasks := tasks; st_answers := st_answers s; st_submitted := st_submitted s; st_waiting := st_waiting s;
     st_alive := st_alive s; st_shutdown := st_shutdown s |}.

(** How tasks may end. A merge of [x] ends as [merges x o] allows. An evaluation waits for its merge; Ray fails it if the
    merge failed, and evaluating the path None raises (the model cannot be loaded, and [shutil.rmtree(None)] in the
    finally clause, helpers.py:87-88, raises as well). *)
Variables (merges : G -> merge_outcome -> Prop) (evals : P -> eval_outcome -> Prop).
Inductive ends (tasks : list task) : task -> task -> Prop :=
| ends_merge x o : merges x o -> ends tasks (TMerge x None) (TMerge x (Some o))
| ends_eval m x p o : nth_error tasks m = Some (TMerge x (Some (Merged p))) -> evals p o -> ends tasks (TEval m None) (TEval m (Some o))
| ends_eval_fail m x o : nth_error tasks m = Some (TMerge x (Some o)) -> (forall p, o <> Merged p) ->
    ends tasks (TEval m None) (TEval m (Some EvalFailed)).

Definition held_refs (s : state) : list nat := map fst (st_merging s) ++ map fst (st_evaluating s).

Variable n : nat.   (* self.num_gpus *)
Inductive label := LSubmit | LFinish | LFill | LWait | LShutdown | LExit.
Inductive step : label -> state -> state -> Prop :=
| step_submit x f s : ~ In f (map snd (st_submitted s)) -> step LSubmit s (submit x f s)
| step_finish r t t' a b s : st_tasks s = a ++ t :: b -> List.length a = r -> ends (st_tasks s) t t' ->
    step LFinish s (set_tasks (a ++ t' :: b) s)
| step_fill s : st_alive s = true -> st_waiting s = false -> st_shutdown s = false -> step LFill s (fill n s)
| step_wait_none s : st_alive s = true -> st_waiting s = true ->
    (forall r, In r (held_refs s) -> ready s r = false) -> step LWait s (process None s)
| step_wait_some r s : st_alive s = true -> st_waiting s = true -> In r (held_refs s) -> ready s r = true ->
    step LWait s (process (Some r) s)
| step_shutdown s : step LShutdown s (set_flags true (st_alive s) s)
| step_exit s : st_alive s = true -> st_waiting s = false -> st_shutdown s = true -> step LExit s (set_flags true false s).

Inductive steps : state -> state -> Prop :=
| steps_refl s : steps s s
| steps_step s s' s'' l : steps s s' -> step l s' s'' -> steps s s''.
Definition reachable (s : state) : Prop := steps initial s.
End Strategy.
Arguments state : clear implicits.
Arguments merge_outcome : clear implicits.
Arguments eval_outcome : clear implicits.
