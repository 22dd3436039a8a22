(** Properties of the serial executor (mergekit/graph.py): C01-C05. *)
From Verif.Base Require Import Py PyFacts.
From Verif.Graph Require Import Model Spec UniverseProofs TopoProofs ScheduleProofs ExecProofs Proofs Examples.

(** C01. [Executor(tasks).run()]: everything yielded is the recursive value of a target; no target is yielded
    twice; a run that ends normally yielded every target; a run that ends with an exception ends with the
    exception some needed task's own code raised; when every target has a value the run ends normally.
    [choose] (set iteration order), priorities, group labels are arbitrary. *)
Theorem C01_serial_execution_value :
  forall {L V} `{Eqb L} (A : attrs L) (S : semantics L V) choose ts, Forall wf_task ts ->
  let r := executor_run_tasks A S choose ts in
  let u := fst r in let evs := fst (snd r) in let st := snd (snd r) in
  (forall h v, In (h, v) (yields evs) -> exists t, names u h t /\ In t ts /\ eval A S no_env t = Ok v) /\
  NoDup (map fst (yields evs)) /\
  (st = None -> forall t, In t ts -> exists h v, names u h t /\ In (h, v) (yields evs)) /\
  (forall e, st = Some e -> exists t t', In t ts /\ needs (fun _ => False) t t' /\ raises A S no_env t' e) /\
  ((forall t, In t ts -> exists v, eval A S no_env t = Ok v) -> st = None).
Proof. exact @run_tasks_spec. Qed.
Print Assumptions C01_serial_execution_value.

Example C01_nonvacuous_ok :
  yields (fst (snd (executor_run_tasks ex_attrs ex_sem last_choice [top; leaf; mid]))) = [(2, 1%Z); (1, 12%Z); (0, 2113%Z)]
  /\ eval ex_attrs ex_sem no_env top = Ok 2113%Z.
Proof. vm_compute. auto. Qed.
Example C01_nonvacuous_error :
  snd (snd (executor_run_tasks ex_attrs ex_sem first_choice [leaf; badt])) = Some (TaskError 7).
Proof. vm_compute. auto. Qed.
Lemma ex_wf : Forall wf_task [top; leaf; mid; badt; user; hi; lo].
Proof.
  repeat (constructor; cbn; try tauto; try (intros; intuition congruence));
  intros; repeat match goal with H : _ \/ _ |- _ => destruct H | H : (_, _) = (_, _) |- _ => injection H as <- <- | H : False |- _ => destruct H end;
  repeat (constructor; cbn; try tauto; try (intros; intuition congruence));
  intros; repeat match goal with H : _ \/ _ |- _ => destruct H | H : (_, _) = (_, _) |- _ => injection H as <- <- | H : False |- _ => destruct H end;
  repeat (constructor; cbn; try tauto).
Qed.

(** Hypotheses shared by the handle-level theorems: the universe was built by the program, targets and
    cached keys are handles of it, [env] is the cache seen by task. *)
Definition hyps {L V} `{Eqb L} (u : universe L) (targets : list nat) (cached : dict nat V)
  (env : task L -> option V) : Prop :=
  built u /\ (forall h, In h targets -> exists t, names u h t) /\
  (forall h, In h (dkeys cached) -> exists t, names u h t) /\ NoDup (dkeys cached) /\
  env_matches u cached env.

Lemma hyps_good {L V} `{Eqb L} (u : universe L) targets (cached : dict nat V) env :
  hyps u targets cached env -> good u targets cached env.
Proof. intros (H1 & H2 & H3 & H4 & H5). now apply built_good. Qed.

(** a task is needed when some target requires it without passing through a cached task *)
Definition required {L V} (u : universe L) (targets : list nat) (env : task L -> option V) (t : task L) : Prop :=
  exists ht tt, In ht targets /\ names u ht tt /\ needs (fun x => env x <> None) tt t.

(** C02. Each needed task executes exactly once, nothing else does, and only after its uncached dependencies. *)
Theorem C02_exactly_once_after_dependencies :
  forall {L V} `{Eqb L} (A : attrs L) (S : semantics L V) choose u targets (cached : dict nat V) env,
  hyps u targets cached env ->
  let evs := fst (executor_run A S choose u targets cached) in
  let st := snd (executor_run A S choose u targets cached) in
  NoDup (executed evs) /\
  (forall h, In h (executed evs) -> exists t, names u h t /\ required u targets env t) /\
  (st = None -> forall h t, names u h t -> required u targets env t -> In h (executed evs)) /\
  (forall l1 h l2 d, executed evs = l1 ++ h :: l2 -> depends u h d -> In d (dkeys cached) \/ In d l1).
Proof.
  exact (fun L V _ A S choose u targets cached env HH =>
    let G := hyps_good u targets cached env HH in
    conj (run_executed_once A S choose u targets cached env G)
    (conj (fun h Hin => match lt_names u h (executed_lt A S choose u targets cached env G h Hin) with
                        | ex_intro _ t Hn => ex_intro _ t (conj Hn (run_executed_needed A S choose u targets cached env G h t Hn Hin))
                        end)
    (conj (fun Est h t => run_needed_executed A S choose u targets cached env G h t Est)
          (run_executed_order A S choose u targets cached env G)))).
Qed.
Print Assumptions C02_exactly_once_after_dependencies.

Definition ex_env : task (string * Z) -> option Z := fun t => if eqb t mid then Some 50%Z else None.
Example C02_nonvacuous : hyps ex_u [0; 2] [(1, 50%Z)] ex_env /\
  fst (executor_run ex_attrs ex_sem last_choice ex_u [0; 2] [(1, 50%Z)]) =
    [EExec 2; EYield 2 1%Z; EKeep [1; 2]; EExec 0; EYield 0 2151%Z; EKeep []].
Proof.
  split; [|reflexivity]. split; [|split; [|split; [|split]]].
  - exists [top; leaf]. split; [|reflexivity]. pose proof ex_wf as HW. inversion HW as [|? ? H1 H2]. inversion H2. auto.
  - intros h [<-|[<-|[]]]; eexists; reflexivity.
  - intros h [<-|[]]. eexists; reflexivity.
  - repeat constructor. intros [].
  - intros [|[|[|h]]] t; unfold names; cbn; try (intros [= <-]; reflexivity). destruct h; discriminate.
Qed.

(** C03. A run never fails because an argument value is missing (the only exceptions are raised by task
    bodies), and after each step exactly the computed values some later task wants are resident, plus the
    supplied values that are wanted later or never wanted at all. *)
Theorem C03_eviction_safe_and_prompt :
  forall {L V} `{Eqb L} (A : attrs L) (S : semantics L V) choose u targets (cached : dict nat V) env,
  hyps u targets cached env ->
  let evs := fst (executor_run A S choose u targets cached) in
  let st := snd (executor_run A S choose u targets cached) in
  (forall e, st = Some e -> exists t, required u targets env t /\ raises A S env t e) /\
  (st = None ->
     length (keeps evs) = length (executed evs) /\
     forall i ks, nth_error (keeps evs) i = Some ks ->
       NoDup ks /\ forall k, In k ks <->
         resident u (dkeys cached) (firstn (Datatypes.S i) (executed evs)) (skipn (Datatypes.S i) (executed evs)) k).
Proof.
  exact (fun L V _ A S choose u targets cached env HH =>
    let G := hyps_good u targets cached env HH in
    conj (run_error A S choose u targets cached env G) (run_keeps A S choose u targets cached env G)).
Qed.
Print Assumptions C03_eviction_safe_and_prompt.
Example C03_nonvacuous : keeps (fst (executor_run ex_attrs ex_sem first_choice ex_u [0] ([] : dict nat Z))) = [[2]; [2; 1]; []].
Proof. reflexivity. Qed.

(** C04, true part. Cached tasks are not executed, values are computed from the cached ones, and every
    target without a cached value is yielded exactly once. Missing (see the refutation): targets that are
    themselves cached are not yielded. *)
Theorem C04_cached_values_partial :
  forall {L V} `{Eqb L} (A : attrs L) (S : semantics L V) choose u targets (cached : dict nat V) env,
  hyps u targets cached env ->
  let evs := fst (executor_run A S choose u targets cached) in
  let st := snd (executor_run A S choose u targets cached) in
  (forall h, In h (executed evs) -> exists t, names u h t /\ required u targets env t) /\
  (forall h v, In (h, v) (yields evs) -> exists t, names u h t /\ In h targets /\ eval A S env t = Ok v) /\
  NoDup (map fst (yields evs)) /\
  (st = None -> forall h, In h targets -> ~ In h (dkeys cached) -> exists v, In (h, v) (yields evs)) /\
  ((forall h t, In h targets -> names u h t -> exists v, eval A S env t = Ok v) -> st = None).
Proof.
  exact (fun L V _ A S choose u targets cached env HH =>
    let G := hyps_good u targets cached env HH in
    conj (fun h Hin => match lt_names u h (executed_lt A S choose u targets cached env G h Hin) with
                        | ex_intro _ t Hn => ex_intro _ t (conj Hn (run_executed_needed A S choose u targets cached env G h t Hn Hin))
                        end)
    (conj (run_yield_value A S choose u targets cached env G)
    (conj (run_yield_nodup A S choose u targets cached env G)
    (conj (fun Est h => run_yield_all A S choose u targets cached env G h Est)
          (run_no_error A S choose u targets cached env G))))).
Qed.
Print Assumptions C04_cached_values_partial.

(** C04 as stated is false: a target with a supplied value is silently not yielded (for every choice). *)
Theorem C04_cached_target_never_yielded_refuted :
  (forall {L V} `{Eqb L} (A : attrs L) (S : semantics L V) choose u targets (cached : dict nat V) env,
     hyps u targets cached env ->
     forall h v, In (h, v) (yields (fst (executor_run A S choose u targets cached))) -> ~ In h (dkeys cached)) /\
  (exists targets cached, hyps ex_u targets cached ex_env /\ In 1 targets /\
     executor_run ex_attrs ex_sem first_choice ex_u targets cached =
       ([EExec 2; EKeep [1; 2]; EExec 0; EYield 0 2151%Z; EKeep []], None)).
Proof.
  split.
  - exact (fun L V _ A S choose u targets cached env HH =>
             run_yield_uncached A S choose u targets cached env (hyps_good u targets cached env HH)).
  - exists [0; 1], [(1, 50%Z)]. destruct C02_nonvacuous as [(H1 & H2 & H3 & H4 & H5) _].
    split; [|split; [right; left; reflexivity|reflexivity]].
    split; [exact H1|split; [|split; [exact H3|split; [exact H4|exact H5]]]].
    intros h [<-|[<-|[]]]; eexists; reflexivity.
Qed.
Print Assumptions C04_cached_target_never_yielded_refuted.

(** C05, true part. If a task [y] that was ready when [x] was chosen (all of its dependencies had been executed)
    is nevertheless run later although it is preferred to [x] (earlier group, or same group and higher
    priority), then [y] is itself a target and [x] is an ungrouped task of non-negative priority. So the
    greedy claim holds for all non-target tasks and against all grouped or negative-priority tasks. Missing: see
    the refutation. Labels never change what runs. *)
Theorem C05_greedy_partial :
  forall {L V} `{Eqb L} (A : attrs L) (S : semantics L V) choose u targets (cached : dict nat V) env,
  hyps u targets cached env ->
  let evs := fst (executor_run A S choose u targets cached) in
  forall l1 x l2 y tx ty, executed evs = l1 ++ x :: l2 -> In y l2 ->
    names u x tx -> names u y ty -> (forall d, depends u y d -> In d l1) ->
    preferred A ty tx -> In y targets /\ group_of A tx = EmptyString /\ (0 <= priority A (label tx))%Z.
Proof.
  exact (fun L V _ A S choose u targets cached env HH =>
           run_greedy A S choose u targets cached env (hyps_good u targets cached env HH)).
Qed.
Print Assumptions C05_greedy_partial.

Theorem C05_labels_do_not_change_what_runs :
  forall {L V} `{Eqb L} (A A' : attrs L) (S : semantics L V) choose choose' u targets (cached : dict nat V) env,
  hyps u targets cached env ->
  snd (executor_run A S choose u targets cached) = None ->
  snd (executor_run A' S choose' u targets cached) = None ->
  forall h, In h (executed (fst (executor_run A S choose u targets cached))) <->
            In h (executed (fst (executor_run A' S choose' u targets cached))).
Proof.
  exact (fun L V _ A A' S choose choose' u targets cached env HH E1 E2 h =>
    let G := hyps_good u targets cached env HH in
    let go (B B' : attrs L) (c c' : nat -> list nat -> nat)
           (E : snd (executor_run B' S c' u targets cached) = None)
           (Hin : In h (executed (fst (executor_run B S c u targets cached)))) :=
      match lt_names u h (executed_lt B S c u targets cached env G h Hin) with
      | ex_intro _ t Hn => run_needed_executed B' S c' u targets cached env G h t E Hn
                             (run_executed_needed B S c u targets cached env G h t Hn Hin)
      end in
    conj (go A A' choose choose' E2) (go A' A choose' choose E1)).
Qed.
Print Assumptions C05_labels_do_not_change_what_runs.

(** C05 as stated is false: a target that is ready from the start (no dependencies) with priority 9 is overtaken by a
    non-target of priority 1, because targets additionally wait for the dummy node whose priority is 0. *)
Theorem C05_ready_target_overtaken_refuted :
  exists l1 l2, executed (fst (executor_run ex_attrs ex_sem first_choice ex_u2 [0; 2] ([] : dict nat Z))) = l1 ++ 1 :: l2 /\
    In 2 l2 /\ names ex_u2 1 lo /\ names ex_u2 2 hi /\ (forall d, ~ depends ex_u2 2 d) /\ preferred ex_attrs hi lo.
Proof.
  exists [], [2; 0]. split; [reflexivity|]. split; [now left|]. split; [reflexivity|]. split; [reflexivity|]. split.
  - intros d (t & k & a & Hn & Hin & _). unfold names in Hn. cbn in Hn. injection Hn as <-. destruct Hin.
  - right. split; [reflexivity|]. cbn. lia.
Qed.
Print Assumptions C05_ready_target_overtaken_refuted.
Example C05_nonvacuous : hyps ex_u2 [0; 2] ([] : dict nat Z) no_env.
Proof.
  split; [|split; [|split; [|split]]].
  - exists [user; hi]. split; [|reflexivity]. pose proof ex_wf as HW.
    rewrite Forall_forall in *. intros t [<-|[<-|[]]]; apply HW; cbn; tauto.
  - intros h [<-|[<-|[]]]; eexists; reflexivity.
  - intros h [].
  - constructor.
  - intros h t _. reflexivity.
Qed.
