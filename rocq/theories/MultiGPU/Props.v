(** Properties of the multi-GPU executor (mergekit/multigpu_executor.py): C06, C07. *)
From Verif.Base Require Import Py PyFacts.
From Verif.Graph Require Import Model Spec UniverseProofs Proofs.
From Verif.MultiGPU Require Import Model Spec Proofs RunProofs Examples.
Local Open Scope list_scope.

(** [targets] are the handles of the tasks [ts] the executor was asked for, in any order *)
Definition asked {L} `{Eqb L} (ts : list (task L)) (u : universe L) (targets : list nat) : Prop :=
  Forall wf_task ts /\ u = add_tasks ts empty_universe /\
  forall h, In h targets <-> exists t, In t ts /\ names u h t.

Lemma asked_ok {L} `{Eqb L} (ts : list (task L)) u targets : asked ts u targets -> wf_u u /\ covers u targets.
Proof. intros (HF & -> & Ht). now apply (covers_built ts). Qed.

Lemma given_assigned a i h : given a i h <-> In h (assigned a i).
Proof. unfold given, assigned. destruct (dget a i) as [l|]; split; [intros (l' & [= <-] & ?); auto|eauto|intros (l' & E & _); discriminate|intros []]. Qed.

(** the stages of the partition are exactly the ones described *)
Definition stages {L} (A : attrs L) (u : universe L) (p : partition) : Prop :=
  (forall h, In h (p_leading p) <-> leading A u h) /\
  (forall h, In h (p_trailing p) <-> trailing A u h) /\
  (forall h, In h (p_per_gpu p) <-> duplicated A u h) /\
  (forall h, In h (p_parallel p) <->
     (exists t, names u h t) /\ ~ leading A u h /\ ~ trailing A u h /\ ~ duplicated A u h).

(** C06. For every task graph, order of set iteration and positive number of devices: the stages are the leading,
    trailing, duplicated and remaining tasks; no parallel or duplicated task is main-thread-only; every parallel task is
    given to exactly one device, together with every parallel task it is connected to; devices get nothing else. *)
Theorem C06_partition :
  forall {L} `{Eqb L} (A : attrs L) ts u targets choose ctrail num p,
  asked ts u targets -> 0 < num -> construct A u choose ctrail targets num = Ok p ->
  stages A u p /\
  (forall h, In h (p_parallel p) \/ In h (p_per_gpu p) -> ~ main_only A u h) /\
  (forall h, In h (p_parallel p) -> exists i, i < num /\ given (p_assign p) i h /\ forall j, given (p_assign p) j h -> j = i) /\
  (forall i x y, given (p_assign p) i x -> connected u (p_parallel p) x y -> given (p_assign p) i y) /\
  (forall i h, given (p_assign p) i h -> In h (p_parallel p)) /\
  (forall i, NoDup (assigned (p_assign p) i)).
Proof.
  intros L HL A ts u targets ch ct num p Ha Hn Hc. destruct (asked_ok _ _ _ Ha) as [HU HC].
  destruct (construct_ok A u targets HU HC ch ct num Hn) as [(p' & E & Hs & _)|[E _]]; [|congruence].
  rewrite E in Hc. injection Hc as ->. destruct Hs.
  split; [|split; [|split; [|split; [|split]]]]; auto.
  - split; [|split; [|split]]; auto. intros h. rewrite sd_par. split; intros (H1 & H2); split; auto.
    + now apply lt_names.
    + destruct H1. eapply names_lt; eauto.
  - intros h Hh. destruct (sd_place h Hh) as (i & Hi & Hg). exists i. rewrite !given_assigned. split; [|split]; auto.
    intros j Hj. apply given_assigned in Hj. eauto.
  - intros i x y. rewrite !given_assigned. apply sd_together.
  - intros i h. rewrite given_assigned. apply sd_given.
Qed.
Print Assumptions C06_partition.

(** C06. The constructor either succeeds or raises RuntimeError, and raises exactly when some main-thread-only task
    is duplicated per GPU or has to run between parallel tasks. *)
Theorem C06_rejects_interleaved_main_thread_tasks :
  forall {L} `{Eqb L} (A : attrs L) ts u targets choose ctrail num,
  asked ts u targets -> 0 < num ->
  ((exists p, construct A u choose ctrail targets num = Ok p) \/ construct A u choose ctrail targets num = Err RuntimeError) /\
  (construct A u choose ctrail targets num = Err RuntimeError <->
   exists h, (exists t, names u h t) /\ main_only A u h /\ (duplicated A u h \/ (~ leading A u h /\ ~ trailing A u h))).
Proof.
  intros L HL A ts u targets ch ct num Ha Hn. destruct (asked_ok _ _ _ Ha) as [HU HC].
  assert (Hb : bad_parallel A u <-> exists h, (exists t, names u h t) /\ main_only A u h /\
             (duplicated A u h \/ (~ leading A u h /\ ~ trailing A u h))).
  { split; intros (h & H1 & H2); exists h; split; auto; [now apply lt_names|destruct H1; eapply names_lt; eauto]. }
  rewrite <- Hb.
  destruct (construct_ok A u targets HU HC ch ct num Hn) as [(p' & E & Hs & Hnb)|[E Hbad]]; rewrite E.
  - split; [left; eauto|]. split; [discriminate|contradiction].
  - split; [auto|]. tauto.
Qed.
Print Assumptions C06_rejects_interleaved_main_thread_tasks.

(** C06. Neither the stages nor the acceptance depend on set iteration order. *)
Theorem C06_order_independent :
  forall {L} `{Eqb L} (A : attrs L) ts u targets ch1 ct1 ch2 ct2 num p,
  asked ts u targets -> 0 < num -> construct A u ch1 ct1 targets num = Ok p ->
  exists p', construct A u ch2 ct2 targets num = Ok p' /\
    forall h, (In h (p_leading p) <-> In h (p_leading p')) /\ (In h (p_trailing p) <-> In h (p_trailing p')) /\
              (In h (p_per_gpu p) <-> In h (p_per_gpu p')) /\ (In h (p_parallel p) <-> In h (p_parallel p')).
Proof.
  intros L HL A ts u targets ch1 ct1 ch2 ct2 num p Ha Hn Hc. destruct (asked_ok _ _ _ Ha) as [HU HC].
  destruct (construct_ok A u targets HU HC ch1 ct1 num Hn) as [(p1 & E1 & Hs1 & Hnb)|[E1 _]]; [|congruence].
  rewrite E1 in Hc. injection Hc as ->.
  destruct (construct_ok A u targets HU HC ch2 ct2 num Hn) as [(p2 & E2 & Hs2 & _)|[_ Hb]]; [|contradiction].
  exists p2. split; auto. intros h. destruct Hs1, Hs2.
  rewrite sd_lead, sd_lead0, sd_trail, sd_trail0, sd_dup, sd_dup0, sd_par, sd_par0. tauto.
Qed.
Print Assumptions C06_order_independent.

(** C06, at run time: after the leading stage a device worker executes no main-thread-only task, and what it executes
    is given to it, duplicated, or needed by a duplicated task. *)
Theorem C06_workers_stay_off_the_main_thread :
  forall {L V} `{Eqb L} (A : attrs L) (S : semantics L V) ts u targets choose ctrail num p ch chw d tasks h,
  asked ts u targets -> 0 < num -> construct A u choose ctrail targets num = Ok p ->
  snd (lead_run A S u ch p) = None -> In (d, tasks) (p_assign p) ->
  In h (executed (fst (worker_run A S u chw p (dset_all [] (yields (fst (lead_run A S u ch p)))) tasks))) ->
  ~ main_only A u h /\
  (In h tasks \/ duplicated A u h \/
   exists g t t', duplicated A u g /\ names u g t /\ names u h t' /\ needs (fun _ => False) t t').
Proof.
  intros L V HL A S ts u targets ch0 ct num p ch chw d tasks h Ha Hn Hc Hl Hin Hex. destruct (asked_ok _ _ _ Ha) as [HU HC].
  destruct (construct_ok A u targets HU HC ch0 ct num Hn) as [(p1 & E1 & Hs1 & Hnb)|[E1 _]]; [|congruence].
  rewrite E1 in Hc. injection Hc as ->.
  destruct (worker_no_main A S u targets HU HC p num Hs1 ch Hl chw d tasks h Hin Hex) as [H1 H2].
  split; auto. destruct H2 as [?|[?|(g & Hg & t & t' & Hx)]]; auto. right. right. exists g, t, t'. auto.
Qed.
Print Assumptions C06_workers_stay_off_the_main_thread.

Lemma ex_mg_wf : Forall wf_task [finalize; merge 10%Z; perm].
Proof.
  repeat constructor; cbn; try (intuition congruence); intros k t Hk;
  repeat (destruct Hk as [Hk|Hk]; [injection Hk as <- <-|]; try contradiction);
  repeat constructor; cbn; try (intuition congruence); intros k t Hk;
  repeat (destruct Hk as [Hk|Hk]; [injection Hk as <- <-|]; try contradiction);
  repeat constructor; cbn; try (intuition congruence); intros k t Hk;
  repeat (destruct Hk as [Hk|Hk]; [injection Hk as <- <-|]; try contradiction);
  repeat constructor; cbn; try (intuition congruence); intros k t Hk; contradiction.
Qed.
Lemma asked_one (t : task (string * Z)) u : wf_task t -> u = add_tasks [t] empty_universe -> nth_error (u_tasks u) 0 = Some t ->
  asked [t] u [0].
Proof.
  intros Hw -> Hn. split; [repeat constructor; auto|]. split; [reflexivity|].
  destruct (add_tasks_wf [t] empty_universe empty_Inv) as (HU & _); [repeat constructor; auto|].
  intros h. split.
  - intros [<- | []]. exists t. split; [now left|exact Hn].
  - intros (t' & [<- | []] & Hn'). left. exact (names_inj _ _ _ _ (inv_nodup _ _ HU) Hn Hn').
Qed.
Example C06_nonvacuous : asked mg_ts mg_u [0] /\ construct mg_attrs mg_u c0 c0 [0] 2 = Ok mg_p /\
  snd (lead_run mg_attrs mg_sem mg_u c0 mg_p) = None /\
  executed (fst (worker_run mg_attrs mg_sem mg_u c0 mg_p [(2, 1%Z)] [8; 7; 6])) = [8; 5; 7; 6].
Proof.
  split; [|vm_compute; auto]. apply asked_one; auto.
  pose proof ex_mg_wf as Hf. now inversion Hf.
Qed.
(** a main-thread-only task between two parallel ones is rejected *)
Example C06_nonvacuous_reject :
  construct mg_attrs (add_tasks [Node ("gpu"%string, 1%Z) [("x"%string, Node ("main"%string, 2%Z) [("y"%string, Node ("gpu"%string, 3%Z) [])])]] empty_universe)
    c0 c0 [0] 2 = Err RuntimeError.
Proof. vm_compute. reflexivity. Qed.

(** C07, partial: missing are runs in which the collector left behind queue entries of targets or of dependencies of
    trailing tasks, and per-GPU targets when there is no parallel work (refuted below). In all other runs - any set
    iteration order, any interleaving of the workers, any other entries left behind - the multi-GPU executor yields
    exactly what the serial executor yields, each target once; it fails when the serial executor fails, with an
    exception raised by some needed task. *)
Theorem C07_agrees_with_serial_partial :
  forall {L V} `{Eqb L} (A : attrs L) (S : semantics L V) (none : V) ts u targets choose ctrail num p chs lost r,
  asked ts u targets -> 0 < num -> construct A u choose ctrail targets num = Ok p ->
  mg_run A S u none targets p lost r ->
  (forall h v, In (h, v) lost -> ~ In h targets /\ ~ exists x, trailing A u x /\ depends u x h) ->
  (p_parallel p <> [] \/ forall h, In h targets -> ~ duplicated A u h) ->
  match snd (executor_run A S chs u targets []) with
  | None => exists ys, r = Ok ys /\ NoDup (map fst ys) /\
              forall h v, In (h, v) ys <-> In (h, v) (yields (fst (executor_run A S chs u targets [])))
  | Some _ => exists e, r = Err e /\
                exists ht tt t, In ht targets /\ names u ht tt /\ needs (fun _ => False) tt t /\ raises A S no_env t e
  end.
Proof.
  intros L V HL A S none ts u targets ch ct num p chs lost r Ha Hn Hc Hr Hlost Hd. destruct (asked_ok _ _ _ Ha) as [HU HC].
  destruct (construct_ok A u targets HU HC ch ct num Hn) as [(p1 & E1 & Hs & _)|[E1 _]]; [|congruence].
  rewrite E1 in Hc. injection Hc as ->.
  assert (Hres := mg_run_ok A S u targets none HU HC p num Hs lost r Hr). clear Hr.
  assert (Hlost' : forall h v, In (h, v) lost -> ~ In h targets /\ ~ In h (p_trailing_deps p)).
  { intros h v Hin. rewrite (sd_tdeps _ _ _ _ Hs). eauto. }
  assert (Hd' : p_assign p <> [] \/ forall h, In h targets -> ~ duplicated A u h).
  { destruct Hd as [Hd|]; auto. left. intros Ea. apply Hd. destruct (p_parallel p) as [|x l] eqn:Ep; auto. exfalso.
    destruct (sd_place _ _ _ _ Hs x) as (i & _ & Hi); [rewrite Ep; now left|]. rewrite Ea in Hi. destruct Hi. }
  specialize (Hres Hlost' Hd').
  assert (Hlt : forall h, In h targets -> h < length (u_tasks u)).
  { intros h Hh. destruct (proj1 HC h Hh). eapply names_lt; eauto. }
  destruct (truthful_run A S u targets HU HC [] targets chs (empty_truthful A S u) Hlt) as (Y1 & Y2 & Y3 & Y4).
  destruct (snd (executor_run A S chs u targets [])) as [e0|] eqn:Est.
  - destruct r as [ys|e]; [|eauto]. exfalso. destruct Hres as (_ & Hall & Hiff).
    destruct (Y4 e0 eq_refl) as (ht & tt & t & Hin & Hnm & Hne & Hra). destruct (Hall ht Hin) as [v Hv].
    apply Hiff in Hv as (_ & t' & Hn' & Ev). apply raises_eval in Hra; [|reflexivity].
    assert (Hne' : needs (env_cached (@no_env L V)) tt t).
    { eapply needs_weaken; [|exact Hne]. unfold env_cached, no_env. intros x Hx. now apply Hx. }
    destruct (needs_err _ _ _ _ _ _ Hne' Hra) as [e' E']. unfold names in *. congruence.
  - destruct r as [ys|e].
    + destruct Hres as (Hnd & Hall & Hiff). exists ys. split; [reflexivity|]. split; auto. intros h v. rewrite Hiff. split.
      * intros (Ht & t & Hnm & Ev). destruct (Y3 eq_refl h Ht) as [v' Hv']; [intros []|].
        pose proof (Y1 h v' Hv') as (_ & _ & t' & Hn' & E'). unfold names in *. replace v with v' by congruence. exact Hv'.
      * intros Hy. apply Y1 in Hy as (H1 & _ & H2). auto.
    + exfalso. destruct Hres as (ht & tt & t & Hin & Hnm & Hne & Hra). destruct (Y3 eq_refl ht Hin) as [v Hv]; [intros []|].
      apply Y1 in Hv as (_ & _ & t' & Hn' & Ev). apply raises_eval in Hra; [|reflexivity].
      assert (Hne' : needs (env_cached (@no_env L V)) tt t).
      { eapply needs_weaken; [|exact Hne]. unfold env_cached, no_env. intros x Hx. now apply Hx. }
      destruct (needs_err _ _ _ _ _ _ Hne' Hra) as [e' E']. unfold names in *. congruence.
Qed.
Print Assumptions C07_agrees_with_serial_partial.

(** runs in which nothing is left behind exist for every partition *)
Theorem C07_complete_run_exists :
  forall {L V} (A : attrs L) (S : semantics L V) (none : V) u targets p, exists r, mg_run A S u none targets p [] r.
Proof. intros. apply mg_run_exists. Qed.
Print Assumptions C07_complete_run_exists.

Definition mg_q : list (nat * Z) := [(4, 0%Z); (5, 0%Z); (3, 0%Z); (1, 1023%Z); (8, 0%Z); (5, 0%Z); (7, 0%Z); (6, 2043%Z)].
Ltac interleave := vm_compute;
  repeat first [ refine (il_put [] _ _ _ _ _) | refine (il_put [_] _ _ _ _ _)
               | constructor; repeat constructor ]; cbn [app].

Example C07_nonvacuous :
  mg_run mg_attrs mg_sem mg_u 0%Z [0] mg_p [] (Ok [(0, 3074%Z)]) /\
  yields (fst (executor_run mg_attrs mg_sem c0 mg_u [0] [])) = [(0, 3074%Z)].
Proof.
  split; [|vm_compute; reflexivity].
  assert (Hr : mg_run mg_attrs mg_sem mg_u 0%Z [0] mg_p [] (Ok (filter (fun hv => mem (fst hv) [0])
             (dset_all (dset_all (dset_all [] (yields (fst (lead_run mg_attrs mg_sem mg_u c0 mg_p)))) mg_q)
                (filter (fun hv => mem (fst hv) [0])
                   (yields (fst (trail_run mg_attrs mg_sem mg_u c0 mg_p (dset_all (dset_all [] (yields (fst (lead_run mg_attrs mg_sem mg_u c0 mg_p)))) mg_q)))))))));
    [|vm_compute in Hr |- *; exact Hr].
  apply (mg_finished _ _ _ _ _ _ c0 (fun _ => c0) mg_q mg_q [] c0).
  - vm_compute. reflexivity.
  - intros d tasks [[= <- <-]|[[= <- <-]|[]]]; vm_compute; reflexivity.
  - interleave.
  - rewrite app_nil_r. reflexivity.
  - vm_compute. reflexivity.
Qed.

(** C07 refuted: [done_event] is set as soon as the workers are done, so the collector thread may leave entries on
    the queue (154-163, 183). A target whose entry is left behind is never yielded, without any error. *)
Theorem C07_lost_target_refuted :
  exists lost ys, asked [merge 10%Z] solo_u [0] /\ construct mg_attrs solo_u c0 c0 [0] 2 = Ok solo_p /\
    mg_run mg_attrs mg_sem solo_u 0%Z [0] solo_p lost (Ok ys) /\ ys = [] /\
    executor_run mg_attrs mg_sem c0 solo_u [0] [] =
      (fst (executor_run mg_attrs mg_sem c0 solo_u [0] []), None) /\
    In (0, 22%Z) (yields (fst (executor_run mg_attrs mg_sem c0 solo_u [0] []))).
Proof.
  exists [(0, 22%Z)], []. split; [apply asked_one; auto; pose proof ex_mg_wf as Hf; inversion Hf as [|? ? _ Hf2]; now inversion Hf2|].
  split; [vm_compute; reflexivity|]. split; [|vm_compute; auto].
  assert (Hr : mg_run mg_attrs mg_sem solo_u 0%Z [0] solo_p [(0, 22%Z)] (Ok (filter (fun hv => mem (fst hv) [0])
             (dset_all (dset_all (dset_all [] (yields (fst (lead_run mg_attrs mg_sem solo_u c0 solo_p)))) [(1, 0%Z); (2, 0%Z)])
                (filter (fun hv => mem (fst hv) [0])
                   (yields (fst (trail_run mg_attrs mg_sem solo_u c0 solo_p (dset_all (dset_all [] (yields (fst (lead_run mg_attrs mg_sem solo_u c0 solo_p)))) [(1, 0%Z); (2, 0%Z)])))))))));
    [|vm_compute in Hr |- *; exact Hr].
  apply (mg_finished _ _ _ _ _ _ c0 (fun _ => c0) [(1, 0%Z); (2, 0%Z); (0, 22%Z)] [(1, 0%Z); (2, 0%Z)] [(0, 22%Z)] c0).
  - vm_compute. reflexivity.
  - intros d tasks [[= <- <-]|[]]; vm_compute; reflexivity.
  - interleave.
  - reflexivity.
  - vm_compute. reflexivity.
Qed.
Print Assumptions C07_lost_target_refuted.

(** C07 refuted: when the entry of a dependency of a trailing task is left behind, the trailing stage executes that
    dependency again, on the [None] placeholders the workers stored for its arguments, and the target gets a different
    value (here 3032 instead of 3074; [None] is the number 0). *)
Theorem C07_lost_dependency_refuted :
  exists lost ys, asked mg_ts mg_u [0] /\ construct mg_attrs mg_u c0 c0 [0] 2 = Ok mg_p /\
    mg_run mg_attrs mg_sem mg_u 0%Z [0] mg_p lost (Ok ys) /\ ys = [(0, 3032%Z)] /\
    yields (fst (executor_run mg_attrs mg_sem c0 mg_u [0] [])) = [(0, 3074%Z)].
Proof.
  set (got := [(4, 0%Z); (5, 0%Z); (3, 0%Z); (1, 1023%Z); (8, 0%Z); (5, 0%Z); (7, 0%Z)]).
  exists [(6, 2043%Z)], [(0, 3032%Z)]. split; [apply C06_nonvacuous|].
  split; [vm_compute; reflexivity|]. split; [|vm_compute; auto].
  assert (Hr : mg_run mg_attrs mg_sem mg_u 0%Z [0] mg_p [(6, 2043%Z)] (Ok (filter (fun hv => mem (fst hv) [0])
             (dset_all (dset_all (dset_all [] (yields (fst (lead_run mg_attrs mg_sem mg_u c0 mg_p)))) got)
                (filter (fun hv => mem (fst hv) [0])
                   (yields (fst (trail_run mg_attrs mg_sem mg_u c0 mg_p (dset_all (dset_all [] (yields (fst (lead_run mg_attrs mg_sem mg_u c0 mg_p)))) got)))))))));
    [|vm_compute in Hr |- *; exact Hr].
  apply (mg_finished _ _ _ _ _ _ c0 (fun _ => c0) mg_q got [(6, 2043%Z)] c0).
  - vm_compute. reflexivity.
  - intros d tasks [[= <- <-]|[[= <- <-]|[]]]; vm_compute; reflexivity.
  - interleave.
  - reflexivity.
  - vm_compute. reflexivity.
Qed.
Print Assumptions C07_lost_dependency_refuted.

(** C07 refuted: a per-GPU target is never executed nor yielded when there is no parallel task. *)
Theorem C07_per_gpu_target_refuted :
  asked [perm] dup_u [0] /\ construct mg_attrs dup_u c0 c0 [0] 2 = Ok dup_p /\
  (forall lost ys, mg_run mg_attrs mg_sem dup_u 0%Z [0] dup_p lost (Ok ys) -> ys = []) /\
  yields (fst (executor_run mg_attrs mg_sem c0 dup_u [0] [])) = [(0, 2%Z)].
Proof.
  split; [apply asked_one; auto; pose proof ex_mg_wf as Hf; inversion Hf as [|? ? _ Hf2]; inversion Hf2 as [|? ? _ Hf3]; now inversion Hf3|].
  split; [vm_compute; reflexivity|]. split; [|vm_compute; reflexivity].
  intros lost ys Hr. inversion Hr as [| | |ch chw q got lost' cht E Ew Hq Hgl Et]; subst.
  assert (Hq0 : got ++ lost = []).
  { destruct (got ++ lost) as [|x l]; auto. exfalso. apply (proj1 (interleaved_In _ _ Hq x)). now left. }
  apply app_eq_nil in Hq0 as [-> ->]. reflexivity.
Qed.
Print Assumptions C07_per_gpu_target_refuted.
