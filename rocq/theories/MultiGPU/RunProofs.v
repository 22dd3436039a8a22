(** C07 (and the run-time half of C06): what the staged execution computes. *)
From Verif.Base Require Import Py PyFacts.
From Verif.Graph Require Import Model Spec UniverseProofs ScheduleProofs ExecProofs Proofs.
From Verif.MultiGPU Require Import Model Spec Proofs.
Local Open Scope list_scope.

(** ** TaskUniverse holds nothing but the targets' subtasks *)
Section Covers.
Context {L : Type} `{Eqb L}.

Definition nneeds (t t' : task L) : Prop := needs (fun _ => False) t t'.

Lemma add_task_subtasks (t : task L) : forall u x, In x (u_tasks (fst (add_task t u))) -> In x (u_tasks u) \/ nneeds t x.
Proof.
  induction t as [l args IH] using task_rect'. intros u x. rewrite add_task_eq. cbv zeta.
  destruct (_ <? _); [cbn; auto|]. cbn [fst targs].
  set (idx := match _ with Some i => i | None => _ end). clearbody idx.
  set (u1 := {| u_tasks := _; u_index := _; u_args := _ |}).
  assert (Hu1 : In x (u_tasks u1) -> In x (u_tasks u) \/ nneeds (Node l args) x).
  { unfold u1. cbn. rewrite in_app_iff. intros [?|[<- | []]]; auto. right. constructor. tauto. }
  clearbody u1.
  assert (Hg : forall rest u', incl rest args -> In x (u_tasks (add_args idx rest u')) ->
               In x (u_tasks u') \/ exists k a, In (k, a) args /\ nneeds a x).
  { induction rest as [|[k a] rest IHr]; intros u' Hi; cbn [add_args]; auto.
    destruct (add_task a u') as [u2 j] eqn:E. intros Hx. apply IHr in Hx.
    2:{ intros y Hy. apply Hi. now right. }
    destruct Hx as [Hx|Hx]; auto. unfold set_arg in Hx. cbn in Hx.
    assert (Hka : In (k, a) args) by (apply Hi; now left).
    specialize (IH k a Hka u' x). rewrite E in IH. cbn in IH. destruct (IH Hx); auto. right. eauto. }
  intros Hx. destruct (Hg args u1 (incl_refl _) Hx) as [?|(k & a & Hin & Hn)]; auto.
  right. econstructor 2; eauto.
Qed.

Lemma add_tasks_subtasks ts : forall u x, In x (u_tasks (add_tasks ts u)) ->
  In x (u_tasks u) \/ exists t, In t ts /\ nneeds t x.
Proof.
  induction ts as [|t ts IH]; cbn; intros u x Hx; auto.
  destruct (IH _ _ Hx) as [Hx'|(t' & Ht & Hn)]; [|right; eauto].
  destruct (add_task_subtasks t u x Hx'); auto. right; eauto.
Qed.

Lemma covers_built ts targets : Forall wf_task ts ->
  let u := add_tasks ts empty_universe in
  (forall h, In h targets <-> exists t, In t ts /\ names u h t) -> wf_u u /\ covers u targets.
Proof.
  intros HF u Ht. destruct (add_tasks_wf ts empty_universe empty_Inv HF) as (HU & _ & Hin). fold u in HU, Hin.
  split; auto. split.
  - intros h Hh. apply Ht in Hh as (t & _ & Hn). eauto.
  - intros h t Hn. pose proof Hn as Hn'. apply nth_error_In in Hn'.
    destruct (add_tasks_subtasks ts empty_universe t Hn') as [[]|(tt & Htt & Hne)].
    destruct (Hin tt Htt) as [ht Hht]. exists ht, tt. split; [apply Ht; eauto|]. auto.
Qed.
End Covers.

(** ** dictionaries *)
Lemma list_eq_nil_dec {X} (l : list X) : {l = []} + {l <> []}.
Proof. destruct l; [now left|right; discriminate]. Qed.

Section DsetAll.
Context {V : Type}.
Lemma dset_all_NoDup (l : list (nat * V)) : forall d, NoDup (dkeys d) -> NoDup (dkeys (dset_all d l)).
Proof. induction l as [|[k v] l IH]; cbn; intros d Hd; auto. apply IH. now apply dkeys_dset_NoDup. Qed.
Lemma dset_all_keys (l : list (nat * V)) : forall d k, In k (dkeys (dset_all d l)) <-> In k (dkeys d) \/ In k (map fst l).
Proof.
  induction l as [|[k0 v] l IH]; intros d k; [cbn; tauto|]. change (dset_all d ((k0, v) :: l)) with (dset_all (dset d k0 v) l).
  rewrite IH, dkeys_dset_In. cbn. intuition auto.
Qed.
Lemma dset_all_get (l : list (nat * V)) : forall d k v, dget (dset_all d l) k = Some v ->
  In (k, v) l \/ dget d k = Some v.
Proof.
  induction l as [|[k0 v0] l IH]; intros d k v Hg; auto.
  change (dset_all d ((k0, v0) :: l)) with (dset_all (dset d k0 v0) l) in Hg. cbn [In map fst].
  apply IH in Hg as [Hg|Hg]; auto. rewrite dget_dset in Hg. destruct (eqb_spec k k0) as [-> | ?]; auto.
  injection Hg as ->. auto.
Qed.
Lemma dset_all_in (l : list (nat * V)) : forall d k v, dget (dset_all d l) k = Some v ->
  In (k, v) l \/ (~ In k (map fst l) /\ dget d k = Some v).
Proof.
  induction l as [|[k0 v0] l IH]; intros d k v Hg; auto.
  change (dset_all d ((k0, v0) :: l)) with (dset_all (dset d k0 v0) l) in Hg. cbn [In map fst].
  apply IH in Hg as [Hg|[Hn Hg]]; auto. rewrite dget_dset in Hg. destruct (eqb_spec k k0) as [-> | ?].
  - injection Hg as ->. auto.
  - right. split; auto. intros [E|?]; [congruence|auto].
Qed.
End DsetAll.

Lemma interleaved_In {X} (ls : list (list X)) q : interleaved ls q -> forall x, In x q <-> In x (concat ls).
Proof.
  induction 1 as [ls Hf|l1 x xs l2 q _ IH]; intros y.
  - split; [intros []|]. intros Hy. apply in_concat in Hy as (l & Hl & Hy). rewrite Forall_forall in Hf.
    rewrite (Hf l Hl) in Hy. destruct Hy.
  - cbn [In]. rewrite IH, !concat_app, !in_app_iff. cbn [concat]. rewrite !in_app_iff. cbn. tauto.
Qed.

Lemma interleaved_exists {X} : forall ls : list (list X), exists q, interleaved ls q.
Proof.
  intros ls. remember (length (concat ls)) as n eqn:E. revert ls E.
  induction n as [|n IH]; intros ls E.
  - exists []. constructor. apply Forall_forall. intros l Hl. destruct l as [|x l]; auto.
    apply in_split in Hl as (l1 & l2 & ->). rewrite concat_app, app_length in E. cbn in E. lia.
  - assert (Hx : exists l1 x xs l2, ls = l1 ++ (x :: xs) :: l2).
    { clear IH. induction ls as [|[|x xs] ls IHl]; [discriminate| |].
      - destruct (IHl E) as (l1 & x & xs & l2 & ->). exists ([] :: l1), x, xs, l2. reflexivity.
      - exists [], x, xs, ls. reflexivity. }
    destruct Hx as (l1 & x & xs & l2 & ->). destruct (IH (l1 ++ xs :: l2)) as [q Hq].
    + rewrite concat_app, app_length in *. cbn in *. lia.
    + exists (x :: q). now constructor.
Qed.

(** ** evaluation under partially known values *)
Section Env.
Context {L V : Type} (A : attrs L) (S : semantics L V).

Lemma eval_agree (env : task L -> option V) (P : task L -> Prop) :
  (forall t v, P t -> env t = Some v -> eval A S no_env t = Ok v) ->
  (forall t k a, P t -> env t = None -> In (k, a) (targs t) -> P a) ->
  forall t, P t -> eval A S env t = eval A S no_env t.
Proof.
  intros Hok Hcl. induction t as [l args IH] using task_rect'. intros Hp.
  destruct (env (Node l args)) as [v|] eqn:E.
  - rewrite (eval_cached _ _ _ _ _ E). symmetry. auto.
  - rewrite eval_unfold by exact E. rewrite (eval_unfold A S no_env) by reflexivity. cbn [targs label].
    rewrite (rmapM_ext _ (fun kt => let! v := eval A S no_env (snd kt) in
              Ok (fst kt, if uses_accelerator A l then to_math S v else v))); [reflexivity|].
    intros [k a] Hin. cbn [snd fst]. rewrite (IH k a Hin); auto. eapply Hcl; eauto.
Qed.

Lemma raises_agree (env : task L -> option V) t e :
  (forall k a, In (k, a) (targs t) -> eval A S env a = eval A S no_env a) ->
  raises A S env t e -> raises A S no_env t e.
Proof.
  intros Hag (vs & HF & Ee). exists vs. split; auto.
  assert (Hg : forall l vs', incl l (targs t) ->
     Forall2 (fun (kt : string * task L) (kv : string * V) => fst kv = fst kt /\ exists v, eval A S env (snd kt) = Ok v /\
               snd kv = if uses_accelerator A (label t) then to_math S v else v) l vs' ->
     Forall2 (fun (kt : string * task L) (kv : string * V) => fst kv = fst kt /\ exists v, eval A S no_env (snd kt) = Ok v /\
               snd kv = if uses_accelerator A (label t) then to_math S v else v) l vs').
  { intros l vs' Hi H2. induction H2 as [|[k a] kv l vs' (E1 & v & E2 & E3) H2 IH]; constructor.
    - split; auto. exists v. split; auto. cbn [snd] in *. rewrite <- (Hag k a); auto. apply Hi. now left.
    - apply IH. intros y Hy. apply Hi. now right. }
  now apply Hg; [apply incl_refl|].
Qed.

Lemma needs_weaken (c c' : task L -> Prop) t t' : (forall x, c' x -> c x) -> needs c t t' -> needs c' t t'.
Proof. intros Hc. induction 1; [constructor|econstructor 2]; eauto. Qed.
Lemma needs_trans (t1 t2 t3 : task L) : nneeds t1 t2 -> nneeds t2 t3 -> nneeds t1 t3.
Proof. unfold nneeds. induction 1; auto. intros. econstructor 2; eauto. Qed.
Lemma needs_pred (env : task L -> option V) (P : task L -> Prop) :
  (forall t k a, P t -> env t = None -> In (k, a) (targs t) -> P a) ->
  forall t t', needs (env_cached env) t t' -> P t -> P t' /\ env t' = None.
Proof.
  intros Hcl t t' Hn. induction Hn as [t Hc|t k a t' Hc Hin _ IH]; intros Hp.
  - split; auto. unfold env_cached in Hc. destruct (env t); auto. exfalso. apply Hc. discriminate.
  - apply IH. eapply Hcl; eauto. unfold env_cached in Hc. destruct (env t); auto. exfalso. apply Hc. discriminate.
Qed.
End Env.

(** ** the staged run *)
Section Run.
Context {L V : Type} `{Eqb L} (A : attrs L) (S : semantics L V) (u : universe L) (targets : list nat) (none : V).
Hypothesis Hwf : wf_u u.
Hypothesis Hcov : covers u targets.
Variables (p : partition) (num : nat).
Hypothesis Hs : sound A u p num.

Notation lt_u h := (h < length (u_tasks u)).

Definition env_of (cached : dict nat V) (t : task L) : option V :=
  match dget (u_index u) t with Some h => dget cached h | None => None end.

Lemma env_of_matches cached : env_matches u cached (env_of cached).
Proof. intros h t Hn. unfold env_of. apply (inv_index _ _ Hwf) in Hn. now rewrite Hn. Qed.
Lemma env_of_Some cached t v : env_of cached t = Some v -> exists h, names u h t /\ dget cached h = Some v.
Proof.
  unfold env_of. destruct (dget (u_index u) t) as [h|] eqn:E; [|discriminate]. intros Hv. exists h. split; auto.
  now apply (inv_index _ _ Hwf).
Qed.

(** values a cache may hold *)
Definition truthful (cached : dict nat V) : Prop :=
  NoDup (dkeys cached) /\
  forall h v, dget cached h = Some v -> exists t, names u h t /\ eval A S no_env t = Ok v.

Lemma truthful_good cached ts : truthful cached -> (forall h, In h ts -> lt_u h) -> good u ts cached (env_of cached).
Proof.
  intros [Hn Hv] Ht. split; auto.
  - intros k Hk. apply dget_Some_key in Hk as [v Hk]. destruct (Hv k v Hk) as (t & Ht' & _). eapply names_lt; eauto.
  - apply env_of_matches.
Qed.

Lemma truthful_agree cached t : truthful cached -> eval A S (env_of cached) t = eval A S no_env t.
Proof.
  intros [Hn Hv]. apply (eval_agree A S (env_of cached) (fun _ => True)); auto.
  intros t' v _ Hg. apply env_of_Some in Hg as (h & Hh & Hg). destruct (Hv h v Hg) as (t0 & Ht0 & E).
  unfold names in *. congruence.
Qed.

Lemma need_of (h : nat) (t t' : task L) (c : task L -> Prop) : names u h t -> needs c t t' ->
  exists ht tt, In ht targets /\ names u ht tt /\ nneeds tt t'.
Proof.
  intros Hn Hne. destruct (proj2 Hcov h t Hn) as (ht & tt & H1 & H2 & H3). exists ht, tt. split; [|split]; auto.
  eapply needs_trans; eauto. eapply needs_weaken; [|exact Hne]. tauto.
Qed.

(** a serial run with truthful cached values *)
Lemma truthful_run cached ts ch : truthful cached -> (forall h, In h ts -> lt_u h) ->
  let r := executor_run A S ch u ts cached in
  (forall h v, In (h, v) (yields (fst r)) -> In h ts /\ ~ In h (dkeys cached) /\ exists t, names u h t /\ eval A S no_env t = Ok v) /\
  NoDup (map fst (yields (fst r))) /\
  (snd r = None -> forall h, In h ts -> ~ In h (dkeys cached) -> exists v, In (h, v) (yields (fst r))) /\
  (forall e, snd r = Some e -> exists ht tt t, In ht targets /\ names u ht tt /\ nneeds tt t /\ raises A S no_env t e).
Proof.
  intros Hc Ht r. pose proof (truthful_good cached ts Hc Ht) as G. split; [|split; [|split]].
  - intros h v Hy. destruct (run_yield_value A S ch u ts cached _ G h v Hy) as (t & Hn & Hin & E).
    rewrite (truthful_agree _ _ Hc) in E. split; auto. split; [|eauto].
    exact (run_yield_uncached A S ch u ts cached _ G h v Hy).
  - exact (run_yield_nodup A S ch u ts cached _ G).
  - intros Est h Hin Hn. exact (run_yield_all A S ch u ts cached _ G h Est Hin Hn).
  - intros e Est. destruct (run_error A S ch u ts cached _ G e Est) as (t & (h & t0 & Hin & Hn & Hne) & Hr).
    destruct (need_of h t0 t _ Hn Hne) as (ht & tt & H1 & H2 & H3). exists ht, tt, t. split; [|split; [|split]]; auto.
    eapply raises_agree; [|exact Hr]. intros k a _. now apply truthful_agree.
Qed.

Lemma empty_truthful : truthful [].
Proof. split; [constructor|]. intros h v E. discriminate. Qed.

Lemma leading_lt' h : In h (p_leading p) -> lt_u h.
Proof. intros Hh. apply (sd_lead _ _ _ _ Hs) in Hh. eapply leading_lt; eauto. Qed.
Lemma trailing_lt' h : In h (p_trailing p) -> lt_u h.
Proof. intros Hh. apply (sd_trail _ _ _ _ Hs) in Hh. eapply trailing_lt; eauto. Qed.
Lemma assigned_of d tasks : In (d, tasks) (p_assign p) -> assigned (p_assign p) d = tasks.
Proof. intros Hin. unfold assigned. now rewrite (dget_In_NoDup _ _ _ (sd_knodup _ _ _ _ Hs) Hin). Qed.
Lemma worker_lt d tasks h : In (d, tasks) (p_assign p) -> In h (p_per_gpu p ++ tasks) -> lt_u h.
Proof.
  intros Hin Hh. apply in_app_or in Hh as [Hh|Hh].
  - apply (sd_dup _ _ _ _ Hs) in Hh. eapply duplicated_lt; eauto.
  - rewrite <- (assigned_of _ _ Hin) in Hh. apply (sd_given _ _ _ _ Hs) in Hh. now apply (sd_par _ _ _ _ Hs) in Hh.
Qed.

(** the leading stage *)
Section Lead.
Variable ch : nat -> list nat -> nat.
Let r0 := lead_run A S u ch p.
Definition res0 : dict nat V := dset_all [] (yields (fst (lead_run A S u ch p))).

Lemma lead_facts :
  truthful res0 /\ (forall h, In h (dkeys res0) -> leading A u h) /\
  (snd (lead_run A S u ch p) = None -> forall h, leading A u h -> In h (dkeys res0)) /\
  (forall e, snd (lead_run A S u ch p) = Some e ->
     exists ht tt t, In ht targets /\ names u ht tt /\ nneeds tt t /\ raises A S no_env t e).
Proof.
  destruct (truthful_run [] (p_leading p) ch empty_truthful leading_lt') as (Y1 & Y2 & Y3 & Y4).
  fold (lead_run A S u ch p) in *. split; [|split; [|split]].
  - split; [apply dset_all_NoDup; constructor|]. intros h v Hg. apply dset_all_get in Hg as [Hg|Hg]; [|discriminate].
    now apply Y1 in Hg.
  - intros h Hh. apply dset_all_keys in Hh as [[]|Hh]. apply in_map_iff in Hh as ([h' v] & <- & Hy).
    apply Y1 in Hy as (Hy & _). now apply (sd_lead _ _ _ _ Hs).
  - intros Est h Hl. apply dset_all_keys. right. apply (sd_lead _ _ _ _ Hs) in Hl.
    destruct (Y3 Est h Hl) as [v Hv]; [intros []|]. apply in_map_iff. exists (h, v). auto.
  - exact Y4.
Qed.

Hypothesis Hlead : snd (lead_run A S u ch p) = None.

Lemma worker_facts chw d tasks : In (d, tasks) (p_assign p) ->
  let w := worker_run A S u chw p res0 tasks in
  (forall h v, In (h, v) (yields (fst w)) -> (In h (p_per_gpu p) \/ In h tasks) /\ exists t, names u h t /\ eval A S no_env t = Ok v) /\
  (snd w = None -> forall h, In h (p_per_gpu p) \/ In h tasks -> exists v, In (h, v) (yields (fst w))) /\
  (forall e, snd w = Some e -> exists ht tt t, In ht targets /\ names u ht tt /\ nneeds tt t /\ raises A S no_env t e).
Proof.
  intros Hin w. destruct lead_facts as (T0 & K0 & K1 & _).
  destruct (truthful_run res0 (p_per_gpu p ++ tasks) chw T0) as (Y1 & Y2 & Y3 & Y4).
  { intros h. now apply (worker_lt d). }
  fold (worker_run A S u chw p res0 tasks) in *. split; [|split]; auto.
  - intros h v Hy. apply Y1 in Hy as (H1 & H2 & H3). split; auto. now apply in_app_or.
  - intros Est h Hh. apply Y3; auto; [now apply in_or_app|]. intros Hk. apply K0 in Hk.
    assert (Hm : main_only A u h) by (inversion Hk; auto).
    apply (sd_nomain _ _ _ _ Hs h); auto. destruct Hh as [Hh|Hh]; auto. left.
    rewrite <- (assigned_of _ _ Hin) in Hh. now apply (sd_given _ _ _ _ Hs) in Hh.
Qed.

(** nothing a worker executes is main-thread-only *)
Lemma worker_no_main chw d tasks h : In (d, tasks) (p_assign p) ->
  In h (executed (fst (worker_run A S u chw p res0 tasks))) ->
  ~ main_only A u h /\ (In h tasks \/ duplicated A u h \/
     exists g, duplicated A u g /\ exists t t', names u g t /\ names u h t' /\ nneeds t t').
Proof.
  intros Hin Hex. destruct lead_facts as (T0 & K0 & K1 & _).
  pose proof (truthful_good res0 (p_per_gpu p ++ tasks) T0 (fun h => worker_lt d tasks h Hin)) as G.
  assert (Hlt : lt_u h) by exact (executed_lt A S chw u _ res0 _ G h Hex).
  destruct (lt_names u h Hlt) as [t Ht].
  destruct (executed_prefix A S chw u _ res0 _ G) as (sched & rest & HS & Es & _).
  assert (Hr : reachh u (p_per_gpu p ++ tasks) (dkeys res0) h /\ ~ In h (dkeys res0)).
  { apply (so_in _ _ _ _ _ HS). rewrite Es. apply in_or_app. now left. }
  clear -Hr Hs Hwf Hin K1 Hlead Hlt Ht. destruct Hr as [Hr Hu].
  assert (Hgen : forall h, reachh u (p_per_gpu p ++ tasks) (dkeys res0) h -> ~ In h (dkeys res0) ->
     ~ main_only A u h /\ (In h tasks \/ duplicated A u h \/
     exists g, duplicated A u g /\ exists t t', names u g t /\ names u h t' /\ nneeds t t')).
  { clear h Hr Hu Hlt Ht t. intros h Hr. induction Hr as [h Hh|h d' Hr IH Hnc Hd]; intros Hu.
    - apply in_app_or in Hh as [Hh|Hh].
      + split; [now apply (sd_nomain _ _ _ _ Hs); right|]. right. left. now apply (sd_dup _ _ _ _ Hs).
      + split; [|now left]. apply (sd_nomain _ _ _ _ Hs). left. rewrite <- (assigned_of _ _ Hin) in Hh.
        now apply (sd_given _ _ _ _ Hs) in Hh.
    - specialize (IH Hnc). destruct IH as [Hm Hw].
      assert (Hlth : lt_u h). { destruct Hw as [Hw|[Hw|(g & _ & t & t' & _ & Hw & _)]].
        - rewrite <- (assigned_of _ _ Hin) in Hw. apply (sd_given _ _ _ _ Hs) in Hw. now apply (sd_par _ _ _ _ Hs) in Hw.
        - eapply duplicated_lt; eauto.
        - eapply names_lt; eauto. }
      pose proof Hd as Hdep. apply deps_depends in Hdep; auto.
      assert (Hnm : ~ main_only A u d').
      { intros Hm'. assert (Hnt : ~ trailing A u d').
        { intros Ht. inversion Ht as [? _ Hall]; subst. specialize (Hall h Hdep). inversion Hall; subst. contradiction. }
        assert (Hnl : ~ leading A u d') by (intros Hl; apply Hu, K1; auto).
        destruct (in_dec Nat.eq_dec d' (p_per_gpu p)) as [Hp|Hp].
        - exact (sd_nomain _ _ _ _ Hs d' (or_intror Hp) Hm').
        - refine (sd_nomain _ _ _ _ Hs d' (or_introl _) Hm'). apply (sd_par _ _ _ _ Hs). split; [|split; [|split]]; auto.
          + eapply deps_lt; eauto.
          + intros Hd'. apply Hp. now apply (sd_dup _ _ _ _ Hs). }
      split; auto.
      destruct Hdep as (t & k & a & Hn1 & Hn2 & Hn3).
      assert (Hstep : nneeds t a) by (econstructor 2; [tauto|exact Hn2|constructor; tauto]).
      destruct Hw as [Hw|[Hw|(g & Hg & tg & th & Hg1 & Hg2 & Hg3)]].
      + destruct (in_dec Nat.eq_dec d' (p_per_gpu p)) as [Hp|Hp].
        * right. left. now apply (sd_dup _ _ _ _ Hs).
        * left. rewrite <- (assigned_of _ _ Hin) in *. 
          assert (Hpar : In d' (p_parallel p)).
          { apply (sd_par _ _ _ _ Hs). split; [|split; [|split]].
            - eapply names_lt; eauto.
            - intros Hl. apply Hu. now apply K1.
            - intros Htr. apply Hnm. inversion Htr; auto.
            - intros Hd'. apply Hp. now apply (sd_dup _ _ _ _ Hs). }
          apply (sd_together _ _ _ _ Hs _ h); auto. apply (sd_given _ _ _ _ Hs) in Hw.
          eapply conn_dep; [constructor; exact Hw|exact Hpar|]. left. exists t, k, a. auto.
      + right. right. exists h. split; auto. exists t, a. auto.
      + right. right. exists g. split; auto. exists tg, a. split; [|split]; auto. eapply needs_trans; eauto.
        unfold names in *. replace th with t by congruence. auto. }
  apply Hgen; auto.
Qed.

(** the queue *)
Variable chw : nat -> nat -> list nat -> nat.
Hypothesis Hwork : forall d tasks, In (d, tasks) (p_assign p) -> snd (worker_run A S u (chw d) p res0 tasks) = None.
Variables q got lost : list (nat * V).
Hypothesis Hq : interleaved (map (fun dt => map (put none targets p) (yields (fst (worker_run A S u (chw (fst dt)) p res0 (snd dt))))) (p_assign p)) q.
Hypothesis Hgl : q = got ++ lost.
Hypothesis Hlost : forall h v, In (h, v) lost -> ~ In h targets /\ ~ In h (p_trailing_deps p).

Lemma q_facts :
  (forall h v, In (h, v) q -> (In h (p_per_gpu p) \/ In h (p_parallel p)) /\
     ((In h targets \/ In h (p_trailing_deps p)) -> exists t, names u h t /\ eval A S no_env t = Ok v)) /\
  (p_assign p <> [] -> forall h, In h (p_per_gpu p) \/ In h (p_parallel p) -> exists v, In (h, v) q).
Proof.
  split.
  - intros h v Hin. rewrite (interleaved_In _ _ Hq) in Hin. apply in_concat in Hin as (l & Hl & Hin).
    apply in_map_iff in Hl as ([d tasks] & <- & Hdt). cbn [fst snd] in Hin. apply in_map_iff in Hin as ([h' v'] & E & Hy).
    unfold put in E. cbn [fst snd] in E. injection E as -> E.
    destruct (worker_facts (chw d) d tasks Hdt) as (W1 & _). destruct (W1 h v' Hy) as [Hw Hv]. split.
    + destruct Hw as [?|Hw]; auto. right. rewrite <- (assigned_of _ _ Hdt) in Hw. now apply (sd_given _ _ _ _ Hs) in Hw.
    + intros Ht. assert (Eb : mem h targets || mem h (p_trailing_deps p) = true).
      { apply orb_true_iff. rewrite !mem_In. exact Ht. }
      rewrite Eb in E. subst v'. exact Hv.
  - intros Hne h Hh.
    assert (Hd : exists d tasks, In (d, tasks) (p_assign p) /\ (In h (p_per_gpu p) \/ In h tasks)).
    { destruct Hh as [Hh|Hh].
      - destruct (p_assign p) as [|[d tasks] r]; [contradiction|]. exists d, tasks. split; [now left|auto].
      - destruct (sd_place _ _ _ _ Hs h Hh) as (i & _ & Hi). unfold assigned in Hi.
        destruct (dget (p_assign p) i) as [l|] eqn:E; [|destruct Hi]. exists i, l. split; [now apply dget_In|auto]. }
    destruct Hd as (d & tasks & Hdt & Hh'). destruct (worker_facts (chw d) d tasks Hdt) as (_ & W2 & _).
    destruct (W2 (Hwork d tasks Hdt) h Hh') as [v Hv]. eexists. apply (interleaved_In _ _ Hq). apply in_concat.
    eexists. split; [apply in_map_iff; exists (d, tasks); split; [reflexivity|exact Hdt]|].
    cbn [fst snd]. apply in_map_iff. exists (h, v). split; [|exact Hv]. unfold put. cbn. reflexivity.
Qed.

Definition res1 : dict nat V := dset_all res0 got.

Lemma got_q h v : In (h, v) got -> In (h, v) q.
Proof. intros Hg. rewrite Hgl. apply in_or_app. auto. Qed.
Lemma q_got h v : In h targets \/ In h (p_trailing_deps p) -> In (h, v) q -> In (h, v) got.
Proof. rewrite Hgl. intros Ht Hg. apply in_app_or in Hg as [?|Hg]; auto. apply Hlost in Hg. tauto. Qed.

Lemma queue_not_main h v : In (h, v) q -> ~ leading A u h /\ ~ trailing A u h.
Proof.
  intros Hin. apply (proj1 q_facts) in Hin as [Hin _].
  assert (Hm : ~ main_only A u h) by (apply (sd_nomain _ _ _ _ Hs); tauto).
  split; intros Hx; inversion Hx; auto.
Qed.

Lemma res1_NoDup : NoDup (dkeys res1).
Proof. apply dset_all_NoDup, lead_facts. Qed.

(** every task is leading, trailing, duplicated or parallel *)
Lemma kinds h : lt_u h -> leading A u h \/ trailing A u h \/ In h (p_per_gpu p) \/ In h (p_parallel p).
Proof.
  intros Hlt. destruct (in_dec Nat.eq_dec h (p_leading p)) as [Hl|Hl]; [left; now apply (sd_lead _ _ _ _ Hs)|].
  destruct (in_dec Nat.eq_dec h (p_trailing p)) as [Ht|Ht]; [right; left; now apply (sd_trail _ _ _ _ Hs)|].
  destruct (in_dec Nat.eq_dec h (p_per_gpu p)) as [Hd|Hd]; [auto|]. right. right. right.
  apply (sd_par _ _ _ _ Hs). rewrite <- (sd_lead _ _ _ _ Hs), <- (sd_trail _ _ _ _ Hs), <- (sd_dup _ _ _ _ Hs). auto.
Qed.

(** the tasks the trailing stage looks at *)
Definition seen (t : task L) : Prop :=
  p_assign p = [] \/ exists h, names u h t /\ (trailing A u h \/ In h (p_trailing_deps p)).

Lemma assign_nil_q : p_assign p = [] -> q = [].
Proof.
  intros E. rewrite E in Hq. destruct q as [|x q']; auto. exfalso.
  assert (Hx : In x (concat (@nil (list (nat * V))))) by (apply (interleaved_In _ _ Hq); now left). destruct Hx.
Qed.

Lemma seen_true t v : seen t -> env_of res1 t = Some v -> eval A S no_env t = Ok v.
Proof.
  intros Hse Hv. apply env_of_Some in Hv as (h & Hn & Hv). unfold res1 in Hv.
  destruct lead_facts as ((_ & T0) & _).
  apply dset_all_get in Hv as [Hv|Hv].
  - apply got_q in Hv. destruct Hse as [Hse|(h' & Hn' & Hse)].
    + rewrite (assign_nil_q Hse) in Hv. destruct Hv.
    + assert (h' = h) by exact (names_inj u _ _ _ (inv_nodup _ _ Hwf) Hn' Hn). subst h'. destruct Hse as [Htr|Hd].
      * destruct (queue_not_main _ _ Hv). contradiction.
      * destruct (proj2 (proj1 q_facts h v Hv) (or_intror Hd)) as (t' & Hn2 & E). unfold names in *. congruence.
  - destruct (T0 h v Hv) as (t' & Hn2 & E). unfold names in *. congruence.
Qed.

Lemma seen_closed t k a : seen t -> env_of res1 t = None -> In (k, a) (targs t) -> seen a.
Proof.
  intros Hse Hv Hin. destruct (list_eq_nil_dec (p_assign p)) as [Ea|Ea]; [now left|].
  destruct Hse as [Hse|(h & Hn & Hse)]; [now left|]. right.
  rewrite (env_of_matches res1 h t Hn) in Hv. apply dget_None in Hv. unfold res1 in Hv. rewrite dset_all_keys in Hv.
  destruct (names_closed u h t k a Hwf Hn Hin) as [j Hj]. exists j. split; auto. right.
  assert (Htr : trailing A u h).
  { destruct Hse as [?|Hd]; auto. destruct (kinds h (names_lt _ _ _ Hn)) as [Hl|[?|Hw]]; auto; exfalso; apply Hv.
    - left. apply lead_facts; auto.
    - right. destruct (proj2 q_facts Ea h Hw) as [v Hvq].
      apply in_map_iff. exists (h, v). split; auto. apply q_got; auto. }
  apply (sd_tdeps _ _ _ _ Hs). exists h. split; auto. exists t, k, a. auto.
Qed.

Lemma seen_trailing h t : names u h t -> trailing A u h -> seen t.
Proof. intros Hn Ht. right. eauto. Qed.

Lemma trail_good : good u (p_trailing p) res1 (env_of res1).
Proof.
  split; auto.
  - exact trailing_lt'.
  - intros k Hk. unfold res1 in Hk. apply dset_all_keys in Hk as [Hk|Hk].
    + apply lead_facts in Hk. eapply leading_lt; eauto.
    + apply in_map_iff in Hk as ([h v] & <- & Hk). apply got_q, (proj1 q_facts) in Hk as [[Hk|Hk] _].
      * apply (sd_dup _ _ _ _ Hs) in Hk. eapply duplicated_lt; eauto.
      * now apply (sd_par _ _ _ _ Hs) in Hk.
  - apply res1_NoDup.
  - apply env_of_matches.
Qed.

Lemma trail_agree t : seen t -> eval A S (env_of res1) t = eval A S no_env t.
Proof. apply eval_agree; [exact seen_true|exact seen_closed]. Qed.

Lemma trail_error cht e : snd (trail_run A S u cht p res1) = Some e ->
  exists ht tt t, In ht targets /\ names u ht tt /\ nneeds tt t /\ raises A S no_env t e.
Proof.
  intros Est. destruct (run_error A S cht u _ res1 _ trail_good e Est) as (t & (h & t0 & Hin & Hn & Hne) & Hr).
  destruct (need_of h t0 t _ Hn Hne) as (ht & tt & H1 & H2 & H3). exists ht, tt, t. split; [|split; [|split]]; auto.
  apply (sd_trail _ _ _ _ Hs) in Hin. pose proof (seen_trailing _ _ Hn Hin) as Hse.
  destruct (needs_pred (env_of res1) seen seen_closed _ _ Hne Hse) as [Hst Hu].
  eapply raises_agree; [|exact Hr]. intros k a Hka. apply trail_agree. eapply seen_closed; eauto.
Qed.

Lemma trail_values cht h v : In (h, v) (yields (fst (trail_run A S u cht p res1))) ->
  trailing A u h /\ exists t, names u h t /\ eval A S no_env t = Ok v.
Proof.
  intros Hy. destruct (run_yield_value A S cht u _ res1 _ trail_good h v Hy) as (t & Hn & Hin & E).
  apply (sd_trail _ _ _ _ Hs) in Hin. split; auto. exists t. split; auto.
  rewrite <- trail_agree; auto. eapply seen_trailing; eauto.
Qed.

Definition final cht : dict nat V :=
  dset_all res1 (filter (fun hv => mem (fst hv) targets) (yields (fst (trail_run A S u cht p res1)))).

Lemma final_spec cht : (p_assign p <> [] \/ forall h, In h targets -> ~ duplicated A u h) ->
  snd (trail_run A S u cht p res1) = None ->
  let ys := filter (fun hv => mem (fst hv) targets) (final cht) in
  NoDup (map fst ys) /\ (forall h, In h targets -> exists v, In (h, v) ys) /\
  forall h v, In (h, v) ys <-> In h targets /\ exists t, names u h t /\ eval A S no_env t = Ok v.
Proof.
  intros Hdup Est ys.
  assert (Hnd : NoDup (dkeys (final cht))) by apply dset_all_NoDup, res1_NoDup.
  assert (Htrue : forall h v, In h targets -> dget (final cht) h = Some v -> exists t, names u h t /\ eval A S no_env t = Ok v).
  { intros h v Ht Hg. unfold final in Hg. apply dset_all_get in Hg as [Hg|Hg].
    - apply filter_In in Hg as [Hg _]. now apply trail_values in Hg.
    - unfold res1 in Hg. apply dset_all_get in Hg as [Hg|Hg].
      + apply got_q, (proj1 q_facts) in Hg as [_ Hg]. auto.
      + now apply lead_facts. }
  split.
  - unfold ys. clear -Hnd. induction (final cht) as [|[h v] d IH]; [constructor|].
    rewrite dkeys_cons in Hnd. inversion Hnd; subst. cbn [filter fst]. destruct (mem h targets); auto.
    cbn [map fst]. constructor; auto. intros Hin. apply in_map_iff in Hin as ([h' v'] & E & Hin). cbn in E. subst h'.
    apply filter_In in Hin as [Hin _]. match goal with Hx : ~ In h _ |- _ => apply Hx end.
    apply in_map_iff. exists (h, v'). auto.
  - assert (Hkey : forall h, In h targets -> In h (dkeys (final cht))).
    { intros h Ht. destruct (proj1 Hcov h Ht) as [t Hn].
        unfold final, res1. rewrite !dset_all_keys.
        destruct (kinds h (names_lt _ _ _ Hn)) as [Hl|[Htr|Hw]].
        - left. left. apply lead_facts; auto.
        - destruct (In_dec_eqb h (dkeys res1)) as [Hc|Hc].
          + left. unfold res1 in Hc. now apply dset_all_keys in Hc.
          + right. apply (sd_trail _ _ _ _ Hs) in Htr.
            destruct (run_yield_all A S cht u _ res1 _ trail_good h Est Htr Hc) as [v' Hv'].
            apply in_map_iff. exists (h, v'). split; auto. apply filter_In. split; auto. cbn. now apply mem_In.
        - left. right. assert (Hne : p_assign p <> []).
          { destruct Hdup as [?|Hdup]; auto. destruct Hw as [Hw|Hw].
            - exfalso. apply (Hdup h Ht). now apply (sd_dup _ _ _ _ Hs).
            - intros Ea. destruct (sd_place _ _ _ _ Hs h Hw) as (i & _ & Hi). rewrite Ea in Hi. destruct Hi. }
          destruct (proj2 q_facts Hne h Hw) as [v' Hv']. apply in_map_iff. exists (h, v'). split; auto.
          apply q_got; auto. }
    split.
    + intros h Ht. destruct (proj1 (dget_Some_key _ _) (Hkey h Ht)) as [v Hv]. exists v. apply filter_In. cbn [fst]. split; [now apply dget_In|now apply mem_In].
    + intros h v. unfold ys. rewrite filter_In. cbn [fst]. rewrite mem_In. split.
      * intros [Hin Ht]. split; auto. apply Htrue; auto. now apply dget_In_NoDup.
      * intros (Ht & t & Hn & E). split; auto. apply dget_In.
        pose proof (Hkey h Ht) as Hk.
        apply dget_Some_key in Hk as [v' Hv']. destruct (Htrue h v' Ht Hv') as (t' & Hn' & E').
        unfold names in *. congruence.
Qed.
End Lead.

Lemma mg_run_ok lost r : mg_run A S u none targets p lost r ->
  (forall h v, In (h, v) lost -> ~ In h targets /\ ~ In h (p_trailing_deps p)) ->
  (p_assign p <> [] \/ forall h, In h targets -> ~ duplicated A u h) ->
  match r with
  | Ok ys => NoDup (map fst ys) /\ (forall h, In h targets -> exists v, In (h, v) ys) /\
             forall h v, In (h, v) ys <-> In h targets /\ exists t, names u h t /\ eval A S no_env t = Ok v
  | Err e => exists ht tt t, In ht targets /\ names u ht tt /\ nneeds tt t /\ raises A S no_env t e
  end.
Proof.
  intros Hr Hlost Hdup. destruct Hr as [ch e lost E|ch chw d tasks e lost E Hin Ew|ch chw q got lost cht e E Ew Hq Hgl Et|ch chw q got lost cht E Ew Hq Hgl Et].
  - now apply (lead_facts ch).
  - exact (proj2 (proj2 (worker_facts ch chw d tasks Hin)) e Ew).
  - eapply trail_error; eauto.
  - eapply final_spec; eauto.
Qed.

Lemma mg_run_exists : exists r, mg_run A S u none targets p [] r.
Proof.
  set (ch := fun _ _ : nat => 0). set (c0 := fun (_ : nat) (_ : list nat) => 0). clear ch.
  destruct (snd (lead_run A S u c0 p)) as [e|] eqn:E; [exists (Err e); econstructor 1; eauto|].
  destruct (existsb (fun dt => match snd (worker_run A S u c0 p (res0 c0) (snd dt)) with Some _ => true | None => false end) (p_assign p)) eqn:Ew.
  - apply existsb_exists in Ew as ([d tasks] & Hin & Ew). cbn [snd] in Ew.
    destruct (snd (worker_run A S u c0 p (res0 c0) tasks)) as [e|] eqn:E'; [|discriminate].
    exists (Err e). econstructor 2; eauto.
  - assert (Hw : forall d tasks, In (d, tasks) (p_assign p) -> snd (worker_run A S u c0 p (res0 c0) tasks) = None).
    { intros d tasks Hin. destruct (snd (worker_run A S u c0 p (res0 c0) tasks)) as [e|] eqn:E'; auto. exfalso.
      rewrite <- not_true_iff_false in Ew. apply Ew, existsb_exists. exists (d, tasks). split; auto. cbn [snd]. now rewrite E'. }
    destruct (interleaved_exists (map (fun dt => map (put none targets p) (yields (fst (worker_run A S u c0 p (res0 c0) (snd dt))))) (p_assign p))) as [q Hq].
    destruct (snd (trail_run A S u c0 p (dset_all (res0 c0) q))) as [e|] eqn:Et.
    + exists (Err e). eapply (mg_trail_error A S u none targets p c0 (fun _ => c0) q q [] c0); eauto. now rewrite app_nil_r.
    + eexists. eapply (mg_finished A S u none targets p c0 (fun _ => c0) q q [] c0); eauto. now rewrite app_nil_r.
Qed.
End Run.
