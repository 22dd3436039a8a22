(** Top-level facts about the executor, in the vocabulary of Spec.v. *)
From Verif.Base Require Import Py PyFacts.
From Verif.Graph Require Import Model Spec UniverseProofs TopoProofs ScheduleProofs ExecProofs.

Section Top.
Context {L V : Type} `{Eqb L} (A : attrs L) (S : semantics L V).

Definition env_cached (env : task L -> option V) : task L -> Prop := fun t => env t <> None.

Lemma needs_reach u targets (cached : dict nat V) env h t :
  wf_u u -> env_matches u cached env -> (forall x, In x targets -> x < length (u_tasks u)) ->
  names u h t ->
  ((reachh u targets (dkeys cached) h /\ ~ In h (dkeys cached)) <->
   exists ht tt, In ht targets /\ names u ht tt /\ needs (env_cached env) tt t).
Proof.
  intros HU Henv Hlt Hn.
  assert (Hc : forall h t, names u h t -> (~ env_cached env t <-> ~ In h (dkeys cached))).
  { intros h0 t0 Hn0. unfold env_cached. rewrite (Henv h0 t0 Hn0), dget_Some_key.
    destruct (dget cached h0); split; intros HX; try tauto.
    - intros _. apply HX. discriminate.
    - exfalso. apply HX. eauto.
    - intros [? [=]]. }
  split.
  - intros [Hr Hnc].
    assert (G : forall h, reachh u targets (dkeys cached) h ->
              exists th, names u h th /\ forall tx, needs (env_cached env) th tx ->
                exists ht tt, In ht targets /\ names u ht tt /\ needs (env_cached env) tt tx).
    { clear Hnc Hr Hn h t. induction 1 as [h Hh|h d Hr IH Hcd Hd].
      - destruct (lt_names u h (Hlt h Hh)) as [t Ht]. exists t. split; auto. intros tx Hx. exists h, t. auto.
      - destruct IH as (th & Hth & HX).
        apply deps_depends in Hd as (t' & k & a & Ht' & Hin & Ha); auto; [|eapply names_lt; eauto].
        assert (t' = th) by (unfold names in *; congruence). subst t'.
        exists a. split; auto. intros tx Hx. apply HX. eapply needs_arg; eauto. now apply (Hc h th). }
    destruct (G h Hr) as (th & Hth & HX). assert (th = t) by (unfold names in *; congruence). subst th.
    apply HX. apply needs_self. now apply (Hc h t).
  - intros (ht & tt & Hin & Htt & Hne).
    assert (G : forall tt tx, needs (env_cached env) tt tx -> forall ht hx, names u ht tt -> names u hx tx ->
              reachh u targets (dkeys cached) ht ->
              reachh u targets (dkeys cached) hx /\ ~ In hx (dkeys cached)).
    { clear -HU Henv Hlt Hc. induction 1 as [t Hnc|t k a t' Hnc Hin _ IH]; intros ht hx Hht Hhx Hr.
      - assert (ht = hx) by (eapply names_inj; eauto; apply HU). subst hx. split; auto. now apply (Hc ht t).
      - destruct (names_closed u ht t k a HU Hht Hin) as [j Hj].
        apply (IH j hx); auto. eapply reach_dep; eauto.
        + now apply (Hc ht t).
        + apply deps_depends; auto; [eapply names_lt; eauto|]. exists t, k, a. auto. }
    eapply G; eauto. now apply reach_target.
Qed.

Record good (u : universe L) (targets : list nat) (cached : dict nat V) (env : task L -> option V) : Prop := {
  g_wf : wf_u u;
  g_targets : forall h, In h targets -> h < length (u_tasks u);
  g_cached : forall k, In k (dkeys cached) -> k < length (u_tasks u);
  g_nodup : NoDup (dkeys cached);
  g_env : env_matches u cached env
}.

(** the complete description of a run *)
Lemma executor_run_ok choose u targets cached env : good u targets cached env ->
  exists sched, sched_ok A u targets (dkeys cached) sched /\
    run_spec A S u targets cached env [] sched
      (fst (executor_run A S choose u targets cached)) (snd (executor_run A S choose u targets cached)).
Proof.
  intros [HU Ht Hc HN He].
  destruct (build_schedule_ok A u targets (dkeys cached) choose HU Ht) as (s & Es & HS & Hl).
  exists (s_tasks s). split; auto. unfold executor_run. rewrite Es.
  destruct targets as [|t0 ts] eqn:Etg.
  - assert (s_tasks s = []) as ->.
    { destruct (s_tasks s) as [|x r] eqn:E; auto. exfalso.
      assert (Hx : In x (x :: r)) by now left. apply (so_in _ _ _ _ _ HS) in Hx as [Hr _].
      clear -Hr. induction Hr as [? []|]; auto. }
    cbn. exists [], []. cbn. split; [auto|]. split; [auto|]. split; [intros ? ? ? []|].
    split; [intros ? ? []|]. split; [auto|]. split; [|auto]. intros [|i] ks; discriminate.
  - rewrite <- Etg in *. rewrite Hl by (subst; discriminate).
    apply (run_from_ok A S u HU targets cached env (s_tasks s) He Ht HS (s_tasks s) [] cached).
    apply RInv_init with (targets := targets); auto.
Qed.

Lemma raises_eval env t e : env t = None -> raises A S env t e -> eval A S env t = Err e.
Proof.
  intros Henv (vs & HF & Ee). rewrite eval_unfold by auto.
  assert (E : rmapM (fun kt => let! v := eval A S env (snd kt) in
                 Ok (fst kt, if uses_accelerator A (label t) then to_math S v else v)) (targs t) = Ok vs).
  { apply rmapM_Ok_Forall2. eapply Forall2_impl; [|exact HF].
    cbn. intros [k a] [k' v'] (E1 & v & E2 & E3). cbn in *. rewrite E2. cbn. congruence. }
  rewrite E. cbn [rbind]. rewrite Ee. reflexivity.
Qed.

Lemma needs_err env t t' e : needs (env_cached env) t t' -> eval A S env t' = Err e ->
  exists e', eval A S env t = Err e'.
Proof.
  induction 1 as [t Hc|t k a t' Hc Hin _ IH]; intros E; [eauto|].
  destruct (IH E) as [e' E'].
  assert (Henv : env t = None) by (unfold env_cached in Hc; destruct (env t); auto; exfalso; apply Hc; discriminate).
  rewrite eval_unfold by auto.
  destruct (rmapM _ (targs t)) as [vs|e2] eqn:EM; [|cbn; eauto].
  exfalso. apply rmapM_Ok_Forall2 in EM. clear -EM Hin E'.
  induction EM as [|x y l l' Hx _ IH]; [destruct Hin|].
  destruct Hin as [->|Hin]; auto. cbn in Hx. rewrite E' in Hx. discriminate.
Qed.

Lemma needs_uncached env t t' : needs (env_cached env) t t' -> env t' = None.
Proof.
  induction 1 as [t Hc|]; auto. unfold env_cached in Hc. destruct (env t); auto. exfalso. apply Hc. discriminate.
Qed.

(** ** the executor on handles with cached values *)
Section Handles.
Variables (choose : nat -> list nat -> nat) (u : universe L) (targets : list nat) (cached : dict nat V)
          (env : task L -> option V).
Hypothesis G : good u targets cached env.
Let evs := fst (executor_run A S choose u targets cached).
Let st := snd (executor_run A S choose u targets cached).

Definition needed (t : task L) : Prop :=
  exists ht tt, In ht targets /\ names u ht tt /\ needs (env_cached env) tt t.

Lemma run_error e : st = Some e -> exists t, needed t /\ raises A S env t e.
Proof.
  intros Est. destruct (executor_run_ok choose u targets cached env G) as (sched & HS & HR).
  destruct HR as (p & q & Er & Hy & Hyv & Hpv & Hlen & Hks & Hst). fold st in Hst. rewrite Est in Hst.
  destruct Hst as (h & q' & t & -> & Hex & Hn & Hra). exists t. split; auto.
  destruct G. apply (needs_reach u targets cached env h t); auto.
  apply (so_in _ _ _ _ _ HS). rewrite Er, in_app_iff. cbn. auto.
Qed.

Lemma run_no_error : (forall ht tt, In ht targets -> names u ht tt -> exists v, eval A S env tt = Ok v) -> st = None.
Proof.
  intros Hall. destruct st as [e|] eqn:Est; auto. exfalso.
  destruct (run_error e Est) as (t & (ht & tt & Hin & Hn & Hne) & Hra).
  pose proof (needs_uncached _ _ _ Hne) as Hu. apply raises_eval in Hra; auto.
  destruct (needs_err _ _ _ _ Hne Hra) as [e' E']. destruct (Hall ht tt Hin Hn). congruence.
Qed.

Lemma executed_prefix : exists sched rest, sched_ok A u targets (dkeys cached) sched /\
  sched = executed evs ++ rest /\ (st = None -> rest = []).
Proof.
  destruct (executor_run_ok choose u targets cached env G) as (sched & HS & HR).
  destruct HR as (p & q & Er & Hy & Hyv & Hpv & Hlen & Hks & Hst). fold st in Hst. fold evs in Hst.
  exists sched. destruct st as [e|].
  - destruct Hst as (h & q' & t & -> & Hex & Hn & Hra). exists q'. split; auto. split; [|discriminate].
    rewrite Hex, <- app_assoc. auto.
  - destruct Hst as [-> Hex]. exists []. rewrite Hex, app_nil_r. auto.
Qed.

Lemma run_executed_once : NoDup (executed evs).
Proof.
  destruct executed_prefix as (sched & rest & HS & Es & _).
  pose proof (so_nodup _ _ _ _ _ HS) as HN. rewrite Es in HN. now apply NoDup_app_remove_r in HN.
Qed.

Lemma run_executed_needed h t : names u h t -> In h (executed evs) -> needed t.
Proof.
  intros Hn Hin. destruct executed_prefix as (sched & rest & HS & Es & _).
  destruct G. apply (needs_reach u targets cached env h t); auto.
  apply (so_in _ _ _ _ _ HS). rewrite Es, in_app_iff. auto.
Qed.

Lemma run_needed_executed h t : st = None -> names u h t -> needed t -> In h (executed evs).
Proof.
  intros Est Hn Hne. destruct executed_prefix as (sched & rest & HS & Es & Hr).
  rewrite (Hr Est), app_nil_r in Es. rewrite <- Es. apply (so_in _ _ _ _ _ HS).
  destruct G. apply (needs_reach u targets cached env h t); auto.
Qed.

Lemma run_executed_order l1 h l2 d : executed evs = l1 ++ h :: l2 -> depends u h d ->
  In d (dkeys cached) \/ In d l1.
Proof.
  intros E Hd. destruct executed_prefix as (sched & rest & HS & Es & Hr).
  rewrite E, <- app_assoc in Es. eapply (so_order _ _ _ _ _ HS); [exact Es|].
  apply deps_depends; [apply G| |exact Hd]. destruct Hd as (t & k & a & Hn & _). eapply names_lt; eauto.
Qed.

Lemma executed_lt h : In h (executed evs) -> h < length (u_tasks u).
Proof.
  intros Hin. destruct executed_prefix as (sched & rest & HS & Es & _).
  assert (Hs : In h sched) by (rewrite Es, in_app_iff; auto).
  apply (so_in _ _ _ _ _ HS) in Hs as [Hr _]. exact (reachh_lt u targets _ h (g_wf _ _ _ _ G) (g_targets _ _ _ _ G) Hr).
Qed.

Lemma run_yield_value h v : In (h, v) (yields evs) ->
  exists t, names u h t /\ In h targets /\ eval A S env t = Ok v.
Proof.
  intros Hin. destruct (executor_run_ok choose u targets cached env G) as (sched & HS & HR).
  destruct HR as (p & q & Er & Hy & Hyv & Hpv & Hlen & Hks & Hst). fold evs in Hy, Hyv.
  assert (Hf : In h (filter (fun h => mem h targets) p)).
  { rewrite <- Hy. apply in_map_iff. exists (h, v). auto. }
  apply filter_In in Hf as [Hp Ht]. apply mem_In in Ht.
  destruct (lt_names u h (g_targets _ _ _ _ G h Ht)) as [t Hn]. exists t. eauto.
Qed.

Lemma run_yield_nodup : NoDup (map fst (yields evs)).
Proof.
  destruct (executor_run_ok choose u targets cached env G) as (sched & HS & HR).
  destruct HR as (p & q & Er & Hy & _). fold evs in Hy. rewrite Hy. apply NoDup_filter.
  pose proof (so_nodup _ _ _ _ _ HS) as HN. rewrite Er in HN. now apply NoDup_app_remove_r in HN.
Qed.

Lemma run_yield_all h : st = None -> In h targets -> ~ In h (dkeys cached) -> exists v, In (h, v) (yields evs).
Proof.
  intros Est Ht Hc. destruct (executor_run_ok choose u targets cached env G) as (sched & HS & HR).
  destruct HR as (p & q & Er & Hy & Hyv & Hpv & Hlen & Hks & Hst). fold st in Hst. rewrite Est in Hst.
  destruct Hst as [-> _]. rewrite app_nil_r in Er. subst p. fold evs in Hy.
  assert (Hf : In h (map fst (yields evs))).
  { rewrite Hy. apply filter_In. split; [|now apply mem_In]. apply (so_in _ _ _ _ _ HS). split; auto.
    now apply reach_target. }
  apply in_map_iff in Hf as ([h' v] & E & Hin). cbn in E. subst. eauto.
Qed.

Lemma run_yield_uncached h v : In (h, v) (yields evs) -> ~ In h (dkeys cached).
Proof.
  intros Hin. destruct (executor_run_ok choose u targets cached env G) as (sched & HS & HR).
  destruct HR as (p & q & Er & Hy & _). fold evs in Hy.
  assert (Hf : In h (filter (fun h => mem h targets) p)).
  { rewrite <- Hy. apply in_map_iff. exists (h, v). auto. }
  apply filter_In in Hf as [Hp _].
  assert (Hs : In h sched) by (rewrite Er, in_app_iff; auto). now apply (so_in _ _ _ _ _ HS) in Hs.
Qed.

Lemma run_keeps : st = None ->
  length (keeps evs) = length (executed evs) /\
  forall i ks, nth_error (keeps evs) i = Some ks ->
    NoDup ks /\ forall k, In k ks <->
      resident u (dkeys cached) (firstn (Datatypes.S i) (executed evs)) (skipn (Datatypes.S i) (executed evs)) k.
Proof.
  intros Est. destruct (executor_run_ok choose u targets cached env G) as (sched & HS & HR).
  destruct HR as (p & q & Er & Hy & Hyv & Hpv & Hlen & Hks & Hst). fold st in Hst. rewrite Est in Hst.
  fold evs in Hlen, Hks, Hst. destruct Hst as [-> Hex]. rewrite app_nil_r in Er. subst p.
  rewrite Hex. split; auto.
Qed.

Lemma node_key_of h t : names u h t ->
  node_key A u (Some h) = (group_of A t, (- priority A (label t))%Z).
Proof. intros Hn. unfold node_key. unfold names in Hn. rewrite Hn. reflexivity. Qed.

Lemma run_greedy l1 x l2 y tx ty : executed evs = l1 ++ x :: l2 -> In y l2 ->
  names u x tx -> names u y ty -> (forall d, depends u y d -> In d l1) ->
  preferred A ty tx -> In y targets /\ group_of A tx = EmptyString /\ (0 <= priority A (label tx))%Z.
Proof.
  intros E Hy Hx Hny Hd Hp. destruct executed_prefix as (sched & rest & HS & Es & Hr).
  rewrite E, <- app_assoc in Es. cbn in Es.
  pose proof (so_greedy _ _ _ _ _ HS l1 x (l2 ++ rest) y Es) as HG.
  rewrite (node_key_of x tx Hx), (node_key_of y ty Hny) in HG. cbn [fst snd] in HG.
  assert (HP : String.compare (group_of A ty) (group_of A tx) = Lt \/
     group_of A ty = group_of A tx /\ (- priority A (label ty) < - priority A (label tx))%Z).
  { destruct Hp as [|[? ?]]; auto. right. split; auto. lia. }
  assert (Hneg : ~ (~ In y targets \/
     String.compare (group_of A tx) EmptyString = Gt \/
     (group_of A tx = EmptyString /\ (- priority A (label tx) > 0)%Z))).
  { intros HX. apply HG; auto.
    - rewrite in_app_iff. auto.
    - intros d Hdd. apply Hd. apply deps_depends; auto; [apply G|eapply names_lt; eauto]. }
  assert (Hty : In y targets).
  { destruct (In_dec_eqb y targets); auto. exfalso. apply Hneg. auto. }
  split; auto.
  assert (Hg : group_of A tx = EmptyString).
  { destruct (group_of A tx) as [|a s] eqn:Eg; auto. exfalso. apply Hneg. right. left. reflexivity. }
  split; auto. destruct (Z_le_gt_dec 0 (priority A (label tx))); auto. exfalso. apply Hneg. right. right.
  split; auto. lia.
Qed.
End Handles.

(** ** the executor on task objects *)
Lemma run_tasks_good ts : Forall wf_task ts ->
  let u := add_tasks ts empty_universe in
  exists hs, handles_of ts u = (u, hs) /\ Forall2 (fun t h => names u h t) ts hs /\
             good u hs [] (@no_env L V).
Proof.
  intros HF u.
  destruct (add_tasks_wf ts empty_universe empty_Inv HF) as (HU & _ & Hin). fold u in HU, Hin.
  destruct (handles_of_known ts u HU Hin) as (hs & E & HF2). exists hs. split; auto. split; auto.
  split; auto.
  - intros h Hh. clearbody u. clear -HF2 Hh. induction HF2 as [|t h' l l' Hn HF IH]; [destruct Hh|].
    destruct Hh as [->|Hh]; auto. eapply names_lt; eauto.
  - intros k [].
  - constructor.
  - intros h t Hn. reflexivity.
Qed.
End Top.

Lemma built_good {L V} `{Eqb L} (u : universe L) targets (cached : dict nat V) env :
  built u -> (forall h, In h targets -> exists t, names u h t) ->
  (forall h, In h (dkeys cached) -> exists t, names u h t) -> NoDup (dkeys cached) ->
  env_matches u cached env -> good u targets cached env.
Proof.
  intros HB Ht Hc HN He. split; auto.
  - now apply built_wf.
  - intros h Hh. destruct (Ht h Hh). eapply names_lt; eauto.
  - intros h Hh. destruct (Hc h Hh). eapply names_lt; eauto.
Qed.

Lemma run_tasks_spec {L V} `{Eqb L} (A : attrs L) (S : semantics L V) choose ts : Forall wf_task ts ->
  let r := executor_run_tasks A S choose ts in
  let u := fst r in let evs := fst (snd r) in let st := snd (snd r) in
  (forall h v, In (h, v) (yields evs) -> exists t, names u h t /\ In t ts /\ eval A S no_env t = Ok v) /\
  NoDup (map fst (yields evs)) /\
  (st = None -> forall t, In t ts -> exists h v, names u h t /\ In (h, v) (yields evs)) /\
  (forall e, st = Some e -> exists t t', In t ts /\ needs (fun _ => False) t t' /\ raises A S no_env t' e) /\
  ((forall t, In t ts -> exists v, eval A S no_env t = Ok v) -> st = None).
Proof.
  intros HF r. unfold executor_run_tasks in r.
  destruct (run_tasks_good (V:=V) ts HF) as (hs & E & HF2 & HG). unfold r. rewrite E. cbn [fst snd].
  set (u := add_tasks ts empty_universe) in *.
  assert (Hts : forall h t, In h hs -> names u h t -> In t ts).
  { intros h t Hh Hn. clearbody u. clear -HF2 Hh Hn. induction HF2 as [|t' h' l l' Hn' HF IH]; [destruct Hh|].
    destruct Hh as [->|Hh]; [left; unfold names in *; congruence|right; auto]. }
  assert (Hhs : forall t, In t ts -> exists h, In h hs /\ names u h t).
  { intros t Ht. clearbody u. clear -HF2 Ht. induction HF2 as [|t' h' l l' Hn' HF IH]; [destruct Ht|].
    destruct Ht as [->|Ht]; [exists h'; split; [now left|auto]|]. destruct (IH Ht) as (h & ? & ?).
    exists h. split; [now right|auto]. }
  split; [|split; [|split; [|split]]].
  - intros h v Hin. destruct (run_yield_value A S choose u hs [] no_env HG h v Hin) as (t & Hn & Hh & Hev). eauto.
  - now apply (run_yield_nodup A S choose u hs [] no_env HG).
  - intros Est t Ht. destruct (Hhs t Ht) as (h & Hh & Hn).
    destruct (run_yield_all A S choose u hs [] no_env HG h Est Hh) as (v & Hv); [intros []|]. eauto.
  - intros e Est. destruct (run_error A S choose u hs [] no_env HG e Est) as (t & (ht & tt & Hh & Hn & Hne) & Hra).
    exists tt, t. split; [eauto|]. split; auto.
    clear -Hne. induction Hne as [t Hc|t k a t' Hc Hin _ IH].
    + apply needs_self. tauto.
    + eapply needs_arg; eauto.
  - intros Hall. apply (run_no_error A S choose u hs [] no_env HG). intros ht tt Hh Hn. apply Hall. eauto.
Qed.
