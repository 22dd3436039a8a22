(** The calls made on the writer by a multi-GPU merge. *)
From Coq Require Import QArith Lia Permutation.
From Verif.Base Require Import Py PyStr PyFacts.
From Verif.Config Require Import Model.
From Verif.Arch Require Import Model.
From Verif.Plan Require Import Model.
From Verif.Graph Require Import Model Spec UniverseProofs ScheduleProofs ExecProofs Proofs.
From Verif.IO Require Import Model Spec.
From Verif.MultiGPU Require Import Model Spec Proofs RunProofs.
From Verif.MultiGPU Require Props.
From Verif.Run Require Import Model Spec Proofs PlanProofs ActProofs.
From Verif.Parallel Require Import Model Proofs.
Local Open Scope string_scope.
Local Open Scope list_scope.

(** forgetting the calls *)
Lemma gpu_mg {M} `{Eqb M} {T K} (E : env M T K) A u targets p lost r cs : gpu_run E A u targets p lost r cs ->
  mg_run (gpu_attrs A) (sem E) u none targets p lost r.
Proof.
  intros Hr. destruct Hr as [ch e lost El|ch chw d tasks e lost cs El Hin Ew Hi|ch chw q got lost cht cs again El Hw Hq Hgl Hi Hag].
  - econstructor 1; eauto.
  - econstructor 2; eauto.
  - destruct (snd (trail E A u cht p (dset_all (led E A u ch p) got))) as [e|] eqn:Et; [eapply mg_trail_error; eauto|eapply mg_finished; eauto].
Qed.

Section Calls.
Context {M : Type} `{Eqb M} {T K : Type}.
Variable (E : env M T K) (A : attrs (lbl M)) (tok : bool) (saves : list (save_task M)).
Notation val := (value M T K).
Notation ts := (disk_targets E tok saves).
Notation G := (gpu_attrs A).
Notation final_task := (finalize_node (map (save_node E) saves)).
Hypothesis good_saves : forall s, In s saves -> good_task E (sv_task s).
Hypothesis names_distinct : NoDup (map sv_name saves).
Hypothesis some_saves : saves <> [].
Variables (u : universe (lbl M)) (targets : list nat).
Hypothesis Hasked : Props.asked ts u targets.
Variables (p : partition) (num : nat).
Hypothesis Hs : sound G u p num.
Let HU : wf_u u := proj1 (Props.asked_ok _ _ _ Hasked).
Let HC : covers u targets := proj2 (Props.asked_ok _ _ _ Hasked).
Notation save_acts sv := (map (fun nt : string * T => ASave (fst nt) (snd nt)) sv).

Lemma acts_saves (evs : list (event val)) : (forall h v, In (h, v) (yields evs) -> v <> VFinalized) -> acts evs = save_acts (saved (yields evs)).
Proof.
  unfold acts. induction (yields evs) as [|[h v] y IH]; cbn; auto. intros Hv. rewrite IH by (intros; eapply Hv; right; eauto).
  specialize (Hv h v (or_introl eq_refl)). destruct v; cbn; auto; [|congruence]. now destruct x.
Qed.
Lemma leading_le h : In h (p_leading p) -> (h < length (u_tasks u))%nat.
Proof. intros Hh. apply (sd_lead _ _ _ _ Hs) in Hh. eapply leading_lt; eauto. Qed.
Lemma lead_yield ch h v : In (h, v) (yields (fst (lead E A u ch p))) -> v = VWriter.
Proof.
  intros Hy. destruct (truthful_run G (sem E) u targets HU HC [] (p_leading p) ch (empty_truthful _ _ _) leading_le) as (Y1 & _).
  destruct (Y1 h v Hy) as (Hl & _ & t & Hn & Ev). apply (sd_lead _ _ _ _ Hs) in Hl. apply (leading_iff E A tok saves some_saves u targets Hasked) in Hl.
  unfold names in *. assert (t = writer_task) by congruence. subst t. unfold writer_task in Ev. rewrite eval_node in Ev. cbn in Ev. congruence.
Qed.
Lemma lead_acts ch : acts (fst (lead E A u ch p)) = [].
Proof.
  unfold acts. assert (Hv := lead_yield ch). induction (yields _) as [|[h v] y IH]; cbn; auto.
  rewrite IH by (intros; eapply Hv; right; eauto). rewrite (Hv h v (or_introl eq_refl)). reflexivity.
Qed.

Section Workers.
Variables (ch : nat -> list nat -> nat) (chw : nat -> nat -> list nat -> nat).
Definition wyields (dt : nat * list nat) : list (nat * val) := yields (fst (worker E A u (chw (fst dt)) p (led E A u ch p) (snd dt))).
Lemma worker_yield dt h v : In dt (p_assign p) -> In (h, v) (wyields dt) ->
  In h (assigned (p_assign p) (fst dt)) /\ exists t, names u h t /\ eval G (sem E) no_env t = Ok v.
Proof.
  destruct dt as [d tasks]. intros Hin Hy. destruct (worker_facts G (sem E) u targets HU HC p num Hs ch (chw d) d tasks Hin) as (W1 & _).
  destruct (W1 h v Hy) as ([Hd|Ht] & Hv).
  - apply (sd_dup _ _ _ _ Hs) in Hd. destruct (none_duplicated A u h Hd).
  - split; auto. cbn. now rewrite (assigned_of G u p num Hs d tasks Hin).
Qed.
Lemma not_final dt h v : In dt (p_assign p) -> In (h, v) (wyields dt) -> v <> VFinalized.
Proof.
  intros Hin Hy ->. destruct (worker_yield dt h VFinalized Hin Hy) as (Ha & t & Hn & Ev).
  apply (value_finalized E A tok saves u targets Hasked h t Hn) in Ev. subst t.
  apply (sd_given _ _ _ _ Hs), (sd_par _ _ _ _ Hs) in Ha as (_ & _ & Ht & _). apply Ht, (trailing_iff E A tok saves some_saves u targets Hasked), Hn.
Qed.
Definition all_yields : list (nat * val) := concat (map wyields (p_assign p)).
Lemma all_yield h v : In (h, v) all_yields <-> exists dt, In dt (p_assign p) /\ In (h, v) (wyields dt).
Proof.
  unfold all_yields. rewrite in_concat. split.
  - intros (l & Hl & Hy). apply in_map_iff in Hl as (dt & <- & Hd). eauto.
  - intros (dt & Hd & Hy). exists (wyields dt). split; auto. now apply in_map.
Qed.
Lemma worker_nodup dt : In dt (p_assign p) -> NoDup (map fst (wyields dt)).
Proof.
  destruct dt as [d tasks]. intros Hin. destruct (lead_facts G (sem E) u targets HU HC p num Hs ch) as (T0 & _).
  exact (proj1 (proj2 (truthful_run G (sem E) u targets HU HC (res0 G (sem E) u p ch) (p_per_gpu p ++ tasks) (chw d) T0 (fun h => worker_lt G u p num Hs d tasks h Hin)))).
Qed.
Lemma all_nodup : NoDup (map fst all_yields).
Proof.
  unfold all_yields. rewrite concat_map, map_map. apply NoDup_concat.
  - exact (sd_knodup _ _ _ _ Hs).
  - intros x Hx. now apply worker_nodup.
  - intros x y h Hx Hy H1 H2. apply in_map_iff in H1 as ([h1 v1] & E1 & H1), H2 as ([h2 v2] & E2 & H2). cbn in E1, E2. subst h1 h2.
    apply (sd_unique _ _ _ _ Hs _ _ h); [exact (proj1 (worker_yield x h v1 Hx H1))|exact (proj1 (worker_yield y h v2 Hy H2))].
Qed.
Lemma saved_outputs n t : In (n, t) (saved all_yields) -> In (n, t) (outputs E saves).
Proof.
  intros Hi. apply saved_In in Hi as (h & Hi). apply all_yield in Hi as (dt & Hd & Hy). destruct (worker_yield dt h _ Hd Hy) as (_ & x & Hn & Ev).
  destruct (value_saved E A tok saves good_saves u targets Hasked h x n (Some t) Hn Ev) as (s & Hin & -> & -> & Ho). apply outputs_In. eauto.
Qed.
Lemma saved_nodup : NoDup (map fst (saved all_yields)).
Proof.
  apply saved_NoDup; [exact all_nodup|]. intros h1 h2 n t1 t2 H1 H2. apply all_yield in H1 as (d1 & D1 & Y1), H2 as (d2 & D2 & Y2).
  destruct (worker_yield d1 h1 _ D1 Y1) as (_ & x1 & N1 & E1). destruct (worker_yield d2 h2 _ D2 Y2) as (_ & x2 & N2 & E2).
  destruct (value_saved E A tok saves good_saves u targets Hasked h1 x1 n _ N1 E1) as (s1 & I1 & -> & -> & _).
  destruct (value_saved E A tok saves good_saves u targets Hasked h2 x2 _ _ N2 E2) as (s2 & I2 & -> & En & _).
  assert (s1 = s2) by (eapply name_inj; eauto). subst s2. exact (same_name E tok saves u targets Hasked h1 h2 _ N1 N2).
Qed.
Lemma saved_app (a b : list (nat * val)) : saved (a ++ b) = saved a ++ saved b.
Proof. apply flat_map_app. Qed.
Lemma worker_calls cs : interleaved (worker_acts E A u ch chw p) cs -> exists sv, cs = save_acts sv /\ Permutation sv (saved all_yields).
Proof.
  intros Hi.
  assert (Ea : worker_acts E A u ch chw p = map (map (fun nt : string * T => ASave (fst nt) (snd nt))) (map (fun dt => saved (wyields dt)) (p_assign p))).
  { unfold worker_acts. rewrite map_map. apply map_ext_in. intros dt Hd. apply acts_saves. intros h v. now apply (not_final dt). }
  rewrite Ea in Hi. apply interleaved_map in Hi as (sv & -> & Hi). exists sv. split; auto. apply interleaved_Permutation in Hi. rewrite Hi.
  unfold all_yields. clear. induction (p_assign p) as [|a l IH]; cbn [map concat]; [constructor|]. rewrite saved_app. now apply Permutation_app.
Qed.

(** when no worker fails *)
Hypothesis Hlead : snd (lead E A u ch p) = None.
Hypothesis Hwork : forall d tasks, In (d, tasks) (p_assign p) -> snd (worker E A u (chw d) p (led E A u ch p) tasks) = None.
Lemma parallel_iff h : In h (p_parallel p) <-> (exists t, names u h t) /\ ~ names u h writer_task /\ ~ names u h final_task.
Proof.
  rewrite (sd_par _ _ _ _ Hs), (leading_iff E A tok saves some_saves u targets Hasked), (trailing_iff E A tok saves some_saves u targets Hasked). split.
  - intros (Hl & H1 & H2 & _). split; auto. now apply lt_names.
  - intros ((t & Hn) & H1 & H2). split; [eapply names_lt; eauto|]. split; [auto|]. split; [auto|apply none_duplicated].
Qed.
Lemma parallel_done h t : names u h t -> t <> writer_task -> t <> final_task -> exists v, In (h, v) all_yields /\ eval G (sem E) no_env t = Ok v.
Proof.
  intros Hn H1 H2. assert (Hp : In h (p_parallel p)).
  { apply parallel_iff. split; [eauto|]. unfold names in *. split; congruence. }
  destruct (sd_place _ _ _ _ Hs h Hp) as (i & _ & Hi). unfold assigned in Hi. destruct (dget (p_assign p) i) as [tasks|] eqn:Ed; [|destruct Hi].
  apply dget_In in Ed. destruct (worker_facts G (sem E) u targets HU HC p num Hs ch (chw i) i tasks Ed) as (_ & W2 & _).
  destruct (W2 (Hwork i tasks Ed) h (or_intror Hi)) as (v & Hv). exists v. assert (Hy : In (h, v) (wyields (i, tasks))) by exact Hv.
  split; [apply all_yield; eauto|]. destruct (worker_yield _ _ _ Ed Hy) as (_ & t' & Hn' & Ev). unfold names in *. congruence.
Qed.
Lemma save_done s : In s saves -> exists h x, names u h (save_node E s) /\ output E s = Ok x /\ In (h, VSaved (sv_name s) x) all_yields.
Proof.
  intros Hin. destruct (target_names E tok saves u targets Hasked (save_node E s) (save_in E tok saves s Hin)) as (h & _ & Hn).
  destruct (parallel_done h _ Hn) as (v & Hy & Ev); [discriminate|discriminate|]. rewrite eval_save in Ev by auto.
  destruct (output E s) as [x|]; cbn in Ev; [|discriminate]. injection Ev as <-. eauto.
Qed.
Lemma saved_all : Permutation (saved all_yields) (outputs E saves).
Proof.
  apply NoDup_Permutation.
  - apply (NoDup_map_inv fst), saved_nodup.
  - apply (NoDup_map_inv fst). apply outputs_NoDup; auto.
  - intros [n t]. split; [apply saved_outputs|]. intros Hi. apply outputs_In in Hi as (s & Hin & <- & Ho). destruct (save_done s Hin) as (h & x & _ & Ho' & Hy).
    assert (x = Some t) by congruence. subst x. apply saved_In. eauto.
Qed.
Lemma work_computable : computable E tok saves.
Proof.
  split.
  - intros s Hin. destruct (save_done s Hin) as (h & x & _ & Ho & _). eauto.
  - intros Et. destruct (target_names E tok saves u targets Hasked tokenizer_task) as (h & _ & Hn).
    { unfold disk_targets. rewrite Et, !in_app_iff. right. right. now left. }
    destruct (parallel_done h _ Hn) as (v & _ & Ev); [discriminate|discriminate|]. unfold tokenizer_task in Ev. rewrite eval_node in Ev. cbn [rmapM rbind exec] in Ev.
    destruct (e_tokenizer E) as [k|]; [eauto|discriminate].
Qed.

(** the trailing stage *)
Variables (q got lost : list (nat * val)) (cht : nat -> list nat -> nat).
Hypothesis Hq : interleaved (puts E A u ch chw targets p) q.
Hypothesis Hgl : q = got ++ lost.
Lemma queue_perm : Permutation q (map (put none targets p) all_yields).
Proof.
  rewrite (interleaved_Permutation _ _ Hq). unfold puts, all_yields, wyields. rewrite concat_map, map_map. reflexivity.
Qed.
Lemma trail_executes h : (forall h v, In (h, v) lost -> ~ In h targets) ->
  In h (executed (fst (trail E A u cht p (dset_all (led E A u ch p) got)))) -> names u h final_task.
Proof.
  intros Hl Hx. set (aft := dset_all (led E A u ch p) got) in *.
  assert (HG : good u (p_trailing p) aft (env_of u aft)) by exact (trail_good G (sem E) u targets none HU HC p num Hs ch chw Hwork q got lost Hq Hgl).
  destruct (executed_prefix G (sem E) cht u (p_trailing p) aft _ HG) as (sched & rest & HS & Es & _).
  assert (Hr : reachh u (p_trailing p) (dkeys aft) h /\ ~ In h (dkeys aft)).
  { apply (so_in _ _ _ _ _ HS). rewrite Es. apply in_or_app. now left. }
  assert (Hdep : forall x y, names u x final_task -> In y (deps u x) -> In y (dkeys aft)).
  { intros x y Hf Hy. apply (deps_depends u x y HU) in Hy; [|eapply names_lt; eauto]. destruct Hy as (t & k & a & Hn1 & Hi & Ha).
    assert (t = final_task) by (unfold names in *; congruence). subst t. apply dset_all_keys. cbn in Hi. destruct Hi as [[= _ <-]|Hi].
    - left. apply (lead_facts G (sem E) u targets HU HC p num Hs ch); auto. now apply (leading_iff E A tok saves some_saves u targets Hasked).
    - right. destruct (unused_args E saves k a Hi) as (s & Hin & ->). destruct (save_done s Hin) as (h' & v & Hn' & _ & Hyy).
      assert (h' = y) by exact (same_name E tok saves u targets Hasked _ _ _ Hn' Ha). subst h'.
      assert (Hqi : In y (map fst q)).
      { apply (Permutation_in _ (Permutation_map fst (Permutation_sym queue_perm))). rewrite map_map. cbn [put fst]. apply in_map_iff. eexists. split; [|exact Hyy]. reflexivity. }
      rewrite Hgl, map_app in Hqi. apply in_app_or in Hqi as [?|Hql]; auto. exfalso. apply in_map_iff in Hql as ([y' v'] & Ey & Hql). cbn in Ey. subst y'.
      apply (Hl y v' Hql). apply (proj2 (proj2 Hasked)). exists (save_node E s). split; auto. now apply save_in. }
  destruct Hr as [Hr Hn]. clear Hx Es. revert Hn. induction Hr as [h Hh|h d Hr IH Hc Hd]; intros Hn.
  - now apply (sd_trail _ _ _ _ Hs), (trailing_iff E A tok saves some_saves u targets Hasked) in Hh.
  - exfalso. apply Hn. exact (Hdep h d (IH Hc) Hd).
Qed.
Hypothesis Hlost : forall h v, In (h, v) lost -> ~ In h targets /\ ~ In h (p_trailing_deps p).
Notation after := (dset_all (led E A u ch p) got).
Lemma trail_status : snd (trail E A u cht p after) = None.
Proof.
  destruct (snd (trail E A u cht p after)) as [e|] eqn:Et; auto. exfalso.
  destruct (trail_error G (sem E) u targets none HU HC p num Hs ch Hlead chw Hwork q got lost Hq Hgl Hlost cht e Et) as (ht & tt & t & Hin & Hn & Hne & Hr).
  apply raises_eval in Hr; [|reflexivity].
  assert (Hne' : needs (env_cached (@no_env (lbl M) val)) tt t).
  { eapply needs_weaken; [|exact Hne]. unfold env_cached, no_env. intros x Hx. now apply Hx. }
  destruct (needs_err _ _ _ _ _ _ Hne' Hr) as [e' E'].
  destruct (proj1 (proj2 (proj2 Hasked) ht) Hin) as (t' & Ht' & Hn'). assert (t' = tt) by (unfold names in *; congruence). subst t'.
  destruct (proj2 (all_ok E A tok saves good_saves) work_computable tt Ht') as (v & Ev). congruence.
Qed.
Lemma trail_yields : exists hf, names u hf final_task /\ yields (fst (trail E A u cht p after)) = [(hf, VFinalized)].
Proof.
  destruct (target_names E tok saves u targets Hasked final_task (final_in E tok saves)) as (hf & _ & Hf). exists hf. split; auto.
  assert (Hv : forall h v, In (h, v) (yields (fst (trail E A u cht p after))) -> h = hf /\ v = VFinalized).
  { intros h v Hy. destruct (trail_values G (sem E) u targets none HU HC p num Hs ch Hlead chw Hwork q got lost Hq Hgl Hlost cht h v Hy) as (Ht & t & Hn & Ev).
    apply (trailing_iff E A tok saves some_saves u targets Hasked) in Ht. split; [exact (same_name E tok saves u targets Hasked _ _ _ Ht Hf)|].
    assert (t = final_task) by (unfold names in *; congruence). subst t.
    destruct (target_value E G tok saves good_saves _ _ (final_in E tok saves) Ev) as [(s & x & _ & Hx & _)|[(_ & ->)|(Hx & _)]]; [discriminate|reflexivity|discriminate]. }
  assert (HG : good u (p_trailing p) after (env_of u after)) by exact (trail_good G (sem E) u targets none HU HC p num Hs ch chw Hwork q got lost Hq Hgl).
  assert (Hin : exists v, In (hf, v) (yields (fst (trail E A u cht p after)))).
  { apply (run_yield_all G (sem E) cht u (p_trailing p) after _ HG); [exact trail_status|apply (sd_trail _ _ _ _ Hs), (trailing_iff E A tok saves some_saves u targets Hasked), Hf|].
    intros Hk. apply dset_all_keys in Hk as [Hk|Hk].
    - apply (lead_facts G (sem E) u targets HU HC p num Hs ch) in Hk. apply (leading_iff E A tok saves some_saves u targets Hasked) in Hk. unfold names in *. rewrite Hf in Hk. discriminate.
    - apply in_map_iff in Hk as ([h v] & Eh & Hk). cbn in Eh. subst h.
      destruct (queue_not_main G (sem E) u targets none HU HC p num Hs ch chw Hwork q Hq hf v) as [_ Hnt]; [rewrite Hgl; apply in_or_app; auto|].
      apply Hnt, (trailing_iff E A tok saves some_saves u targets Hasked), Hf. }
  pose proof (run_yield_nodup G (sem E) cht u (p_trailing p) after _ HG) as HN. fold (trail_run G (sem E) u cht p after) in HN. fold (trail E A u cht p after) in HN.
  destruct Hin as (v & Hin). clear -Hv HN Hin. destruct (yields _) as [|[h1 v1] [|[h2 v2] y]]; [destruct Hin| |].
  - destruct (Hv h1 v1 (or_introl eq_refl)) as [-> ->]. reflexivity.
  - destruct (Hv h1 v1 (or_introl eq_refl)) as [-> ->]. destruct (Hv h2 v2 (or_intror (or_introl eq_refl))) as [-> ->]. cbn in HN. inversion HN as [|? ? Hn _]; subst. destruct Hn. now left.
Qed.
Lemma trail_again again : redone u (fst (trail E A u cht p after)) again -> again = [].
Proof.
  intros Hr. destruct again as [|a again]; auto. exfalso. destruct (Hr a (or_introl eq_refl)) as (h & t & n & o & d & x & Hx & Hn & El & _).
  apply (trail_executes h) in Hx; [|intros; eapply Hlost; eauto]. unfold names in Hx. assert (t = final_task) by congruence. subst t. discriminate.
Qed.
Lemma trail_acts : acts (fst (trail E A u cht p after)) = [AFinalize].
Proof. unfold acts. destruct trail_yields as (hf & _ & ->). reflexivity. Qed.
End Workers.

(** ** the run *)
Lemma gpu_calls lost r cs : gpu_run E A u targets p lost r cs ->
  (forall h v, In (h, v) lost -> ~ In h targets /\ ~ In h (p_trailing_deps p)) ->
  exists sv,
    ((exists ys, r = Ok ys) /\ cs = save_acts sv ++ [AFinalize] /\ Permutation sv (outputs E saves) /\ computable E tok saves) \/
    ((exists e, r = Err e) /\ cs = save_acts sv /\ NoDup (map fst sv) /\ incl sv (outputs E saves)).
Proof.
  intros Hr Hlost. destruct Hr as [ch e lost El|ch chw d tasks e lost cs El Hin Ew Hi|ch chw q got lost cht cs again El Hw Hq Hgl Hi Hag].
  - exists []. right. split; [eauto|]. split; [apply lead_acts|]. split; [constructor|]. intros ? [].
  - destruct (worker_calls ch chw cs Hi) as (sv & -> & HP). exists sv. right. split; [eauto|]. split; [now rewrite lead_acts|]. split.
    + eapply Permutation_NoDup; [apply Permutation_map, Permutation_sym, HP|]. apply saved_nodup.
    + intros [n t] Hnt. apply (saved_outputs ch chw). eapply Permutation_in; eauto.
  - destruct (worker_calls ch chw cs Hi) as (sv & -> & HP). exists sv. left.
    rewrite (trail_status ch chw El Hw q got lost cht Hq Hgl Hlost). split; [eauto|]. split.
    + rewrite (trail_again ch chw El Hw q got lost cht Hq Hgl Hlost again Hag), lead_acts, (trail_acts ch chw El Hw q got lost cht Hq Hgl Hlost). reflexivity.
    + split; [rewrite HP; now apply saved_all|]. now apply (work_computable ch chw).
Qed.
Lemma gpu_ok lost r cs : gpu_run E A u targets p lost r cs ->
  (forall h v, In (h, v) lost -> ~ In h targets /\ ~ In h (p_trailing_deps p)) ->
  ((exists ys, r = Ok ys) <-> computable E tok saves).
Proof.
  intros Hr Hlost. pose proof (gpu_mg E A u targets p lost r cs Hr) as Hm.
  assert (Hd : p_assign p <> [] \/ forall h, In h targets -> ~ duplicated G u h) by (right; intros h _; apply none_duplicated).
  pose proof (mg_run_ok G (sem E) u targets none HU HC p num Hs lost r Hm Hlost Hd) as Hres. split.
  - intros (ys & Er). destruct (gpu_calls lost r cs Hr Hlost) as (sv & [(_ & _ & _ & Hc)|((e & Ee) & _)]); [exact Hc|congruence].
  - intros Hc. destruct r as [ys|e]; [eauto|]. exfalso. destruct Hres as (ht & tt & t & Hin & Hn & Hne & Hra). apply raises_eval in Hra; [|reflexivity].
    assert (Hne' : needs (env_cached (@no_env (lbl M) val)) tt t).
    { eapply needs_weaken; [|exact Hne]. unfold env_cached, no_env. intros x Hx. now apply Hx. }
    destruct (needs_err _ _ _ _ _ _ Hne' Hra) as [e' E'].
    destruct (proj1 (proj2 (proj2 Hasked) ht) Hin) as (t' & Ht' & Hn'). assert (t' = tt) by (unfold names in *; congruence). subst t'.
    destruct (proj2 (all_ok E A tok saves good_saves) Hc tt Ht') as (v & Ev). congruence.
Qed.
End Calls.
