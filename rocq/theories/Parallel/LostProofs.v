(** Entries that the collector leaves behind on the queue. *)
From Coq Require Import QArith Lia Permutation.
From Verif.Base Require Import Py PyStr PyFacts.
From Verif.Config Require Import Model.
From Verif.Arch Require Import Model.
From Verif.Plan Require Import Model.
From Verif.Graph Require Import Model Spec UniverseProofs ScheduleProofs ExecProofs Proofs.
From Verif.IO Require Import Model Spec.
From Verif.MultiGPU Require Import Model Spec Proofs RunProofs.
From Verif.MultiGPU Require Props.
From Verif.Run Require Import Model Spec Proofs PlanProofs ActProofs.
From Verif.Parallel Require Import Model Proofs RunProofs.
Local Open Scope string_scope.
Local Open Scope list_scope.

Section Lost.
Context {M : Type} `{Eqb M} {T K : Type}.
Variable (E : env M T K) (A : attrs (lbl M)) (tok : bool) (saves : list (save_task M)).
Notation val := (value M T K).
Notation ts := (disk_targets E tok saves).
Notation G := (gpu_attrs A).
Notation final_task := (finalize_node (map (save_node E) saves)).
Hypothesis good_saves : forall s, In s saves -> good_task E (sv_task s).
Hypothesis names_distinct : NoDup (map sv_name saves).
Hypothesis some_saves : saves <> [].
Variables (u : universe (lbl M)) (targets : list nat).
Hypothesis Hasked : Props.asked ts u targets.
Variables (p : partition) (num : nat).
Hypothesis Hs : sound G u p num.
Let HU : wf_u u := proj1 (Props.asked_ok _ _ _ Hasked).
Let HC : covers u targets := proj2 (Props.asked_ok _ _ _ Hasked).
Notation save_acts sv := (map (fun nt : string * T => ASave (fst nt) (snd nt)) sv).

Section Queue.
Variables (ch : nat -> list nat -> nat) (chw : nat -> nat -> list nat -> nat).
Hypothesis Hlead : snd (lead E A u ch p) = None.
Hypothesis Hwork : forall d tasks, In (d, tasks) (p_assign p) -> snd (worker E A u (chw d) p (led E A u ch p) tasks) = None.
Variables (q got lost : list (nat * val)) (cht : nat -> list nat -> nat).
Hypothesis Hq : interleaved (puts E A u ch chw targets p) q.
Hypothesis Hgl : q = got ++ lost.
Notation after := (dset_all (led E A u ch p) got).

Lemma queue_nodup : NoDup (map fst q).
Proof.
  eapply Permutation_NoDup; [apply Permutation_map, Permutation_sym, (queue_perm E A u targets p ch chw q Hq)|]. rewrite map_map. cbn [put fst].
  exact (all_nodup E A tok saves u targets Hasked p num Hs ch chw).
Qed.
Lemma queue_value h v : In (h, v) q -> ~ In h targets -> ~ In h (p_trailing_deps p) -> v = none.
Proof.
  intros Hi H1 H2. apply (Permutation_in _ (queue_perm E A u targets p ch chw q Hq)) in Hi. apply in_map_iff in Hi as ([h' v'] & Ep & _). unfold put in Ep. cbn in Ep. injection Ep as -> <-.
  rewrite (proj2 (mem_nIn h targets) H1), (proj2 (mem_nIn h _) H2). reflexivity.
Qed.
Lemma queue_parallel h v : In (h, v) q -> In h (p_parallel p).
Proof.
  intros Hi. apply (Permutation_in _ (queue_perm E A u targets p ch chw q Hq)) in Hi. apply in_map_iff in Hi as ([h' v'] & Ep & Hy). unfold put in Ep. cbn in Ep. injection Ep as -> _.
  apply (all_yield E A u p ch chw) in Hy as (dt & Hd & Hy). apply (sd_given _ _ _ _ Hs (fst dt)).
  exact (proj1 (worker_yield E A tok saves u targets Hasked p num Hs ch chw dt h v' Hd Hy)).
Qed.
Lemma led_writer h : In h (dkeys (led E A u ch p)) -> names u h writer_task.
Proof. intros Hk. apply (lead_facts G (sem E) u targets HU HC p num Hs ch) in Hk. now apply (leading_iff E A tok saves some_saves u targets Hasked). Qed.
Lemma deps_of_final h : In h (p_trailing_deps p) -> names u h writer_task \/ exists s, In s saves /\ names u h (save_node E s).
Proof.
  intros Hd. apply (sd_tdeps _ _ _ _ Hs) in Hd as (hf & Hf & t & k & a & Hn & Hi & Ha). apply (trailing_iff E A tok saves some_saves u targets Hasked) in Hf.
  assert (t = final_task) by (unfold names in *; congruence). subst t. cbn in Hi. destruct Hi as [[= _ <-]|Hi]; [now left|].
  right. destruct (unused_args E saves k a Hi) as (s & Hin & ->). eauto.
Qed.
(** what is lost and not a target is not needed by the trailing stage *)
Lemma lost_unneeded : (forall h v, In (h, v) lost -> ~ In h targets) -> forall h v, In (h, v) lost -> ~ In h targets /\ ~ In h (p_trailing_deps p).
Proof.
  intros Hl h v Hi. split; [eauto|]. intros Hd. destruct (deps_of_final h Hd) as [Hw|(s & Hin & Hn)].
  - assert (Hqi : In (h, v) q) by (rewrite Hgl; apply in_or_app; auto). apply queue_parallel in Hqi.
    apply (parallel_iff E A tok saves some_saves u targets Hasked p num Hs) in Hqi as (_ & Hn & _). auto.
  - apply (Hl h v Hi). apply (proj2 (proj2 Hasked)). exists (save_node E s). split; auto. now apply save_in.
Qed.
Lemma not_after h t : names u h t -> t <> writer_task -> ~ In h (map fst got) -> ~ In h (dkeys after).
Proof.
  intros Hn Ht Hg Hk. apply dset_all_keys in Hk as [Hk|Hk]; [|auto]. apply led_writer in Hk. unfold names in *. congruence.
Qed.
Lemma final_not_got hf : names u hf final_task -> ~ In hf (map fst got).
Proof.
  intros Hf Hk. apply in_map_iff in Hk as ([h v] & Eh & Hk). cbn in Eh. subst h.
  assert (Hqi : In (hf, v) q) by (rewrite Hgl; apply in_or_app; auto). apply queue_parallel in Hqi.
  apply (parallel_iff E A tok saves some_saves u targets Hasked p num Hs) in Hqi as (_ & _ & Hn). auto.
Qed.
Lemma lost_not_got h : In h (map fst lost) -> ~ In h (map fst got).
Proof. pose proof queue_nodup as HN. rewrite Hgl, map_app in HN. apply NoDup_app_inv in HN as (_ & _ & HN). intros H1 H2. eapply HN; eauto. Qed.

(** a lost save whose merged tensor was received as [None] *)
Variables (s : save_task M) (h hm : nat).
Hypothesis Hin : In s saves.
Hypothesis Hreq : sv_optional s = false.
Hypothesis Hh : names u h (save_node E s).
Hypothesis Hhm : names u hm (merge_node E (sv_task s)).
Hypothesis Hlost : In h (map fst lost).
Hypothesis Hkept : ~ In hm (map fst lost).
Lemma merge_after : dget after hm = Some none.
Proof.
  assert (Hnt : ~ In hm targets).
  { intros Ht. apply (proj2 (proj2 Hasked)) in Ht as (t & Ht & Hn). assert (t = merge_node E (sv_task s)) by (unfold names in *; congruence). subst t.
    unfold disk_targets in Ht. rewrite !in_app_iff in Ht. destruct Ht as [Ht|[[Ht|[]]|Ht]]; try discriminate.
    - apply in_map_iff in Ht as (s' & Hx & _). discriminate.
    - destruct tok; [|destruct Ht]. destruct Ht as [Ht|[]]. discriminate. }
  assert (Hnd : ~ In hm (p_trailing_deps p)).
  { intros Hd. destruct (deps_of_final hm Hd) as [Hw|(s' & _ & Hn)]; unfold names in *; rewrite Hhm in *; discriminate. }
  destruct (parallel_done E A tok saves some_saves u targets Hasked p num Hs ch chw Hwork hm _ Hhm) as (v & Hy & _); [discriminate|discriminate|].
  assert (Hqi : In (hm, none) q).
  { apply (Permutation_in _ (Permutation_sym (queue_perm E A u targets p ch chw q Hq))). apply in_map_iff. exists (hm, v). split; [|exact Hy]. unfold put. cbn.
    now rewrite (proj2 (mem_nIn hm targets) Hnt), (proj2 (mem_nIn hm _) Hnd). }
  assert (Hgi : In (hm, none) got).
  { rewrite Hgl in Hqi. apply in_app_or in Hqi as [?|Hl]; auto. exfalso. apply Hkept. apply in_map_iff. exists (hm, none). auto. }
  assert (Hk : In hm (dkeys after)). { apply dset_all_keys. right. apply in_map_iff. exists (hm, none). auto. }
  apply dget_Some_key in Hk as (x & Hx). rewrite Hx. f_equal. apply dset_all_get in Hx as [Hx|Hx].
  - apply (queue_value hm x); auto. rewrite Hgl. apply in_or_app. auto.
  - exfalso. assert (Hk : In hm (dkeys (led E A u ch p))) by (apply dget_Some_key; eauto). apply led_writer in Hk. unfold names in *. rewrite Hhm in Hk. discriminate.
Qed.
Lemma trail_good' : good u (p_trailing p) after (env_of u after).
Proof. exact (trail_good G (sem E) u targets none HU HC p num Hs ch chw Hwork q got lost Hq Hgl). Qed.
Lemma save_fails : exists e, eval G (sem E) (env_of u after) (save_node E s) = Err e.
Proof.
  assert (He : env_of u after (save_node E s) = None).
  { rewrite (env_of_matches u HU after h _ Hh). apply dget_None. apply (not_after h _ Hh); [discriminate|]. now apply lost_not_got. }
  assert (Hm : eval G (sem E) (env_of u after) (merge_node E (sv_task s)) = Ok none).
  { assert (Ee : env_of u after (merge_node E (sv_task s)) = Some none) by (rewrite (env_of_matches u HU after hm _ Hhm); apply merge_after).
    unfold merge_node in *. cbn [eval]. now rewrite Ee. }
  rewrite eval_unfold by exact He. cbn [save_node targs label rmapM fst snd].
  destruct (eval G (sem E) (env_of u after) writer_task) as [w|e]; cbn [rbind]; [|eauto]. rewrite Hm. cbn [rbind].
  exists (match w with VWriter => RuntimeError | _ => TypeError end).
  replace (if uses_accelerator G _ then to_math (sem E) w else w) with w by now destruct (uses_accelerator _ _).
  replace (if uses_accelerator G _ then to_math (sem E) none else none) with (none : val) by now destruct (uses_accelerator _ _).
  cbn [execute sem exec]. cbn. destruct w; try reflexivity. rewrite Hreq. reflexivity.
Qed.
Lemma final_fails : exists e, eval G (sem E) (env_of u after) final_task = Err e.
Proof.
  destruct save_fails as (e & Ee). destruct (target_names E tok saves u targets Hasked final_task (final_in E tok saves)) as (hf & _ & Hf).
  eapply needs_err; [|exact Ee].
  assert (Ht : In (save_node E s) (map (save_node E) saves)) by now apply in_map.
  rewrite <- (enum_snd _ 0) in Ht. apply in_map_iff in Ht as ([i t'] & Et & Hi). cbn in Et. subst t'.
  assert (N1 : ~ env_cached (env_of u after) final_task).
  { unfold env_cached. rewrite (env_of_matches u HU after hf _ Hf). intros Hx. apply Hx. apply dget_None. apply (not_after hf _ Hf); [discriminate|]. now apply final_not_got. }
  assert (N2 : ~ env_cached (env_of u after) (save_node E s)).
  { unfold env_cached. rewrite (env_of_matches u HU after h _ Hh). intros Hx. apply Hx. apply dget_None. apply (not_after h _ Hh); [discriminate|]. now apply lost_not_got. }
  eapply (needs_arg _ _ (unused i) (save_node E s)); [exact N1| |apply needs_self; exact N2].
  cbn. right. apply in_map_iff. exists (i, save_node E s). auto.
Qed.
Lemma trail_fails : snd (trail E A u cht p after) <> None /\ acts (fst (trail E A u cht p after)) = [].
Proof.
  destruct final_fails as (e & Ee).
  assert (Hv : forall x v, In (x, v) (yields (fst (trail E A u cht p after))) -> False).
  { intros x v Hy. destruct (run_yield_value G (sem E) cht u (p_trailing p) after _ trail_good' x v Hy) as (t & Hn & Ht & Ev).
    apply (sd_trail _ _ _ _ Hs), (trailing_iff E A tok saves some_saves u targets Hasked) in Ht. unfold names in *. assert (t = final_task) by congruence. subst t. congruence. }
  split.
  - intros Et. destruct (target_names E tok saves u targets Hasked final_task (final_in E tok saves)) as (hf & _ & Hf).
    destruct (run_yield_all G (sem E) cht u (p_trailing p) after _ trail_good' hf Et) as (v & Hy); [apply (sd_trail _ _ _ _ Hs), (trailing_iff E A tok saves some_saves u targets Hasked), Hf| |exact (Hv _ _ Hy)].
    apply (not_after hf _ Hf); [discriminate|]. now apply final_not_got.
  - unfold acts. destruct (yields _) as [|[x v] y]; auto. destruct (Hv x v). now left.
Qed.
End Queue.

Lemma gpu_lost lost r cs : gpu_run E A u targets p lost r cs -> (forall h v, In (h, v) lost -> ~ In h targets) ->
  exists lost', gpu_run E A u targets p lost' r cs /\ forall h v, In (h, v) lost' -> ~ In h targets /\ ~ In h (p_trailing_deps p).
Proof.
  intros Hr Hl. destruct Hr as [ch e lost El|ch chw d tasks e lost cs El Hin Ew Hi|ch chw q got lost cht cs again El Hw Hq Hgl Hi Hag].
  - exists []. split; [now constructor|intros ? ? []].
  - exists []. split; [now apply (gpu_worker_error _ _ _ _ _ ch chw d tasks)|intros ? ? []].
  - exists lost. split; [now apply (gpu_end _ _ _ _ _ ch chw q got)|]. exact (lost_unneeded ch chw q got lost Hq Hgl Hl).
Qed.
Lemma gpu_lost_save lost r cs s h hm : gpu_run E A u targets p lost r cs ->
  In s saves -> sv_optional s = false -> names u h (save_node E s) -> names u hm (merge_node E (sv_task s)) ->
  In h (map fst lost) -> ~ In hm (map fst lost) -> exists e sv, r = Err e /\ cs = save_acts sv.
Proof.
  intros Hr Hin Hreq Hh Hhm Hl Hk. destruct Hr as [ch e lost El|ch chw d tasks e lost cs El Hdt Ew Hi|ch chw q got lost cht cs again El Hw Hq Hgl Hi Hag].
  - exists e, []. split; auto. exact (lead_acts E A tok saves some_saves u targets Hasked p num Hs ch).
  - destruct (worker_calls E A tok saves some_saves u targets Hasked p num Hs ch chw cs Hi) as (sv & -> & _). exists e, sv. split; auto.
    now rewrite (lead_acts E A tok saves some_saves u targets Hasked p num Hs ch).
  - destruct (worker_calls E A tok saves some_saves u targets Hasked p num Hs ch chw cs Hi) as (sv & -> & _).
    destruct (trail_fails ch chw Hw q got lost cht Hq Hgl s h hm Hin Hreq Hh Hhm Hl Hk) as [Hst Ha].
    destruct (snd (trail E A u cht p (dset_all (led E A u ch p) got))) as [e|]; [|destruct (Hst eq_refl)]. 
    assert (Hs2 : exists sv2, again = save_acts sv2).
    { clear -Hag. assert (Hg : forall a, In a again -> exists n x, a = ASave n x) by (intros a Hin; destruct (Hag a Hin) as (h & t & n & o & d & x & _ & _ & _ & ->); eauto). clear Hag.
      induction again as [|a again IH]; [now exists []|]. destruct IH as (sv2 & ->); [intros b Hb; apply Hg; now right|]. destruct (Hg a (or_introl eq_refl)) as (n & x & ->). now exists ((n, x) :: sv2). }
    destruct Hs2 as (sv2 & ->). exists e, (sv ++ sv2). split; auto.
    now rewrite (lead_acts E A tok saves some_saves u targets Hasked p num Hs ch), Ha, app_nil_r, map_app.
Qed.

(** a lost tokenizer *)
Lemma found_none (ys : list (nat * val)) : (forall h k, ~ In (h, VTok k) ys) -> found_tokenizer ys = None.
Proof.
  unfold found_tokenizer. generalize (None : option K). induction ys as [|[h v] ys IH]; intros o Hn; cbn; auto. destruct v; cbn; try (apply IH; intros h' k' Hi; apply (Hn h' k'); now right).
  destruct (Hn h k). now left.
Qed.
Lemma found_some (ys : list (nat * val)) k : (exists h, In (h, VTok k) ys) -> (forall h k', In (h, VTok k') ys -> k' = k) -> found_tokenizer ys = Some k.
Proof.
  unfold found_tokenizer. generalize (None : option K). induction ys as [|[h v] ys IH]; intros o (h0 & Hi) Hu; [destruct Hi|]. cbn.
  destruct (in_dec (fun x y : nat * bool => ltac:(decide equality; [apply Bool.bool_dec|apply Nat.eq_dec])) (0%nat, true) []) as [[]|_].
  assert (Hcase : (exists h', In (h', VTok k) ys) \/ ~ (exists h' k', In (h', VTok k') ys)).
  { clear -Hu. induction ys as [|[h1 v1] ys IHy]; [right; intros (? & ? & [])|]. destruct IHy as [(h' & Hi)|Hn].
    - intros h' k' [Hi|Hi]; apply (Hu h' k'); cbn; auto.
    - left. exists h'. now right.
    - destruct v1 as [| |k1| | |]; try (right; intros (h' & k' & [Hx|Hx]); [discriminate|eauto]).
      left. exists h1. left. rewrite (Hu h1 k1); auto. right. now left. }
  destruct Hcase as [Hx|Hx].
  - apply IH; auto. intros h' k' Hi'. apply (Hu h' k'). now right.
  - destruct Hi as [Hi|Hi]; [|exfalso; eauto]. injection Hi as -> ->. cbn [snd]. clear -Hx. revert Hx. generalize (Some k) as o. induction ys as [|[h1 v1] ys IHy]; intros o Hx; cbn; auto.
    destruct v1 as [| |k1| | |]; cbn; try (apply IHy; intros (h' & k' & Hi); apply Hx; exists h', k'; now right).
    exfalso. apply Hx. exists h1, k1. now left.
Qed.
Lemma target_tok h t k : names u h t -> eval G (sem E) no_env t = Ok (VTok k) -> label t = LTokenizer.
Proof. intros Hn Ev. rewrite (node_eta t), eval_node in Ev. destruct (rmapM _ _); cbn [rbind] in Ev; [|discriminate]. now apply exec_tok in Ev. Qed.
Lemma tokenizer_value v : eval G (sem E) no_env tokenizer_task = Ok v -> exists k, e_tokenizer E = Ok k /\ v = VTok k.
Proof. unfold tokenizer_task. rewrite eval_node. cbn [rmapM rbind exec]. destruct (e_tokenizer E) as [k|]; cbn; [|discriminate]. intros [= <-]. eauto. Qed.
Lemma target_label t : In t ts -> label t = LTokenizer -> tok = true /\ t = tokenizer_task.
Proof.
  unfold disk_targets. rewrite !in_app_iff. intros [Ht|[[<-|[]]|Ht]] El; try discriminate.
  - apply in_map_iff in Ht as (s & <- & _). discriminate.
  - destruct tok; [|destruct Ht]. destruct Ht as [<-|[]]. auto.
Qed.
Lemma gpu_tokenizer lost ys cs : gpu_run E A u targets p lost (Ok ys) cs -> (forall h v, In (h, v) lost -> ~ In h targets) ->
  found_tokenizer ys = if tok then match e_tokenizer E with Ok k => Some k | Err _ => None end else None.
Proof.
  intros Hr Hl. destruct (gpu_lost lost _ cs Hr Hl) as (lost' & Hr' & Hl'). apply gpu_mg in Hr'.
  assert (Hd : p_assign p <> [] \/ forall h, In h targets -> ~ duplicated G u h) by (right; intros h _; apply none_duplicated).
  destruct (mg_run_ok G (sem E) u targets none HU HC p num Hs lost' _ Hr' Hl' Hd) as (_ & Hall & Hiff).
  assert (Ht : forall h k, In (h, VTok k) ys -> tok = true /\ e_tokenizer E = Ok k).
  { intros h k Hi. apply Hiff in Hi as (Hh & t & Hn & Ev). apply (proj2 (proj2 Hasked)) in Hh as (t' & Ht' & Hn'). assert (t' = t) by (unfold names in *; congruence). subst t'.
    destruct (target_label t Ht' (target_tok h t k Hn Ev)) as [Et ->]. split; auto. destruct (tokenizer_value _ Ev) as (k' & Ek & [= ->]). exact Ek. }
  destruct (Bool.bool_dec tok true) as [Et|Ef].
  - rewrite Et. assert (Hin : In tokenizer_task ts) by (unfold disk_targets; rewrite Et, !in_app_iff; right; right; now left).
    destruct (target_names E tok saves u targets Hasked tokenizer_task Hin) as (h & Hh & Hn). destruct (Hall h Hh) as (v & Hv).
    pose proof Hv as Hv'. apply Hiff in Hv' as (_ & t & Hn' & Ev). assert (t = tokenizer_task) by (unfold names in *; congruence). subst t.
    destruct (tokenizer_value v Ev) as (k & Ek & ->). rewrite Ek. apply found_some; [eauto|]. intros h' k' Hi. destruct (Ht h' k' Hi). congruence.
  - apply Bool.not_true_is_false in Ef. rewrite Ef. apply found_none. intros h k Hi. destruct (Ht h k Hi). congruence.
Qed.
Lemma gpu_lost_tokenizer lost ys cs h : gpu_run E A u targets p lost (Ok ys) cs -> names u h tokenizer_task -> In h (map fst lost) -> found_tokenizer ys = None.
Proof.
  intros Hr Hn Hl. apply found_none. intros x k Hi. inversion Hr as [| |ch chw q got lost' cht cs' again El Hw Hq Hgl Hc Hag E1 E2 E3]. subst lost'.
  destruct (snd (trail E A u cht p (dset_all (led E A u ch p) got))) as [e|] eqn:Et; [discriminate|]. injection E2 as E2. rewrite <- E2 in Hi. clear E2.
  apply filter_In in Hi as [Hi Hxt]. cbn [fst] in Hxt. apply mem_In in Hxt.
  apply (proj2 (proj2 Hasked)) in Hxt as (t & Htt & Hnt).
  assert (Hkey : x = h \/ t <> tokenizer_task).
  { destruct (eqb_spec (label t) LTokenizer) as [El'|El']; [|right; intros ->; apply El'; reflexivity]. left. destruct (target_label t Htt El') as [_ ->].
    exact (same_name E tok saves u targets Hasked _ _ _ Hnt Hn). }
  assert (Hval : forall w, eval G (sem E) no_env t = Ok w -> w = VTok k -> t = tokenizer_task).
  { intros w Ev ->. exact (proj2 (target_label t Htt (target_tok x t k Hnt Ev))). }
  assert (HNl : forall l (d : dict nat val), NoDup (dkeys d) -> NoDup (dkeys (dset_all d l))) by (intros; now apply dset_all_NoDup).
  assert (HN0 : NoDup (dkeys (led E A u ch p))) by (apply HNl; constructor).
  apply dget_In_NoDup in Hi; [|apply HNl, HNl, HN0].
  apply dset_all_get in Hi as [Hi|Hi].
  - apply filter_In in Hi as [Hi _].
    assert (HG : good u (p_trailing p) (dset_all (led E A u ch p) got) (env_of u (dset_all (led E A u ch p) got)))
      by exact (trail_good G (sem E) u targets none HU HC p num Hs ch chw Hw q got lost Hq Hgl).
    destruct (run_yield_value G (sem E) cht u (p_trailing p) _ _ HG x (VTok k) Hi) as (t' & Hn' & Ht' & Ev).
    apply (sd_trail _ _ _ _ Hs), (trailing_iff E A tok saves some_saves u targets Hasked) in Ht'. assert (t' = final_task) by (unfold names in *; congruence). subst t'.
    assert (He : env_of u (dset_all (led E A u ch p) got) final_task = None).
    { rewrite (env_of_matches u HU _ x _ Hn'). apply dget_None. apply (not_after ch got x _ Hn'); [discriminate|]. exact (final_not_got ch chw q got lost Hq Hgl x Hn'). }
    rewrite eval_unfold in Ev by exact He. destruct (rmapM _ _) as [vs|]; cbn [rbind] in Ev; [|discriminate]. cbn [sem execute to_store label finalize_node exec] in Ev.
    destruct (dget vs "writer") as [[]|]; discriminate.
  - apply dset_all_get in Hi as [Hi|Hi].
    + assert (Hnl : x <> h).
      { intros ->. apply (lost_not_got ch chw q got lost Hq Hgl h Hl). apply in_map_iff. exists (h, VTok k). auto. }
      assert (Hqi : In (x, VTok k) q) by (rewrite Hgl; apply in_or_app; auto).
      assert (HP := queue_perm E A u targets p ch chw q Hq). apply (Permutation_in _ HP) in Hqi. apply in_map_iff in Hqi as ([x' v'] & Ep & Hy). unfold put in Ep. cbn in Ep. injection Ep as -> Ev.
      destruct (_ || _)%bool; [|discriminate]. subst v'. apply (all_yield E A u p ch chw) in Hy as (dt & Hd & Hy).
      destruct (worker_yield E A tok saves u targets Hasked p num Hs ch chw dt x _ Hd Hy) as (_ & t' & Hn' & Ev). assert (t' = t) by (unfold names in *; congruence). subst t'.
      destruct Hkey as [?|Hne]; [auto|]. apply Hne. exact (Hval _ Ev eq_refl).
    + unfold led in Hi. apply dset_all_get in Hi as [Hi|Hi]; [|discriminate]. apply (lead_yield E A tok saves some_saves u targets Hasked p num Hs) in Hi. discriminate.
Qed.

(** what each stage executes *)
Lemma worker_executes ch chw d tasks h : snd (lead E A u ch p) = None -> In (d, tasks) (p_assign p) ->
  In h (executed (fst (worker E A u chw p (led E A u ch p) tasks))) -> In h tasks.
Proof.
  intros El Hin Hx. destruct (worker_no_main G (sem E) u targets HU HC p num Hs ch El chw d tasks h Hin Hx) as (_ & [?|[Hd|(g & Hg & _)]]); auto.
  - destruct (none_duplicated A u h Hd).
  - destruct (none_duplicated A u g Hg).
Qed.
End Lost.
