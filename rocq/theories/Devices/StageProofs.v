(** The stages of the multi-GPU executor on their devices do what the executor without devices does. *)
From Verif.Base Require Import Py PyFacts.
From Verif.Graph Require Import Model Spec UniverseProofs ScheduleProofs ExecProofs Proofs.
From Verif.MultiGPU Require Import Model Spec Proofs RunProofs.
From Verif.Devices Require Import Model Spec Proofs.
Local Open Scope list_scope.

Section Same.
Context {K T O : Type}.
Notation pval := (pval K T O).
Lemma move_same cur n (v : pval) : on (resolve cur n) v -> move cur n v = v.
Proof.
  induction v as [d x|l IH|l IH|l IH|o] using pval_ind'; intros Ho; inversion Ho; subst.
  - apply move_tensor.
  - cbn. f_equal. rewrite <- (map_id l) at 2. apply map_ext_in. intros [k v] Hi. cbn. f_equal. eapply IH; eauto.
  - cbn. f_equal. rewrite <- (map_id l) at 2. apply map_ext_in. intros v Hi. eapply IH; eauto.
  - cbn. f_equal. rewrite <- (map_id l) at 2. apply map_ext_in. intros v Hi. eapply IH; eauto.
  - reflexivity.
Qed.
Lemma move_bare cur n (v : pval) : bare v -> move cur n v = v.
Proof. intros Hb. apply move_same, Hb. Qed.
Lemma contents_move {L} (A : attrs L) (S : semantics L pval) l args : (forall v, content (to_math S v) = content v) ->
  contents (map (fun kv => (fst kv, move_arg A S l (snd kv))) args) = contents args.
Proof.
  intros Hm. unfold contents. rewrite map_map. apply map_ext. intros [k v]. cbn. f_equal. unfold move_arg. destruct (uses_accelerator A l); [apply Hm|reflexivity].
Qed.
Lemma in_place_args {L} (A : attrs L) (pure : L -> list (string * pval) -> result pval) l (args : list (string * pval)) :
  map (fun kv => (fst kv, move_arg A (in_place pure) l (content (snd kv)))) args = contents args.
Proof. apply map_ext. intros [k v]. cbn. unfold move_arg. now destruct (uses_accelerator A l). Qed.
End Same.

Lemma executed_reach {L V} `{Eqb L} (A : attrs L) (S : semantics L V) ch u ts cached : wf_u u -> (forall h, In h ts -> h < length (u_tasks u)) ->
  (forall h, In h (dkeys cached) -> h < length (u_tasks u)) -> NoDup (dkeys cached) ->
  forall h, In h (executed (fst (executor_run A S ch u ts cached))) -> reachh u ts (dkeys cached) h /\ ~ In h (dkeys cached).
Proof.
  intros Hwf Ht Hc Hn h Hh. assert (G : good u ts cached (env_of u cached)) by (split; auto; now apply env_of_matches).
  destruct (executed_prefix A S ch u ts cached _ G) as (sched & rest & HS & Es & _). apply (so_in _ _ _ _ _ HS). rewrite Es. apply in_or_app. now left.
Qed.
Lemma vmap_all {V W} (f : V -> W) l : forall d, dset_all (vmap f d) (vmap f l) = vmap f (dset_all d l).
Proof. induction l as [|[k v] l IH]; intros d; [reflexivity|]. cbn. rewrite vmap_set. apply IH. Qed.
Lemma vmap_filter {V W} (f : V -> W) (p : nat -> bool) d : filter (fun hv => p (fst hv)) (vmap f d) = vmap f (filter (fun hv => p (fst hv)) d).
Proof. induction d as [|[k v] d IH]; [reflexivity|]. cbn. destruct (p k); cbn; [f_equal|]; exact IH. Qed.
Lemma interleaved_map {X Y} (g : X -> Y) ls q : interleaved ls q -> interleaved (map (map g) ls) (map g q).
Proof.
  induction 1 as [ls Hf|l1 x xs l2 q _ IH].
  - constructor. apply Forall_forall. intros l Hl. apply in_map_iff in Hl as (l0 & <- & Hl). rewrite Forall_forall in Hf. now rewrite (Hf _ Hl).
  - rewrite map_app in *. cbn in *. now constructor.
Qed.
Lemma vmap_app {V W} (f : V -> W) a b : vmap f (a ++ b) = vmap f a ++ vmap f b.
Proof. apply map_app. Qed.

Section Stages.
Context {L K T O : Type} `{Eqb L}.
Notation pval := (pval K T O).
Variable A : attrs L.
Variable exec : option nat -> L -> list (string * pval) -> result pval.
Variable pure : L -> list (string * pval) -> result pval.
Variable cur : option nat -> string -> nat.
Variable type : string.
Variable store : option dname.
Hypothesis Hport : forall w, portable (exec w) pure.
Hypothesis Hmain : forall l, main_thread_only A l = true -> indifferent (exec None) pure l /\ forall args v, exec None l args = Ok v -> bare v.
Variable u : universe L.
Variable targets : list nat.
Hypothesis Hwf : wf_u u.
Hypothesis Hcov : covers u targets.
Variables (p : partition) (num : nat).
Hypothesis Hs : sound A u p num.
Variable none : pval.
Notation S := (staged exec cur type store).
Notation S0 := (in_place pure).
Notation f := (content (K := K) (T := T) (O := O)).

Lemma leading_labels ch h t : In h (executed (fst (lead_run A (S None) u ch p))) -> names u h t -> main_thread_only A (label t) = true.
Proof.
  intros Hh Hn. apply (executed_reach A (S None) ch u (p_leading p) []) in Hh as (Hr & _); auto; [| |intros ? []|constructor].
  - assert (Hl : leading A u h).
    { clear Hn t. induction Hr as [h Hin|h d Hr IH _ Hd]; [now apply (sd_lead _ _ _ _ Hs)|]. inversion IH as [? _ Hall]; subst. apply Hall. apply deps_depends; auto. eapply leading_lt; eauto. }
    inversion Hl as [? (t' & Hn' & Hm) _]; subst. unfold names in *. congruence.
  - intros h0 Hh0. apply (sd_lead _ _ _ _ Hs) in Hh0. eapply leading_lt; eauto.
Qed.

Lemma lead_sim ch : lead_run A S0 u ch p = (map (event_map f) (fst (lead_run A (S None) u ch p)), snd (lead_run A (S None) u ch p)) /\
  forall h v, In (h, v) (yields (fst (lead_run A (S None) u ch p))) -> bare v.
Proof.
  apply (executor_sim A (S None) S0 f bare u (fun l => main_thread_only A l = true)) with (cached := []).
  - intros l args v Hm _ E. destruct (Hmain l Hm) as (_ & Hb). specialize (Hb _ _ E). split; [|apply content_move]. cbn. now rewrite move_bare.
  - intros l args Hm _. destruct (Hmain l Hm) as (Hi & _). cbn [execute staged on_devices in_place]. rewrite Hi, contents_move by (intros; apply content_move). f_equal. symmetry. apply in_place_args.
  - apply leading_labels.
  - intros ? ? [].
Qed.
Lemma worker_sim d chw cached tasks : (forall k v, In (k, v) cached -> bare v) ->
  worker_run A S0 u chw p (vmap f cached) tasks =
    (map (event_map f) (fst (worker_run A (S (Some d)) u chw p cached tasks)), snd (worker_run A (S (Some d)) u chw p cached tasks)).
Proof.
  intros Hc. refine (proj1 (executor_sim A (S (Some d)) S0 f (on (resolve (cur (Some d)) (snd (stage_devices type store (Some d))))) u (fun _ => True) _ _ chw (p_per_gpu p ++ tasks) cached _ _)).
  - intros l args v _ _ _. split; [apply move_on|apply content_move].
  - intros l args _ Hi. cbn [execute staged on_devices in_place].
    assert (Ho : exists dv, all_on dv (map (fun kv => (fst kv, move_arg A (S (Some d)) l (snd kv))) args)).
    { unfold move_arg. destruct (uses_accelerator A l) eqn:Eu; eexists; intros k v Hk; apply in_map_iff in Hk as ([k0 v0] & [= <- <-] & Hk); cbn.
      - apply move_on.
      - exact (Hi _ _ Hk). }
    destruct Ho as (dv & Ho). rewrite (Hport (Some d) l _ dv Ho), contents_move by (intros; apply content_move). f_equal. symmetry. apply in_place_args.
  - tauto.
  - intros k v Hk. now apply (Hc k v Hk).
Qed.
Lemma trail_sim ch cached : (forall h t, In h (executed (fst (trail_run A (S None) u ch p cached))) -> names u h t -> main_thread_only A (label t) = true) ->
  trail_run A S0 u ch p (vmap f cached) = (map (event_map f) (fst (trail_run A (S None) u ch p cached)), snd (trail_run A (S None) u ch p cached)).
Proof.
  intros Hl. refine (proj1 (executor_sim A (S None) S0 f (fun _ => True) u (fun l => main_thread_only A l = true) _ _ ch (p_trailing p) cached Hl _)); auto.
  - intros l args v _ _ _. split; [exact I|apply content_move].
  - intros l args Hm _. destruct (Hmain l Hm) as (Hi & _). cbn [execute staged on_devices in_place]. rewrite Hi, contents_move by (intros; apply content_move). f_equal. symmetry. apply in_place_args.
Qed.

Theorem stages_same lost r : stage_run A S u none targets p lost r ->
  (forall h v, In (h, v) lost -> ~ exists x, trailing A u x /\ depends u x h) ->
  (p_parallel p <> [] \/ forall h, ~ duplicated A u h) ->
  mg_run A S0 u (f none) targets p (vmap f lost) (rmap (vmap f) r).
Proof.
  intros Hr Hlost Hd. destruct Hr as [ch e lost He|ch chw d tasks e lost Hl Hin He|ch chw q got lost cht Hl Hw Hq Hgl trail].
  - cbn. apply (mg_lead_error _ _ _ _ _ _ ch). destruct (lead_sim ch) as (-> & _). exact He.
  - destruct (lead_sim ch) as (El & Hb). cbn. apply (mg_worker_error _ _ _ _ _ _ ch chw d tasks); [rewrite El; exact Hl|exact Hin|]. rewrite El. cbn [fst]. rewrite yields_map, map_vmap.
    change (@nil (nat * pval)) with (vmap f []) at 1. rewrite vmap_all, (worker_sim d); [exact He|].
    intros k v Hk. apply dget_In_NoDup in Hk; [|apply dset_all_NoDup; constructor]. apply dset_all_get in Hk as [Hk|Hk]; [eauto|discriminate].
  - destruct (lead_sim ch) as (El & Hb).
    assert (E0 : dset_all [] (yields (fst (lead_run A S0 u ch p))) = vmap f (dset_all [] (yields (fst (lead_run A (S None) u ch p))))).
    { rewrite El. cbn [fst]. rewrite yields_map, map_vmap. change (@nil (nat * pval)) with (vmap f []) at 1. apply vmap_all. }
    assert (Hb0 : forall k v, In (k, v) (dset_all [] (yields (fst (lead_run A (S None) u ch p)))) -> bare v).
    { intros k v Hk. apply dget_In_NoDup in Hk; [|apply dset_all_NoDup; constructor]. apply dset_all_get in Hk as [Hk|Hk]; [eauto|discriminate]. }
    assert (Hl0 : snd (lead_run A S0 u ch p) = None) by (rewrite El; exact Hl).
    assert (Hw0 : forall d tasks, In (d, tasks) (p_assign p) -> snd (worker_run A S0 u (chw d) p (dset_all [] (yields (fst (lead_run A S0 u ch p)))) tasks) = None).
    { intros d tasks Hin. rewrite E0, (worker_sim d) by exact Hb0. exact (Hw d tasks Hin). }
    assert (Hq0 : interleaved (map (fun dt => map (put (f none) targets p) (yields (fst (worker_run A S0 u (chw (fst dt)) p
               (dset_all [] (yields (fst (lead_run A S0 u ch p)))) (snd dt))))) (p_assign p)) (vmap f q)).
    { apply (interleaved_map (fun kv => (fst kv, f (snd kv)))) in Hq. rewrite map_map in Hq. erewrite map_ext; [exact Hq|]. intros [d tasks]. cbn [fst snd].
      unfold put_from. cbn [fst snd]. rewrite E0, (worker_sim d) by exact Hb0. cbn [fst]. rewrite yields_map, !map_map. apply map_ext. intros [k v]. unfold put. cbn.
      now destruct (mem k targets || mem k (p_trailing_deps p))%bool. }
    assert (Hgl0 : vmap f q = vmap f got ++ vmap f lost) by (rewrite Hgl; apply vmap_app).
    assert (E1 : dset_all (dset_all [] (yields (fst (lead_run A S0 u ch p)))) (vmap f got) = vmap f (dset_all (dset_all [] (yields (fst (lead_run A (S None) u ch p)))) got)).
    { rewrite E0. apply vmap_all. }
    set (res := dset_all (dset_all [] (yields (fst (lead_run A (S None) u ch p)))) got) in *.
    assert (Hk : forall k, In k (dkeys res) <-> In k (dkeys (res1 A S0 u p ch (vmap f got)))).
    { intros k. unfold res1, res0. rewrite E1, vmap_keys. reflexivity. }
    destruct (lead_facts A S0 u targets Hwf Hcov p num Hs ch) as (HT0 & HK0 & HK1 & _).
    pose proof (q_facts A S0 u targets (f none) Hwf Hcov p num Hs ch chw Hw0 (vmap f q) Hq0) as (HQ1 & HQ2).
    assert (Hkey : forall d v, In (d, v) (vmap f got) -> In d (dkeys res)).
    { intros d v Hi. apply Hk. unfold res1. apply dset_all_keys. right. apply in_map_iff. exists (d, v). auto. }
    assert (Hlead : forall h, leading A u h -> In h (dkeys res)).
    { intros h Hh. apply Hk. unfold res1. apply dset_all_keys. left. now apply HK1. }
    assert (Htr : forall h t, In h (executed (fst (trail_run A (S None) u cht p res))) -> names u h t -> main_thread_only A (label t) = true).
    { intros h t Hh Hn. apply (executed_reach A (S None) cht u (p_trailing p) res) in Hh as (Hre & Hno); auto.
      - assert (Hx : trailing A u h \/ In h (dkeys res)).
        { clear Hn t Hno. induction Hre as [h Hin|h d Hre IH Hc Hde]; [left; now apply (sd_trail _ _ _ _ Hs)|]. destruct IH as [IH|IH]; [|contradiction].
          assert (Hdep : depends u h d) by (apply deps_depends; auto; eapply trailing_lt; eauto).
          assert (Hld : d < length (u_tasks u)). { destruct Hdep as (x & k & y & _ & _ & Hy). eapply names_lt; eauto. }
          destruct (kinds A u p num Hs d Hld) as [Hle|[Ht|Hpq]]; [right; auto|now left|]. right.
          assert (Ha : p_assign p <> []).
          { intros Ea. destruct Hd as [Hd|Hd].
            - destruct (p_parallel p) as [|x l] eqn:Ep; [congruence|]. destruct (sd_place _ _ _ _ Hs x) as (i & _ & Hi); [rewrite Ep; now left|]. rewrite Ea in Hi. destruct Hi.
            - destruct Hpq as [Hpq|Hpq]; [apply (sd_dup _ _ _ _ Hs) in Hpq; exact (Hd _ Hpq)|]. destruct (sd_place _ _ _ _ Hs d Hpq) as (i & _ & Hi). rewrite Ea in Hi. destruct Hi. }
          destruct (HQ2 Ha d Hpq) as (v & Hv). rewrite Hgl0 in Hv. apply in_app_or in Hv as [Hv|Hv]; [eauto|]. exfalso.
          apply in_map_iff in Hv as ([d0 v0] & [= <- _] & Hv). apply (Hlost _ _ Hv). eauto. }
        destruct Hx as [Hx|Hx].
        + inversion Hx as [? (t' & Hn' & Hm) _]; subst. unfold names in *. congruence.
        + contradiction.
      - intros h0 Hh0. apply (sd_trail _ _ _ _ Hs) in Hh0. eapply trailing_lt; eauto.
      - intros h0 Hh0. apply Hk in Hh0. unfold res1 in Hh0. apply dset_all_keys in Hh0 as [Hh0|Hh0]; [apply HK0 in Hh0; eapply leading_lt; eauto|].
        apply in_map_iff in Hh0 as ([h1 v1] & <- & Hg). cbn [fst]. destruct (HQ1 h1 v1) as (Hx & _); [rewrite Hgl0; apply in_or_app; now left|].
        destruct Hx as [Hx|Hx]; [apply (sd_dup _ _ _ _ Hs) in Hx; eapply duplicated_lt; eauto|now apply (sd_par _ _ _ _ Hs) in Hx].
      - apply dset_all_NoDup, dset_all_NoDup. constructor. }
    pose proof (trail_sim cht res Htr) as Et. subst trail. rewrite <- E1 in Et.
    destruct (snd (trail_run A (S None) u cht p res)) as [e|] eqn:Es; cbn [rmap].
    + eapply (mg_trail_error _ _ _ _ _ _ ch chw _ _ _ cht); eauto. rewrite Et. reflexivity.
    + replace (vmap f (filter (fun hv : nat * pval => mem (fst hv) targets) (dset_all res (filter (fun hv : nat * pval => mem (fst hv) targets) (yields (fst (trail_run A (S None) u cht p res)))))))
        with (filter (fun hv : nat * pval => mem (fst hv) targets) (dset_all (dset_all (dset_all [] (yields (fst (lead_run A S0 u ch p)))) (vmap f got))
                (filter (fun hv : nat * pval => mem (fst hv) targets) (yields (fst (trail_run A S0 u cht p (dset_all (dset_all [] (yields (fst (lead_run A S0 u ch p)))) (vmap f got)))))))).
      * apply mg_finished with (chw := chw) (q := vmap f q); auto. rewrite Et. reflexivity.
      * rewrite Et. cbn [fst]. rewrite yields_map, map_vmap, E1. rewrite (vmap_filter f (fun h => mem h targets)), vmap_all. apply (vmap_filter f (fun h => mem h targets)).
Qed.
End Stages.
