(** C86: whole runs on several devices, from the configuration to the files. *)
From Coq Require Import QArith Lia Permutation.
From Verif.Base Require Import Py PyStr PyFacts.
From Verif.Config Require Import Model.
From Verif.Arch Require Import Model.
From Verif.Plan Require Import Model.
From Verif.Plan Require Props.
From Verif.Graph Require Import Model Spec UniverseProofs ScheduleProofs ExecProofs Proofs.
From Verif.IO Require Import Model Spec FsProofs WriterProofs RunProofs.
From Verif.IO Require Props.
From Verif.MultiGPU Require Import Model Spec Proofs RunProofs.
From Verif.MultiGPU Require Props.
From Verif.Run Require Import Model Spec Proofs PlanProofs ActProofs.
From Verif.Run Require Props.
From Verif.Parallel Require Import Model Proofs RunProofs LostProofs.
Local Open Scope string_scope.
Local Open Scope list_scope.

Section Whole.
Context {M : Type} `{Eqb M} {T K : Type}.
Variable (W : world M) (E : env M T K) (nbytes : T -> nat) (A : attrs (lbl M)).
Notation tok := (w_tokenizer W).
Notation saves_of := Run.Props.saves_of.

(** [MultiGPUExecutor(targets)] was built for the tasks of the plan, for some order of set iteration *)
Definition prepared saves u targets num p : Prop :=
  Props.asked (disk_targets E tok saves) u targets /\ (0 < num)%nat /\ exists ch ct, construct (gpu_attrs A) u ch ct targets num = Ok p.

Lemma prepared_sound saves u targets num p : prepared saves u targets num p -> sound (gpu_attrs A) u p num.
Proof.
  intros (Ha & Hn & ch & ct & Hc). destruct (Props.asked_ok _ _ _ Ha) as [HU HC].
  destruct (construct_ok (gpu_attrs A) u targets HU HC ch ct num Hn) as [(p' & E' & Hs & _)|[E' _]]; [|congruence]. rewrite E' in Hc. now injection Hc as ->.
Qed.

(** The plan of a merge is never rejected: the tensor writer is made first, the model is finalised last, and everything else - loading,
    merging, saving, the tokenizer - is parallel work of the devices. *)
Theorem C86_stages saves u targets num ch ct :
  saves <> [] -> Props.asked (disk_targets E tok saves) u targets -> (0 < num)%nat ->
  exists p, construct (gpu_attrs A) u ch ct targets num = Ok p /\
    (forall h, In h (p_leading p) <-> names u h writer_task) /\
    (forall h, In h (p_trailing p) <-> names u h (finalize_node (map (save_node E) saves))) /\
    p_per_gpu p = [] /\
    (forall h, In h (p_parallel p) <-> (exists t, names u h t) /\ ~ names u h writer_task /\ ~ names u h (finalize_node (map (save_node E) saves))).
Proof.
  intros Hne Ha Hn. destruct (Props.asked_ok _ _ _ Ha) as [HU HC].
  destruct (construct_ok (gpu_attrs A) u targets HU HC ch ct num Hn) as [(p & E' & Hs & _)|[E' Hb]].
  - exists p. split; auto. split; [|split; [|split]].
    + intros h. rewrite <- (leading_iff E A tok saves Hne u targets Ha h). apply (sd_lead _ _ _ _ Hs).
    + intros h. rewrite <- (trailing_iff E A tok saves Hne u targets Ha h). apply (sd_trail _ _ _ _ Hs).
    + destruct (p_per_gpu p) as [|h l] eqn:Ep; auto. exfalso. apply (none_duplicated A u h). apply (sd_dup _ _ _ _ Hs). rewrite Ep. now left.
    + exact (parallel_iff E A tok saves Hne u targets Ha p num Hs).
  - destruct (not_interleaved E A tok saves Hne u targets Ha). destruct Hb as (h & Hlt & Hm & Hx). exists h. split; auto.
    destruct (nth_error (u_tasks u) h) as [t|] eqn:Et; [exists t; exact Et|]. apply nth_error_None in Et. lia.
Qed.

(** Whatever the schedules of the stages and the interleaving of the devices, and whatever the collector leaves behind on the queue - other
    than targets: the run finishes exactly when every tensor (and the tokenizer) can be computed; then the writer was given every tensor
    of the specified output once and was finalised after that. A run that fails gave it some of them, and did not finalise. *)
Theorem C86_run c out_cfg saves u targets num p lost r cs :
  plan_to_disk W c out_cfg = Ok saves -> NoDup (map sv_name saves) -> told_apart E saves -> inputs_consistent E saves -> saves <> [] ->
  prepared saves u targets num p -> gpu_run E A u targets p lost r cs -> (forall h v, In (h, v) lost -> ~ In h targets) ->
  ((exists ys, r = Ok ys) <-> computable E tok saves) /\
  exists sv,
    ((exists ys, r = Ok ys) /\ cs = saves_of sv ++ [AFinalize] /\ Permutation sv (outputs E saves)) \/
    ((exists e, r = Err e) /\ cs = saves_of sv /\ NoDup (map fst sv) /\ incl sv (outputs E saves)).
Proof.
  intros Hp HN Ht Hc Hne Hb Hr Hl. pose proof (Run.Props.planned_good _ _ _ _ _ Hp Ht Hc) as HG. pose proof (prepared_sound _ _ _ _ _ Hb) as Hs. destruct Hb as (Ha & _).
  destruct (gpu_lost E A tok saves Hne u targets Ha p num Hs lost r cs Hr Hl) as (lost' & Hr' & Hl'). split.
  - exact (gpu_ok E A tok saves HG HN Hne u targets Ha p num Hs lost' r cs Hr' Hl').
  - destruct (gpu_calls E A tok saves HG HN Hne u targets Ha p num Hs lost' r cs Hr' Hl') as (sv & [(H1 & H2 & H3 & _)|H1]); exists sv; [left; auto|right; exact H1].
Qed.

(** On disk: a run that finishes leaves a model holding exactly the specified output; one that fails leaves nothing that loads. *)
Theorem C86_directory c out_cfg saves u targets num p lost r cs safe max :
  plan_to_disk W c out_cfg = Ok saves -> NoDup (map sv_name saves) -> told_apart E saves -> inputs_consistent E saves ->
  prepared saves u targets num p -> gpu_run E A u targets p lost r cs -> (forall h v, In (h, v) lost -> ~ In h targets) ->
  outputs E saves <> [] -> (safe = true \/ ~ In "state_dict" (map fst (outputs E saves))) ->
  exists f', apply_all (ops_of nbytes (new_writer safe None max) cs) [] = Ok f' /\
    match r with Ok _ => loads_always f' (outputs E saves) | Err _ => unreadable f' end.
Proof.
  intros Hp HN Ht Hc Hb Hr Hl Hne Hsafe. assert (Hse : saves <> []) by (intros ->; now apply Hne).
  destruct (C86_run c out_cfg saves u targets num p lost r cs Hp HN Ht Hc Hse Hb Hr Hl) as (_ & sv & [((ys & ->) & -> & HP)|((e & ->) & -> & HNs & Hin)]).
  - assert (HNo : NoDup (map fst (outputs E saves))) by (apply outputs_NoDup; auto).
    assert (HNs : NoDup (map fst sv)) by (eapply Permutation_NoDup; [apply Permutation_map, Permutation_sym; exact HP|auto]).
    assert (Hne' : sv <> []) by (intros ->; apply Permutation_nil in HP; auto).
    destruct (sync_async nbytes safe max sv []) as (f' & E1 & E2). exists f'. split.
    { unfold Run.Props.saves_of. rewrite ops_complete. unfold sync_ops in E1. destruct (save_all nbytes (new_writer safe None max) sv). exact E1. }
    apply (loads_always_perm f' sv); auto. apply (IO.Props.C15_any_read_order nbytes safe max sv f'); auto.
    destruct Hsafe as [?|Hs]; auto. right. intros Hi. apply Hs. eapply Permutation_in; [apply Permutation_map; exact HP|auto].
  - destruct (unfinished nbytes safe max sv) as (f' & E1 & E2). exists f'. unfold Run.Props.saves_of. auto.
Qed.

(** ... and when shards are written in background threads, for every interleaving of the writes. *)
Theorem C86_directory_async c out_cfg saves u targets num p lost ys cs safe max :
  plan_to_disk W c out_cfg = Ok saves -> NoDup (map sv_name saves) -> told_apart E saves -> inputs_consistent E saves ->
  prepared saves u targets num p -> gpu_run E A u targets p lost (Ok ys) cs -> (forall h v, In (h, v) lost -> ~ In h targets) ->
  outputs E saves <> [] -> (safe = true \/ ~ In "state_dict" (map fst (outputs E saves))) ->
  exists sv, cs = saves_of sv ++ [AFinalize] /\
    forall f', async_run nbytes safe None max sv [] (Ok (f', None)) -> loads_always f' (outputs E saves).
Proof.
  intros Hp HN Ht Hc Hb Hr Hl Hne Hsafe. assert (Hse : saves <> []) by (intros ->; now apply Hne).
  destruct (C86_run c out_cfg saves u targets num p lost _ cs Hp HN Ht Hc Hse Hb Hr Hl) as (_ & sv & [(_ & -> & HP)|((e & Ee) & _)]); [|discriminate].
  exists sv. split; auto. intros f' Hf.
  assert (HNo : NoDup (map fst (outputs E saves))) by (apply outputs_NoDup; auto).
  assert (HNs : NoDup (map fst sv)) by (eapply Permutation_NoDup; [apply Permutation_map, Permutation_sym; exact HP|auto]).
  assert (Hne' : sv <> []) by (intros ->; apply Permutation_nil in HP; auto).
  apply (loads_always_perm f' sv); auto. apply (IO.Props.C15_any_read_order nbytes safe max sv f'); auto.
  destruct Hsafe as [?|Hs]; auto. right. intros Hi. apply Hs. eapply Permutation_in; [apply Permutation_map; exact HP|auto].
Qed.

(** The number of devices does not matter: the runs with one executor and those on any number of devices finish for the same inputs, and then
    the models they leave hold the same tensors. *)
Theorem C86_agrees c out_cfg saves u targets num p lost r cs safe max choose :
  plan_to_disk W c out_cfg = Ok saves -> NoDup (map sv_name saves) -> told_apart E saves -> inputs_consistent E saves ->
  prepared saves u targets num p -> gpu_run E A u targets p lost r cs -> (forall h v, In (h, v) lost -> ~ In h targets) ->
  outputs E saves <> [] -> (safe = true \/ ~ In "state_dict" (map fst (outputs E saves))) ->
  let (evs, st) := run E A choose (disk_targets E tok saves) in
  ((exists ys, r = Ok ys) <-> st = None) /\
  (st = None -> exists f1 f2 ix1 ix2,
     apply_all (ops_of nbytes (new_writer safe None max) (acts evs)) [] = Ok f1 /\
     apply_all (ops_of nbytes (new_writer safe None max) cs) [] = Ok f2 /\
     from_disk f1 = Ok ix1 /\ from_disk f2 = Ok ix2 /\ (forall n, In n (dkeys (ix_paths ix1)) <-> In n (dkeys (ix_paths ix2))) /\
     forall n t h1 h2, In (n, t) (outputs E saves) ->
       snd (get_tensor f1 ix1 (after f1 ix1 h1) n [] true) = Ok (Some t) /\
       snd (get_tensor f2 ix2 (after f2 ix2 h2) n [] true) = Ok (Some t)).
Proof.
  intros Hp HN Ht Hc Hb Hr Hl Hne Hsafe. assert (Hse : saves <> []) by (intros ->; now apply Hne).
  pose proof (C86_run c out_cfg saves u targets num p lost r cs Hp HN Ht Hc Hse Hb Hr Hl) as [HR _].
  pose proof (C86_directory c out_cfg saves u targets num p lost r cs safe max Hp HN Ht Hc Hb Hr Hl Hne Hsafe) as HD.
  pose proof (Run.Props.C63_run W E c out_cfg saves A choose Hp HN Ht Hc) as HR1.
  pose proof (Run.Props.C63_directory W E nbytes c out_cfg saves A choose safe max Hp HN Ht Hc Hne Hsafe) as HD1.
  destruct (run E A choose _) as [evs st]. destruct HR1 as [HR1 _]. split; [now rewrite HR, HR1|]. intros Hst.
  destruct (proj2 HR (proj1 HR1 Hst)) as (ys & ->).
  destruct HD as (f2 & F2 & L2). destruct HD1 as (f1 & F1 & L1 & _). specialize (L1 Hst).
  destruct L1 as (ix1 & D1 & K1 & V1), L2 as (ix2 & D2 & K2 & V2). exists f1, f2, ix1, ix2. do 4 (split; auto). split.
  - intros n. now rewrite (K1 n), (K2 n).
  - intros n t h1 h2 Hi. assert (Hls : last_saved (outputs E saves) n t) by (apply last_saved_In; auto; apply outputs_NoDup; auto). auto.
Qed.

(** The tokenizer that [run_merge] saves afterwards is the one built for the merge, if one was asked for. *)
Theorem C86_tokenizer saves u targets num p lost ys cs :
  saves <> [] -> prepared saves u targets num p -> gpu_run E A u targets p lost (Ok ys) cs -> (forall h v, In (h, v) lost -> ~ In h targets) ->
  found_tokenizer ys = if tok then match e_tokenizer E with Ok k => Some k | Err _ => None end else None.
Proof.
  intros Hne Hb Hr Hl. pose proof (prepared_sound _ _ _ _ _ Hb) as Hs. destruct Hb as (Ha & _). exact (gpu_tokenizer E A tok saves Hne u targets Ha p num Hs lost ys cs Hr Hl).
Qed.

(** Each device executes only what it was given, and - unless entries of targets were left behind - the main thread only finalises after them. *)
Theorem C86_executed c out_cfg saves u targets num p ch chw d tasks h :
  plan_to_disk W c out_cfg = Ok saves -> told_apart E saves -> inputs_consistent E saves -> saves <> [] -> prepared saves u targets num p ->
  snd (lead E A u ch p) = None ->
  (In (d, tasks) (p_assign p) -> In h (executed (fst (worker E A u (chw d) p (led E A u ch p) tasks))) -> In h tasks) /\
  (forall q got lost cht, (forall d tasks, In (d, tasks) (p_assign p) -> snd (worker E A u (chw d) p (led E A u ch p) tasks) = None) ->
     interleaved (puts E A u ch chw targets p) q -> q = got ++ lost -> (forall h v, In (h, v) lost -> ~ In h targets) ->
     In h (executed (fst (trail E A u cht p (dset_all (led E A u ch p) got)))) -> names u h (finalize_node (map (save_node E) saves))).
Proof.
  intros Hp Ht Hc Hne Hb El. pose proof (Run.Props.planned_good _ _ _ _ _ Hp Ht Hc) as HG. pose proof (prepared_sound _ _ _ _ _ Hb) as Hs. destruct Hb as (Ha & _). split.
  - intros Hin Hx. exact (worker_executes E A tok saves u targets Ha p num Hs ch (chw d) d tasks h El Hin Hx).
  - intros q got lost cht Hw Hq Hgl Hl Hx. exact (trail_executes E A tok saves HG Hne u targets Ha p num Hs ch chw El Hw q got lost cht Hq Hgl h Hl Hx).
Qed.

(** C86 without the condition on the queue: when the entry of a saved tensor is left behind but not that of its merge - whose value the worker
    replaced by None (multigpu_executor.py 368-375) - the trailing stage saves again, from None: the run fails and leaves nothing that loads, although every tensor
    was written. *)
Theorem C86_lost_save_refuted c out_cfg saves u targets num p lost r cs safe max s h hm :
  plan_to_disk W c out_cfg = Ok saves -> prepared saves u targets num p -> gpu_run E A u targets p lost r cs ->
  In s saves -> sv_optional s = false -> names u h (save_node E s) -> names u hm (merge_node E (sv_task s)) ->
  In h (map fst lost) -> ~ In hm (map fst lost) ->
  (exists e, r = Err e) /\ exists f', apply_all (ops_of nbytes (new_writer safe None max) cs) [] = Ok f' /\ unreadable f'.
Proof.
  intros Hp Hb Hr Hin Hreq Hh Hhm Hl Hk. assert (Hne : saves <> []) by (intros ->; destruct Hin).
  pose proof (prepared_sound _ _ _ _ _ Hb) as Hs. destruct Hb as (Ha & _).
  destruct (gpu_lost_save E A tok saves Hne u targets Ha p num Hs lost r cs s h hm Hr Hin Hreq Hh Hhm Hl Hk) as (e & sv & -> & ->).
  split; [eauto|]. destruct (unfinished nbytes safe max sv) as (f' & E1 & E2). eauto.
Qed.

(** ... and when the entry of the tokenizer is left behind the run may finish, but reports none: [run_merge] then copies the tokenizer of a source
    model next to embeddings of the new vocabulary (merge.py 83-97, 116-129). *)
Theorem C86_lost_tokenizer_refuted saves u targets num p lost ys cs h :
  saves <> [] -> prepared saves u targets num p -> gpu_run E A u targets p lost (Ok ys) cs -> names u h tokenizer_task -> In h (map fst lost) ->
  found_tokenizer ys = None.
Proof.
  intros Hne Hb Hr Hn Hl. pose proof (prepared_sound _ _ _ _ _ Hb) as Hs. destruct Hb as (Ha & _). exact (gpu_lost_tokenizer E A tok saves Hne u targets Ha p num Hs lost ys cs h Hr Hn Hl).
Qed.
End Whole.

(** * Examples *)
Lemma interleaved_concat {X} (ls : list (list X)) : interleaved ls (concat ls).
Proof.
  assert (Hgen : forall l1, Forall (fun l : list X => l = []) l1 -> interleaved (l1 ++ ls) (concat ls)); [|exact (Hgen [] (Forall_nil _))].
  induction ls as [|l ls IH]; intros l1 Hl; cbn.
  - rewrite app_nil_r. now constructor.
  - induction l as [|x l IHl]; cbn.
    + replace (l1 ++ [] :: ls) with ((l1 ++ [[]]) ++ ls) by now rewrite <- app_assoc. apply IH. apply Forall_app. auto.
    + now constructor.
Qed.
Definition the_u (E : env nat string unit) tok saves := add_tasks (disk_targets E tok saves) empty_universe.
Definition the_handles (E : env nat string unit) tok saves := snd (handles_of (disk_targets E tok saves) (the_u E tok saves)).
Definition the_p E tok saves num := match construct (gpu_attrs Run.Props.ex_attrs) (the_u E tok saves) Run.Props.first_ready Run.Props.first_ready (the_handles E tok saves) num with
  | Ok p => p | Err _ => {| p_schedule := []; p_leading := []; p_trailing := []; p_per_gpu := []; p_trailing_deps := []; p_parallel := []; p_assign := [] |} end.
Definition one := Run.Props.first_ready.
Definition the_q E tok saves num := concat (puts E Run.Props.ex_attrs (the_u E tok saves) one (fun _ => one) (the_handles E tok saves) (the_p E tok saves num)).
Definition tok_wi := {| wi_name := "embed"; wi_embed := true; wi_optional := false; wi_aliases := None; wi_dtype := None; wi_tied := None |}.
Definition tok_json : json_arch :=
  {| ja_pre := [tok_wi]; ja_layer := ja_layer Plan.Props.ex_json;
     ja_post := ja_post Plan.Props.ex_json; ja_key := ja_key Plan.Props.ex_json; ja_override := None |}.
Definition tok_world : world nat :=
  {| w_arch := [("default", {| md_arch := json_module tok_json; md_prefix := None |})]; w_cfg := w_cfg Run.Props.ex_world; w_tensors := w_tensors Run.Props.ex_world;
     w_params := []; w_tparams := []; w_tokenizer := true |}.
Definition tok_saves : list (save_task nat) :=
  match plan_to_disk tok_world Run.Props.ex_cfg Plan.Props.ex_out with Ok l => l | Err _ => [] end.
Notation Ex := Run.Props.Ex.
Notation the_saves := Run.Props.the_saves.
Lemma the_asked E tok saves : Props.asked (disk_targets E tok saves) (the_u E tok saves) (the_handles E tok saves).
Proof.
  pose proof (wf_targets E tok saves) as HF. split; auto. split; [reflexivity|]. unfold the_handles.
  destruct (run_tasks_good (V:=unit) _ HF) as (hs & Eh & HF2 & _). fold (the_u E tok saves) in *. rewrite Eh. cbn [snd]. intros h. split.
  - intros Hin. clear -HF2 Hin. induction HF2 as [|t h' l l' Hn HF IH]; [destruct Hin|]. destruct Hin as [->|Hin]; [exists t; split; [now left|auto]|].
    destruct (IH Hin) as (t' & Ht & Hn'). exists t'. split; [now right|auto].
  - intros (t & Hin & Hn). destruct (add_tasks_wf _ empty_universe empty_Inv HF) as (HU & _). fold (the_u E tok saves) in HU.
    assert (Hx : exists h', In h' hs /\ names (the_u E tok saves) h' t).
    { clear -HF2 Hin. induction HF2 as [|t' h' l l' Hn HF IH]; [destruct Hin|]. destruct Hin as [->|Hin]; [exists h'; split; [now left|auto]|].
      destruct (IH Hin) as (h2 & Ht & Hn'). exists h2. split; [now right|auto]. }
    destruct Hx as (h' & Hh & Hn'). now rewrite (names_inj _ _ _ _ (inv_nodup _ _ HU) Hn Hn').
Qed.
(** what the run calls, the devices taking turns one after the other, when [k] entries are left behind *)
Definition the_calls E tok saves num := concat (worker_acts E Run.Props.ex_attrs (the_u E tok saves) one (fun _ => one) (the_p E tok saves num)).
Definition the_after E tok saves num k :=
  dset_all (led E Run.Props.ex_attrs (the_u E tok saves) one (the_p E tok saves num)) (firstn (length (the_q E tok saves num) - k) (the_q E tok saves num)).
Definition the_trail E tok saves num k := trail E Run.Props.ex_attrs (the_u E tok saves) one (the_p E tok saves num) (the_after E tok saves num k).
Definition the_result E tok saves num k : result (list (nat * value nat string unit)) :=
  match snd (the_trail E tok saves num k) with
  | Some e => Err e
  | None => Ok (filter (fun hv => mem (fst hv) (the_handles E tok saves)) (dset_all (the_after E tok saves num k)
              (filter (fun hv => mem (fst hv) (the_handles E tok saves)) (yields (fst (the_trail E tok saves num k))))))
  end.
Definition the_lost E tok saves num k := skipn (length (the_q E tok saves num) - k) (the_q E tok saves num).
Lemma the_run E tok saves num k again :
  snd (lead E Run.Props.ex_attrs (the_u E tok saves) one (the_p E tok saves num)) = None ->
  forallb (fun dt => match snd (worker E Run.Props.ex_attrs (the_u E tok saves) one (the_p E tok saves num) (led E Run.Props.ex_attrs (the_u E tok saves) one (the_p E tok saves num)) (snd dt)) with
                     | None => true | _ => false end) (p_assign (the_p E tok saves num)) = true ->
  redone (the_u E tok saves) (fst (the_trail E tok saves num k)) again ->
  gpu_run E Run.Props.ex_attrs (the_u E tok saves) (the_handles E tok saves) (the_p E tok saves num) (the_lost E tok saves num k) (the_result E tok saves num k)
    (acts (fst (lead E Run.Props.ex_attrs (the_u E tok saves) one (the_p E tok saves num))) ++ the_calls E tok saves num ++ again ++ acts (fst (the_trail E tok saves num k))).
Proof.
  intros Hl Hw Ha. rewrite forallb_forall in Hw.
  apply (gpu_end _ _ _ _ _ one (fun _ => one) (the_q E tok saves num) (firstn (length (the_q E tok saves num) - k) (the_q E tok saves num))); auto.
  - intros d tasks Hin. specialize (Hw _ Hin). cbn [snd] in Hw. now destruct (snd (worker _ _ _ _ _ _ _)).
  - apply interleaved_concat.
  - symmetry. apply firstn_skipn.
  - apply interleaved_concat.
Qed.

(** the merge of [C63_nonvacuous], on two devices *)
Example C86_nonvacuous :
  plan_to_disk Run.Props.ex_world Run.Props.ex_cfg Plan.Props.ex_out = Ok the_saves /\ NoDup (map sv_name the_saves) /\
  told_apart Ex the_saves /\ inputs_consistent Ex the_saves /\ computable Ex false the_saves /\
  prepared Run.Props.ex_world Ex Run.Props.ex_attrs the_saves (the_u Ex false the_saves) (the_handles Ex false the_saves) 2 (the_p Ex false the_saves 2) /\
  map (fun dt => length (snd dt)) (p_assign (the_p Ex false the_saves 2)) = [15; 15]%nat /\
  exists ys cs, gpu_run Ex Run.Props.ex_attrs (the_u Ex false the_saves) (the_handles Ex false the_saves) (the_p Ex false the_saves 2) [] (Ok ys) cs /\
    length ys = 7%nat /\
    cs = [ASave "embed" "1:embed 2:embed@bf16"; ASave "layers.1.w" "1:layers.1.w 2:layers.3.w@bf16"; ASave "layers.2.b" "1:layers.2.b@bf16";
          ASave "layers.0.w" "1:layers.0.w 2:layers.2.w@bf16"; ASave "layers.2.w" "1:layers.2.w 2:layers.0.w@bf16"; ASave "norm" "1:norm 2:norm@bf16"; AFinalize].
Proof.
  destruct Run.Props.C63_nonvacuous as (H1 & H2 & H3 & H4 & H5 & _). do 5 (split; [assumption|]). split.
  { split; [apply the_asked|]. split; [lia|]. exists one, one. vm_compute. reflexivity. }
  split; [vm_compute; reflexivity|].
  pose proof (the_run Ex false the_saves 2 0 [] ltac:(vm_compute; reflexivity) ltac:(vm_compute; reflexivity) ltac:(intros ? [])) as Hr.
  replace (the_lost Ex false the_saves 2 0) with (@nil (nat * value nat string unit)) in Hr by (vm_compute; reflexivity).
  destruct (the_result Ex false the_saves 2 0) as [ys|e] eqn:Er; [|vm_compute in Er; discriminate].
  eexists ys, _. split; [exact Hr|]. vm_compute in Er. injection Er as <-. split; vm_compute; reflexivity.
Qed.

(** the last entry, of the tensor saved last, is left behind *)
Example C86_lost_save_nonvacuous :
  exists s h hm lost r cs, In s the_saves /\ sv_optional s = false /\ names (the_u Ex false the_saves) h (save_node Ex s) /\
    names (the_u Ex false the_saves) hm (merge_node Ex (sv_task s)) /\ In h (map fst lost) /\ ~ In hm (map fst lost) /\
    gpu_run Ex Run.Props.ex_attrs (the_u Ex false the_saves) (the_handles Ex false the_saves) (the_p Ex false the_saves 2) lost r cs /\
    length cs = 6%nat /\ r = Err RuntimeError.
Proof.
  pose proof (the_run Ex false the_saves 2 1 [] ltac:(vm_compute; reflexivity) ltac:(vm_compute; reflexivity) ltac:(intros ? [])) as Hr.
  exists (nth 5 the_saves Run.Props.no_save), 26%nat, 27%nat, (the_lost Ex false the_saves 2 1), (the_result Ex false the_saves 2 1).
  eexists. split; [apply nth_In; vm_compute; lia|]. split; [vm_compute; reflexivity|]. split; [vm_compute; reflexivity|]. split; [vm_compute; reflexivity|].
  split; [vm_compute; now left|]. split; [vm_compute; intuition discriminate|]. split; [exact Hr|]. split; vm_compute; reflexivity.
Qed.

(** the last seven entries are left behind: all of the embedding, with the tokenizer. The trailing stage builds the embedding again, and finishes;
    it is saved twice and there is no tokenizer. *)
Example C86_lost_tokenizer_nonvacuous :
  exists lost ys cs, plan_to_disk tok_world Run.Props.ex_cfg Plan.Props.ex_out = Ok tok_saves /\
    prepared tok_world Ex Run.Props.ex_attrs tok_saves (the_u Ex true tok_saves) (the_handles Ex true tok_saves) 2 (the_p Ex true tok_saves 2) /\
    gpu_run Ex Run.Props.ex_attrs (the_u Ex true tok_saves) (the_handles Ex true tok_saves) (the_p Ex true tok_saves 2) lost (Ok ys) cs /\
    names (the_u Ex true tok_saves) 4%nat tokenizer_task /\ In 4%nat (map fst lost) /\ found_tokenizer ys = None /\
    map fst (the_lost Ex true tok_saves 2 0) = [] /\
    (exists ys', the_result Ex true tok_saves 2 0 = Ok ys' /\ found_tokenizer ys' = Some tt) /\
    filter (fun a => match a with ASave "embed" _ => true | _ => false end) cs = [ASave "embed" "1:embed 2:embed@bf16"; ASave "embed" "1:embed 2:embed@bf16"].
Proof.
  pose proof (the_run Ex true tok_saves 2 7 [ASave "embed" "1:embed 2:embed@bf16"] ltac:(vm_compute; reflexivity) ltac:(vm_compute; reflexivity)) as Hr.
  assert (Ha : redone (the_u Ex true tok_saves) (fst (the_trail Ex true tok_saves 2 7)) [ASave "embed" "1:embed 2:embed@bf16"]).
  { intros a [<-|[]]. exists 0%nat, (save_node Ex (nth 0 tok_saves Run.Props.no_save)), "embed", false, (Some "bf16"), "1:embed 2:embed@bf16".
    split; [vm_compute; tauto|]. split; [vm_compute; reflexivity|]. split; vm_compute; reflexivity. }
  specialize (Hr Ha). clear Ha.
  destruct (the_result Ex true tok_saves 2 7) as [ys|e] eqn:Er; [|vm_compute in Er; discriminate].
  eexists _, ys, _. split; [vm_compute; reflexivity|]. split.
  { split; [apply the_asked|]. split; [lia|]. exists one, one. vm_compute. reflexivity. }
  split; [exact Hr|]. split; [vm_compute; reflexivity|]. split; [vm_compute; tauto|]. split; [vm_compute in Er; injection Er as <-; vm_compute; reflexivity|].
  split; [vm_compute; reflexivity|]. split; [eexists; split; vm_compute; reflexivity|]. vm_compute. reflexivity.
Qed.

Print Assumptions C86_stages.
Print Assumptions C86_run.
Print Assumptions C86_directory.
Print Assumptions C86_directory_async.
Print Assumptions C86_agrees.
Print Assumptions C86_tokenizer.
Print Assumptions C86_executed.
Print Assumptions C86_lost_save_refuted.
Print Assumptions C86_lost_tokenizer_refuted.
