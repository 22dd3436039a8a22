(** C63 and C64: whole runs, from the configuration to the files. *)
From Coq Require Import QArith Lia Permutation.
From Verif.Base Require Import Py PyStr PyFacts.
From Verif.Config Require Import Model.
From Verif.Arch Require Import Model.
From Verif.Plan Require Import Model Spec Proofs NormProofs ModuleProofs.
From Verif.Plan Require Props.
From Verif.Graph Require Import Model Spec UniverseProofs ScheduleProofs ExecProofs Proofs.
From Verif.IO Require Import Model Spec FsProofs WriterProofs RunProofs.
From Verif.IO Require Props.
From Verif.Run Require Import Model Spec Proofs PlanProofs ActProofs.
Local Open Scope string_scope.
Local Open Scope list_scope.

Section Whole.
Context {M : Type} `{Eqb M} {T K : Type}.
Variable (W : world M) (E : env M T K) (nbytes : T -> nat).

Definition saves_of (sv : list (string * T)) : list (act (T:=T)) := map (fun nt => ASave (fst nt) (snd nt)) sv.

Lemma planned_good c out_cfg saves : plan_to_disk W c out_cfg = Ok saves -> told_apart E saves -> inputs_consistent E saves ->
  forall s, In s saves -> good_task E (sv_task s).
Proof.
  intros Hp Ht Hc s Hs. destruct (plan_to_disk_fine W _ _ _ _ Hp Hs) as (HN & _). split; [|split]; auto.
  intros [m w] Hin ix Hd. cbn [fst] in *. eapply Hc; eauto.
Qed.

(** * C63 *)
(** A planned run, whatever the schedule: it finishes exactly when every tensor (and the tokenizer) can be computed;
    the writer is given only tensors of the specified output, each at most once; and it is finalised only after having
    been given all of them. *)
Theorem C63_run c out_cfg saves A choose :
  plan_to_disk W c out_cfg = Ok saves -> NoDup (map sv_name saves) ->
  told_apart E saves -> inputs_consistent E saves ->
  let (evs, st) := run E A choose (disk_targets E (w_tokenizer W) saves) in
  (st = None <-> computable E (w_tokenizer W) saves) /\
  exists sv,
    (acts evs = saves_of sv ++ [AFinalize] /\ Permutation sv (outputs E saves) /\
     forall s, In s saves -> exists x, output E s = Ok x) \/
    (st <> None /\ acts evs = saves_of sv /\ NoDup (map fst sv) /\ incl sv (outputs E saves)).
Proof.
  intros Hp HN Ht Hc. pose proof (planned_good _ _ _ Hp Ht Hc) as HG.
  pose proof (run_ok E A (w_tokenizer W) saves HG choose) as HO.
  pose proof (run_acts E A (w_tokenizer W) saves HG HN choose) as HA.
  destruct (run E A choose _) as [evs st]. cbn [fst snd] in *. auto.
Qed.

(** On disk, starting from an empty directory: a run that finishes leaves a model holding exactly the specified
    output; a run that fails leaves a directory that does not load, unless the output was already complete. *)
Theorem C63_directory c out_cfg saves A choose safe max :
  plan_to_disk W c out_cfg = Ok saves -> NoDup (map sv_name saves) ->
  told_apart E saves -> inputs_consistent E saves ->
  outputs E saves <> [] -> (safe = true \/ ~ In "state_dict" (map fst (outputs E saves))) ->
  let (evs, st) := run E A choose (disk_targets E (w_tokenizer W) saves) in
  exists f', apply_all (ops_of nbytes (new_writer safe None max) (acts evs)) [] = Ok f' /\
    (st = None -> loads_always f' (outputs E saves)) /\
    (st <> None -> unreadable f' \/ (loads_always f' (outputs E saves) /\ forall s, In s saves -> exists x, output E s = Ok x)).
Proof.
  intros Hp HN Ht Hc Hne Hsafe. pose proof (C63_run c out_cfg saves A choose Hp HN Ht Hc) as HR.
  destruct (run E A choose _) as [evs st]. destruct HR as [_ (sv & [(Ha & HP & Hall)|(Hst & Ha & HNs & Hin)])]; rewrite Ha.
  - assert (HNo : NoDup (map fst (outputs E saves))) by (apply outputs_NoDup; auto).
    assert (HNs : NoDup (map fst sv)) by (eapply Permutation_NoDup; [apply Permutation_map, Permutation_sym; exact HP|auto]).
    assert (Hne' : sv <> []) by (intros ->; apply Permutation_nil in HP; auto).
    destruct (sync_async nbytes safe max sv []) as (f' & E1 & E2). exists f'. split.
    { unfold saves_of. rewrite ops_complete. unfold sync_ops in E1.
      destruct (save_all nbytes (new_writer safe None max) sv). exact E1. }
    assert (HL : loads_always f' (outputs E saves)).
    { apply (loads_always_perm f' sv); auto. apply (Props.C15_any_read_order nbytes safe max sv f'); auto.
      destruct Hsafe as [?|Hs]; auto. right. intros Hi. apply Hs. eapply Permutation_in; [apply Permutation_map; exact HP|auto]. }
    auto.
  - destruct (unfinished nbytes safe max sv) as (f' & E1 & E2). exists f'. unfold saves_of. split; [exact E1|]. split; [intros ->; now destruct Hst|auto].
Qed.

(** ... and when shards are written in background threads, for every interleaving of the writes. *)
Theorem C63_directory_async c out_cfg saves A choose safe max f' :
  plan_to_disk W c out_cfg = Ok saves -> NoDup (map sv_name saves) ->
  told_apart E saves -> inputs_consistent E saves ->
  outputs E saves <> [] -> (safe = true \/ ~ In "state_dict" (map fst (outputs E saves))) ->
  let (evs, st) := run E A choose (disk_targets E (w_tokenizer W) saves) in
  st = None -> exists sv, acts evs = saves_of sv ++ [AFinalize] /\
    (async_run nbytes safe None max sv [] (Ok (f', None)) -> loads_always f' (outputs E saves)).
Proof.
  intros Hp HN Ht Hc Hne Hsafe. pose proof (C63_run c out_cfg saves A choose Hp HN Ht Hc) as HR.
  destruct (run E A choose _) as [evs st]. intros ->.
  destruct HR as [_ (sv & [(Ha & HP & Hall)|(Hst & _)])]; [|now destruct Hst]. exists sv. split; auto. intros Hr.
  assert (HNo : NoDup (map fst (outputs E saves))) by (apply outputs_NoDup; auto).
  assert (HNs : NoDup (map fst sv)) by (eapply Permutation_NoDup; [apply Permutation_map, Permutation_sym; exact HP|auto]).
  assert (Hne' : sv <> []) by (intros ->; apply Permutation_nil in HP; auto).
  apply (loads_always_perm f' sv); auto. apply (Props.C15_any_read_order nbytes safe max sv f'); auto.
  destruct Hsafe as [?|Hs]; auto. right. intros Hi. apply Hs. eapply Permutation_in; [apply Permutation_map; exact HP|auto].
Qed.

(** From the configuration to the files: weight [i] of output layer [k] - layer [j] of slice [sl] - as read back from
    the output directory is the merge method applied to weight [i] of layer [start + j] of every source model of the
    slice, in the order of the sources. *)
Theorem C63_end_to_end c c' out_cfg saves A choose safe max name mdef def s0 sls before sl rest j wout i w :
  plan_to_disk W c out_cfg = Ok saves -> NoDup (map sv_name saves) ->
  told_apart E saves -> inputs_consistent E saves -> computable E (w_tokenizer W) saves ->
  (safe = true \/ ~ In "state_dict" (map fst (outputs E saves))) ->
  normalize_config W c = Ok c' -> In (name, def) (opt_list (mc_modules c')) -> dget (w_arch W) name = Some mdef ->
  om_slices def = Some (s0 :: sls) -> s0 :: sls = before ++ sl :: rest -> (j < slice_layers sl)%nat ->
  c_layer mdef (Z.of_nat (total_layers before + j)) out_cfg = Ok wout -> nth_error wout i = Some w ->
  wi_optional w = false -> (w_tokenizer W && wi_embed w)%bool = false -> NoDup (map is_model (os_sources sl)) ->
  exists f' ix t ins xs task x y,
    apply_all (ops_of nbytes (new_writer safe None max) (acts (fst (run E A choose (disk_targets E (w_tokenizer W) saves))))) [] = Ok f' /\
    Forall2 (fun s mw => fst mw = is_model s /\
               exists ws, c_layer mdef (is_start s + Z.of_nat j) (w_cfg W (is_model s)) = Ok ws /\
                          nth_error ws i = Some (snd mw)) (os_sources sl) ins /\
    Forall2 (fun mw x => source E (mc_dtype c) mw = Ok x) ins xs /\
    merges W {| r_config := c'; r_t := t; r_tensor := None; r_slice := Some sl; r_module := Some def |} w ins task /\
    e_method E task (present (combine (map is_model (os_sources sl)) xs)) = Ok (Some x) /\
    cast E (or_else (wi_dtype w) (mc_out_dtype c)) x = Ok y /\
    from_disk f' = Ok ix /\
    forall hist, snd (get_tensor f' ix (after f' ix hist) (wi_name w) [] true) = Ok (Some y).
Proof.
  intros Hp HN Ht Hc Hcomp Hsafe Hnorm Hdef Hmd Hsl Esl Hj Hwo Hi Hopt Htok HNs.
  pose proof Hp as Hp'. unfold plan_to_disk in Hp'. destruct (plan W c out_cfg) as [ts|] eqn:Epl; cbn [rbind] in Hp'; [|discriminate].
  assert (Esv : saves = map (fun wt => {| sv_name := wi_name (fst wt); sv_task := snd wt; sv_optional := wi_optional (fst wt);
                        sv_dtype := or_else (wi_dtype (fst wt)) (mc_out_dtype c) |}) ts) by congruence.
  unfold plan in Epl. rewrite Hnorm in Epl. cbn [rbind] in Epl.
  destruct (rmapM _ (opt_list (mc_modules c'))) as [tss|] eqn:Er; cbn [rbind] in Epl; [|discriminate].
  assert (Ets : ts = concat tss) by congruence. clear Epl.
  (* the module's plan *)
  destruct (In_nth_error _ _ Hdef) as (n & Hn). destruct (Verif.Plan.Proofs.rmapM_nth _ _ _ _ _ Er Hn) as (tm & Htm & Em).
  cbn beta in Em. cbn [fst snd] in Em. destruct (plan_module W c' out_cfg name def) as [[tm' cur]|] eqn:Epm; cbn [rbind fst] in Em; [|discriminate].
  assert (tm' = tm) by congruence. subst tm'.
  destruct (Plan.Props.C11_output_layers W c' out_cfg name mdef def s0 sls tm cur Hmd Hsl Epm) as (pre & layers & post & Etm & _ & _ & Hlay & _).
  destruct (Hlay before sl rest j Esl Hj) as (p & Hpn & t & wout' & parts & _ & _ & Hwo' & Ep & Elen & Hparts).
  assert (wout' = wout) by congruence. subst wout'.
  destruct (nth_error parts i) as [pi|] eqn:Epi.
  2:{ apply nth_error_None in Epi. assert (i < length wout)%nat by (apply nth_error_Some; congruence). lia. }
  destruct (Hparts i w pi Hi Epi) as (ins & Hins & Hok).
  destruct Hok as [(_ & Ho & _)|(task & -> & Hm & _)]; [congruence|].
  assert (Hin : In (w, task) ts).
  { rewrite Ets. apply in_concat. exists tm. split; [eapply nth_error_In; eauto|]. rewrite Etm, !in_app_iff. right. left.
    apply in_concat. exists p. split; [eapply nth_error_In; eauto|]. rewrite Ep. apply in_concat.
    exists [(w, task)]. split; [eapply nth_error_In; eauto|now left]. }
  set (s := {| sv_name := wi_name w; sv_task := task; sv_optional := wi_optional w; sv_dtype := or_else (wi_dtype w) (mc_out_dtype c) |}).
  assert (Hs : In s saves). { rewrite Esv. apply in_map_iff. exists (w, task). auto. }
  assert (Edt : mc_dtype c' = mc_dtype c).
  { destruct (normalize_inv W c c' Hnorm) as (ms & ms' & _ & _ & ->). reflexivity. }
  assert (Emods : map fst ins = map is_model (os_sources sl)).
  { clear -Hins. induction Hins as [|? ? ? ? [E1 _] _ IH]; cbn; congruence. }
  destruct Hm as (M1 & M2 & M3 & M4 & M5 & M6). cbn [r_config] in M5.
  assert (Eg : mt_gather task = ins) by (apply M3; now rewrite Emods).
  destruct Hcomp as [Hcs Hct]. destruct (Hcs s Hs) as (o & Ho). pose proof Ho as Ho'. unfold output in Ho. cbn [sv_task sv_optional sv_dtype s] in Ho.
  destruct (merged_tensor E task) as [x|] eqn:Emt; cbn [rbind] in Ho; [|discriminate]. rewrite Hopt in Ho. destruct x as [x|]; [|discriminate].
  destruct (cast E _ x) as [y|] eqn:Ey; cbn [rbind] in Ho; [|discriminate]. assert (o = Some y) by congruence. subst o.
  unfold merged_tensor in Emt. rewrite M4, Htok, Eg, M5, Edt in Emt.
  destruct (rmapM _ ins) as [xs'|] eqn:Exs in Emt; cbn [rbind] in Emt; [|discriminate].
  assert (Hxs : exists xs, Forall2 (fun mw x => source E (mc_dtype c) mw = Ok x) ins xs /\ xs' = combine (map fst ins) xs).
  { apply rmapM_Ok_Forall2 in Exs. clear -Exs. induction Exs as [|mw b l l' Hb _ IH]; [exists []; split; [constructor|auto]|].
    destruct IH as (xs & IH1 & ->). destruct (source E (mc_dtype c) mw) as [z|] eqn:Ez; cbn [rbind] in Hb; [|discriminate].
    exists (z :: xs). split; [constructor; auto|]. cbn. congruence. }
  destruct Hxs as (xs & Hxs & ->). rewrite Emods in Emt.
  assert (Hout : In (wi_name w, y) (outputs E saves)). { apply outputs_In. exists s. auto. }
  assert (Hne : outputs E saves <> []) by (intros Hnil; rewrite Hnil in Hout; destruct Hout).
  pose proof (C63_directory c out_cfg saves A choose safe max Hp HN Ht Hc Hne Hsafe) as HD.
  pose proof (C63_run c out_cfg saves A choose Hp HN Ht Hc) as HR.
  destruct (run E A choose _) as [evs st] eqn:Erun. destruct HR as [HR _]. cbn [fst].
  destruct HD as (f' & Hf & HL & _). destruct (HL (proj2 HR (conj Hcs Hct))) as (ix & L1 & L2 & L3).
  exists f', ix, t, ins, xs, task, x, y. repeat (split; auto).
  intros hist. apply L3. apply last_saved_In; auto. apply outputs_NoDup; auto.
Qed.

(** * C64 *)
(** When every tensor can be computed and has a value - or no output dtype is given for those without - the run in
    memory finishes, and the tensor it reports for each planned weight is the one written by the run to disk. *)
Theorem C64_memory_agrees_partial c out_cfg saves A choose :
  plan_to_disk W c out_cfg = Ok saves -> told_apart E saves -> inputs_consistent E saves ->
  (forall s, In s saves -> exists x, output E s = Ok x) ->
  (forall s d, In s saves -> output E s = Ok None -> sv_dtype s = Some d -> d = "") ->
  let r := executor_run_tasks A (sem E) choose (memory_targets E saves) in
  let u := fst r in let evs := fst (snd r) in
  snd (snd r) = None /\
  (forall s, In s saves -> exists h x, names u h (return_node E s) /\ In (h, VTensor x) (yields evs) /\ output E s = Ok x) /\
  (forall h v, In (h, v) (yields evs) -> exists s x, In s saves /\ names u h (return_node E s) /\ v = VTensor x /\ output E s = Ok x).
Proof.
  intros Hp Ht Hc Hall Hnone. pose proof (planned_good _ _ _ Hp Ht Hc) as HG. cbv zeta.
  assert (Hwf : Forall wf_task (memory_targets E saves)).
  { apply Forall_forall. intros t Hin. apply in_map_iff in Hin as (s & <- & _). apply wf_return. }
  assert (Hev : forall s, In s saves -> exists x, output E s = Ok x /\ eval A (sem E) no_env (return_node E s) = Ok (VTensor x)).
  { intros s Hs. destruct (Hall s Hs) as (x & Hx). exists x. split; auto. rewrite eval_return by auto. unfold output in Hx.
    pose proof (Hnone s) as Hn. unfold output in Hn.
    destruct (merged_tensor E (sv_task s)) as [[y|]|]; cbn [rbind] in *; try discriminate; unfold exec_return.
    - destruct (cast E (sv_dtype s) y); cbn [rbind] in *; congruence.
    - destruct (sv_optional s); [|discriminate]. destruct (sv_dtype s) as [d|]; [|congruence].
      rewrite (Hn d Hs eq_refl eq_refl). lit. congruence. }
  destruct (run_tasks_spec A (sem E) choose (memory_targets E saves) Hwf) as (Y1 & _ & Y3 & _ & Y5). cbv zeta in *.
  assert (Hst : snd (snd (executor_run_tasks A (sem E) choose (memory_targets E saves))) = None).
  { apply Y5. intros t Hin. apply in_map_iff in Hin as (s & <- & Hs). destruct (Hev s Hs) as (x & _ & Ex). eauto. }
  split; [exact Hst|]. split.
  - intros s Hs. destruct (Y3 Hst (return_node E s)) as (h & v & Hn & Hy); [now apply in_map|].
    destruct (Y1 h v Hy) as (t & Hn' & _ & Et). assert (t = return_node E s) by (unfold names in *; congruence). subst t.
    destruct (Hev s Hs) as (x & Ox & Ex). exists h, x. split; auto. split; auto. congruence.
  - intros h v Hy. destruct (Y1 h v Hy) as (t & Hn & Hin & Et). apply in_map_iff in Hin as (s & <- & Hs).
    destruct (Hev s Hs) as (x & Ox & Ex). exists s, x. repeat split; auto. congruence.
Qed.

(** A weight that gets no value fails the run in memory if an output dtype is set, even when it is optional. *)
Lemma memory_fails c out_cfg saves A choose s d :
  plan_to_disk W c out_cfg = Ok saves -> told_apart E saves -> inputs_consistent E saves ->
  In s saves -> merged_tensor E (sv_task s) = Ok None -> sv_dtype s = Some d -> d <> "" ->
  snd (run E A choose (memory_targets E saves)) <> None.
Proof.
  intros Hp Ht Hc Hs Hm Hd Hne Hst. pose proof (planned_good _ _ _ Hp Ht Hc) as HG.
  assert (Hwf : Forall wf_task (memory_targets E saves)).
  { apply Forall_forall. intros t Hin. apply in_map_iff in Hin as (s' & <- & _). apply wf_return. }
  destruct (run_tasks_spec A (sem E) choose (memory_targets E saves) Hwf) as (Y1 & _ & Y3 & _ & _). cbv zeta in *.
  destruct (Y3 Hst (return_node E s)) as (h & v & Hn & Hy); [now apply in_map|].
  destruct (Y1 h v Hy) as (t & Hn' & _ & Et). assert (t = return_node E s) by (unfold names in *; congruence). subst t.
  rewrite eval_return, Hm in Et by auto. cbn [rbind exec_return] in Et. rewrite Hd in Et.
  destruct (eqb_spec d "") as [->|_]; [congruence|discriminate].
Qed.
End Whole.

(** * Examples *)
(** Tensors are represented by where they come from; the method lists its inputs. *)
Definition ex_files (m : nat) : fs string :=
  [("model.safetensors", FShard true (map (fun n => (n, (str_of_Z (Z.of_nat m) ++ ":" ++ n)%string))
     ["embed"; "norm"; "layers.0.w"; "layers.1.w"; "layers.2.w"; "layers.3.w"; "layers.2.b"]))].
Definition ex_env (str : nat -> string) (method : merge_task nat -> dict nat string -> result (option string)) : env nat string unit :=
  {| e_str := str; e_dir := ex_files; e_hist := fun _ => []; e_convert := fun _ _ => Ok None; e_cast := fun d x => Ok (x ++ "@" ++ d)%string;
     e_method := method; e_tokenizer := Ok tt; e_permute := fun _ _ d => Ok d |}.
Definition join (t : merge_task nat) (d : dict nat string) : result (option string) := Ok (Some (String.concat " " (dvals d))).
Definition ex_attrs : attrs (lbl nat) :=
  {| priority := fun _ => 0%Z; group_label := fun _ => None; uses_accelerator := fun _ => false;
     main_thread_only := fun _ => false; duplicate_per_gpu := fun _ => false |}.
Definition first_ready (n : nat) (l : list nat) : nat := 0%nat.
Definition ex_world : world nat :=
  {| w_arch := w_arch Plan.Props.ex_world; w_cfg := w_cfg Plan.Props.ex_world;
     w_tensors := fun m => if Nat.eqb m 1 then ["embed"; "norm"; "layers.2.b"] else ["embed"; "norm"];
     w_params := []; w_tparams := []; w_tokenizer := false |}.
Definition ex_cfg : merge_config nat :=
  {| mc_modules := None; mc_slices := Some Plan.Props.ex_slices; mc_models := None; mc_base := None;
     mc_params := None; mc_dtype := None; mc_out_dtype := Some "bf16" |}.
Definition plain (m : nat) : string := str_of_Z (Z.of_nat m).
Definition the_saves : list (save_task nat) :=
  match plan_to_disk ex_world ex_cfg Plan.Props.ex_out with Ok l => l | Err _ => [] end.
Definition Ex := ex_env plain join.

Lemma ex_planned : plan_to_disk ex_world ex_cfg Plan.Props.ex_out = Ok the_saves.
Proof. vm_compute. reflexivity. Qed.
Definition no_save : save_task nat :=
  {| sv_name := ""; sv_optional := false; sv_dtype := None;
     sv_task := {| mt_weight := Plan.Props.wi "" false None; mt_gather := []; mt_dtype := None; mt_permuted := false;
                   mt_params := []; mt_tparams := []; mt_base := None |} |}.
Ltac nodup := repeat constructor; cbn; intuition discriminate.
Lemma ex_consistent m ix : from_disk (ex_files m) = Ok ix -> consistent (ex_files m) ix.
Proof.
  intros [= <-]. split.
  - intros k file Hk. cbn [ix_paths] in Hk. apply dget_In in Hk. cbn in Hk.
    exists (map (fun n => (n, (str_of_Z (Z.of_nat m) ++ ":" ++ n)%string))
     ["embed"; "norm"; "layers.0.w"; "layers.1.w"; "layers.2.w"; "layers.3.w"; "layers.2.b"]).
    repeat (destruct Hk as [Hk0|Hk]; [injection Hk0 as <- <-; split; [reflexivity|unfold dkeys; cbn; tauto]|]). destruct Hk.
  - intros k file d x Hk Ho Hx. cbn [ix_paths] in *. apply dget_In in Hk. cbn in Hk.
    assert (file = "model.safetensors") by (repeat (destruct Hk as [Hk0|Hk]; [injection Hk0 as _ <-; reflexivity|]); destruct Hk). subst file.
    cbn in Ho. injection Ho as <-. unfold dkeys in Hx. cbn in Hx.
    repeat (destruct Hx as [<-|Hx]; [reflexivity|]). destruct Hx.
Qed.

Lemma ex_inputs str method : inputs_consistent (ex_env str method) the_saves.
Proof. intros s m w ix _ _. apply ex_consistent. Qed.

(** two models, three output layers from two slices; the second model lacks the optional bias *)
Example C63_nonvacuous :
  plan_to_disk ex_world ex_cfg Plan.Props.ex_out = Ok the_saves /\ NoDup (map sv_name the_saves) /\
  told_apart Ex the_saves /\ inputs_consistent Ex the_saves /\ computable Ex false the_saves /\
  outputs Ex the_saves =
    [("embed", "1:embed 2:embed@bf16"); ("layers.0.w", "1:layers.0.w 2:layers.2.w@bf16");
     ("layers.1.w", "1:layers.1.w 2:layers.3.w@bf16"); ("layers.2.w", "1:layers.2.w 2:layers.0.w@bf16");
     ("layers.2.b", "1:layers.2.b@bf16"); ("norm", "1:norm 2:norm@bf16")] /\
  (let (evs, st) := run Ex ex_attrs first_ready (disk_targets Ex false the_saves) in
   st = None /\ acts evs = saves_of (outputs Ex the_saves) ++ [AFinalize]).
Proof.
  split; [exact ex_planned|]. split; [vm_compute; nodup|].
  split.
  { intros s Hs. vm_compute in Hs. repeat (destruct Hs as [<-|Hs]; [vm_compute; nodup|]). destruct Hs. }
  split; [apply ex_inputs|]. split.
  { split; [|discriminate]. intros s Hs. vm_compute in Hs.
    repeat (destruct Hs as [<-|Hs]; [vm_compute; eexists; reflexivity|]). destruct Hs. }
  split; [vm_compute; reflexivity|]. vm_compute. split; reflexivity.
Qed.

(** C63: two different references that print alike are one argument of [GatherTensors]: the run finishes and saves a
    merge of only one of them. [ModelReference.__str__] leaves out [override_architecture]. *)
Theorem C63_same_name_refuted :
  exists (W : world nat) (E : env nat string unit) c out_cfg saves evs,
    plan_to_disk W c out_cfg = Ok saves /\ NoDup (map sv_name saves) /\ inputs_consistent E saves /\
    computable E false saves /\ ~ told_apart E saves /\
    run E ex_attrs first_ready (disk_targets E false saves) = (evs, None) /\
    In ("embed", "1:embed 2:embed@bf16") (outputs E saves) /\ In (ASave "embed" "2:embed@bf16") (acts evs).
Proof.
  exists ex_world, (ex_env (fun _ => "model") join), ex_cfg, Plan.Props.ex_out, the_saves,
    (fst (run (ex_env (fun _ => "model") join) ex_attrs first_ready (disk_targets (ex_env (fun _ => "model") join) false the_saves))).
  split; [exact ex_planned|]. split; [vm_compute; nodup|]. split; [apply ex_inputs|]. split.
  { split; [|discriminate]. intros s Hs. vm_compute in Hs.
    repeat (destruct Hs as [<-|Hs]; [vm_compute; eexists; reflexivity|]). destruct Hs. }
  split.
  { intros Ht. specialize (Ht (hd no_save the_saves)).
    assert (Hin : NoDup ["model:embed"; "model:embed"]).
    { apply Ht. vm_compute. now left. }
    inversion Hin as [|? ? Hn _]; subst. apply Hn. now left. }
  split; [vm_compute; reflexivity|]. split; [vm_compute; now left|vm_compute; now left].
Qed.

(** the method gives no value to optional weights that too few models have, as model_stock does (model_stock.py:35-41) *)
Definition stock (t : merge_task nat) (d : dict nat string) : result (option string) :=
  if wi_optional (mt_weight t) && Nat.ltb (length d) 2 then Ok None else join t d.

Example C64_nonvacuous :
  (forall s, In s the_saves -> exists x, output Ex s = Ok x) /\
  (forall s d, In s the_saves -> output Ex s = Ok None -> sv_dtype s = Some d -> d = "") /\
  snd (run Ex ex_attrs first_ready (memory_targets Ex the_saves)) = None /\
  returned (fst (run Ex ex_attrs first_ready (memory_targets Ex the_saves))) = map (fun nt => Some (snd nt)) (outputs Ex the_saves).
Proof.
  split; [|split; [|split; vm_compute; reflexivity]].
  - intros s Hs. vm_compute in Hs. repeat (destruct Hs as [<-|Hs]; [vm_compute; eexists; reflexivity|]). destruct Hs.
  - intros s d Hs. vm_compute in Hs. repeat (destruct Hs as [<-|Hs]; [vm_compute; discriminate|]). destruct Hs.
Qed.

(** C64: with an output dtype, an optional weight without value is skipped by the run to disk, which finishes, but
    fails the run in memory ([None.dtype]), for every schedule. *)
Theorem C64_optional_refuted :
  exists (W : world nat) (E : env nat string unit) c out_cfg saves,
    plan_to_disk W c out_cfg = Ok saves /\ told_apart E saves /\ inputs_consistent E saves /\
    (forall A choose, snd (run E A choose (disk_targets E (w_tokenizer W) saves)) = None) /\
    (forall A choose, snd (run E A choose (memory_targets E saves)) <> None).
Proof.
  set (E := ex_env plain stock). exists ex_world, E, ex_cfg, Plan.Props.ex_out, the_saves.
  assert (Ht : told_apart E the_saves).
  { intros s Hs. vm_compute in Hs. repeat (destruct Hs as [<-|Hs]; [vm_compute; nodup|]). destruct Hs. }
  assert (Hc : inputs_consistent E the_saves) by apply ex_inputs.
  split; [exact ex_planned|]. split; [exact Ht|]. split; [exact Hc|]. split.
  - intros A choose. apply (run_ok E A (w_tokenizer ex_world) the_saves).
    { eapply planned_good; [exact ex_planned|exact Ht|exact Hc]. }
    split; [|discriminate]. intros s Hs. vm_compute in Hs.
    repeat (destruct Hs as [<-|Hs]; [vm_compute; eexists; reflexivity|]). destruct Hs.
  - intros A choose. set (s := nth 4 the_saves (hd no_save the_saves)).
    apply (memory_fails ex_world E ex_cfg Plan.Props.ex_out the_saves A choose s "bf16"); auto; try exact ex_planned.
    + apply nth_In. vm_compute. lia.
    + discriminate.
Qed.

Print Assumptions C63_run.
Print Assumptions C63_directory.
Print Assumptions C63_directory_async.
Print Assumptions C63_end_to_end.
Print Assumptions C63_same_name_refuted.
Print Assumptions C64_memory_agrees_partial.
Print Assumptions C64_optional_refuted.
