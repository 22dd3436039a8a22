(** * C85: devices are where options say, and do not change what is computed *)
From Verif.Base Require Import Py PyFacts.
From Verif.Config Require Import Model.
From Verif.Plan Require Import Model.
From Verif.Graph Require Import Model Spec UniverseProofs Proofs.
From Verif.MultiGPU Require Import Model Spec Proofs RunProofs.
From Verif.MultiGPU Require Props Examples.
From Verif.IO Require Import Model Spec.
From Verif.Run Require Import Model Spec.
From Verif.Run Require Props.
From Verif.Devices Require Import Model Spec Proofs StageProofs Run RunSpec RunProofs OptionProofs.
Local Open Scope string_scope.
Local Open Scope list_scope.

(** ** Moving *)
(** Moving puts all tensors on the device, changes nothing else, and leaves alone what is there already. *)
Theorem C85_moved {K T O : Type} cur n (v : pval K T O) : on (resolve cur n) (move cur n v) /\ content (move cur n v) = content v /\
  (on (resolve cur n) v -> move cur n v = v).
Proof. split; [apply move_on|]. split; [apply content_move|apply move_same]. Qed.

Section Single.
Context {L K T O : Type} `{Eqb L}.
Notation pval := (pval K T O).
Variable A : attrs L.

(** The executor calls a task only with arguments all of whose tensors are on the math device, if it uses the accelerator, and on the
    storage device otherwise: what the task would do with other arguments makes no difference. What it reports is on the storage
    device. *)
Theorem C85_arguments (e e' : L -> list (string * pval) -> result pval) cur math store choose u targets cached :
  (forall l args, all_on (resolve cur (if uses_accelerator A l then math else store)) args -> e l args = e' l args) ->
  (forall h v, In (h, v) cached -> on (resolve cur store) v) ->
  let r := executor_run A (on_devices e cur math store) choose u targets cached in
  executor_run A (on_devices e' cur math store) choose u targets cached = r /\
  forall h v, In (h, v) (yields (fst r)) -> on (resolve cur store) v.
Proof.
  intros He Hc. destruct (executor_sim A (on_devices e cur math store) (on_devices e' cur math store) (fun v => v) (on (resolve cur store)) u (fun _ => True)) with (choose := choose) (targets := targets) (cached := cached) as (E & Hy); auto.
  - intros l args v _ _ _. split; [apply move_on|reflexivity].
  - intros l args _ Hi. cbn [execute on_devices]. rewrite <- He.
    + destruct (e l _); reflexivity.
    + unfold move_arg. intros k v Hk. apply in_map_iff in Hk as ([k0 v0] & [= <- <-] & Hk). destruct (uses_accelerator A l); [apply move_on|exact (Hi _ _ Hk)].
  - cbv zeta. split; [|exact Hy]. rewrite vmap_id, events_id in E. exact E.
Qed.
(** If the tasks compute the same wherever their arguments are together, the
    run is, but for devices, the one in which nothing is ever moved. *)
Theorem C85_values (e pure : L -> list (string * pval) -> result pval) cur math store choose u targets cached :
  portable e pure -> (forall h v, In (h, v) cached -> on (resolve cur store) v) ->
  let r := executor_run A (on_devices e cur math store) choose u targets cached in
  executor_run A (in_place pure) choose u targets (map (fun hv => (fst hv, content (snd hv))) cached) = (map (event_map content) (fst r), snd r) /\
  forall h v, In (h, v) (yields (fst r)) -> on (resolve cur store) v.
Proof.
  intros Hp Hc. refine (executor_sim A (on_devices e cur math store) (in_place pure) content (on (resolve cur store)) u (fun _ => True) _ _ choose targets cached _ Hc).
  - intros l args v _ _ _. split; [apply move_on|apply content_move].
  - intros l args _ Hi. cbn [execute on_devices in_place].
    assert (Ho : all_on (resolve cur (if uses_accelerator A l then math else store)) (map (fun kv => (fst kv, move_arg A (on_devices e cur math store) l (snd kv))) args)).
    { unfold move_arg. intros k v Hk. apply in_map_iff in Hk as ([k0 v0] & [= <- <-] & Hk). destruct (uses_accelerator A l); [apply move_on|exact (Hi _ _ Hk)]. }
    rewrite (Hp l _ _ Ho), contents_move by (intros; apply content_move). f_equal. symmetry. apply in_place_args.
  - tauto.
Qed.
(** So two runs of the same tasks on different devices report the same. *)
Theorem C85_device_choice (e e' pure : L -> list (string * pval) -> result pval) cur cur' math math' store store' choose ts :
  portable e pure -> portable e' pure ->
  let r := executor_run_tasks A (on_devices e cur math store) choose ts in
  let r' := executor_run_tasks A (on_devices e' cur' math' store') choose ts in
  fst r = fst r' /\ map (event_map content) (fst (snd r)) = map (event_map content) (fst (snd r')) /\ snd (snd r) = snd (snd r').
Proof.
  intros Hp Hp'. unfold executor_run_tasks. destruct (handles_of ts _) as [u hs]. cbn [fst snd]. split; [reflexivity|].
  destruct (C85_values e pure cur math store choose u hs [] Hp) as (E1 & _); [intros ? ? []|].
  destruct (C85_values e' pure cur' math' store' choose u hs [] Hp') as (E2 & _); [intros ? ? []|]. cbn [map] in E1, E2.
  rewrite E1 in E2. split; [exact (f_equal fst E2)|exact (f_equal snd E2)].
Qed.
End Single.

(** ** Several accelerators *)
(** A worker calls its tasks only with tensors on its own accelerator, if they use it, and else on the storage device, which without
    --low-cpu-memory is the one given and with it its accelerator; that is where the results go. The main thread computes and stores
    on the storage device, or on the CPU. (Values handed from the main thread to workers have no tensors.) *)
Theorem C85_worker {L K T O : Type} (A : attrs L) (exec exec' : option nat -> L -> list (string * pval K T O) -> result (pval K T O)) cur type store u ch p given tasks i :
  let kept := match store with Some d => resolve (cur (Some i)) d | None => Acc type i end in
  (forall l args, all_on (if uses_accelerator A l then Acc type i else kept) args -> exec (Some i) l args = exec' (Some i) l args) ->
  (forall h v, In (h, v) given -> bare v) ->
  let r := worker_run A (staged exec cur type store (Some i)) u ch p given tasks in
  worker_run A (staged exec' cur type store (Some i)) u ch p given tasks = r /\
  forall h v, In (h, v) (yields (fst r)) -> on kept v.
Proof.
  intros kept He Hg. set (st := snd (stage_devices type store (Some i))).
  assert (Ek : kept = resolve (cur (Some i)) st) by (unfold kept, st; now destruct store). rewrite Ek in *. clear Ek kept.
  apply (C85_arguments A (exec (Some i)) (exec' (Some i)) (cur (Some i)) (type, Some i) st).
  - intros l args Hon. apply He. destruct (uses_accelerator A l); exact Hon.
  - intros h v Hi. exact (Hg h v Hi _).
Qed.
Theorem C85_main {L K T O : Type} (A : attrs L) (exec exec' : option nat -> L -> list (string * pval K T O) -> result (pval K T O)) cur type store u ch p :
  let kept := match store with Some d => resolve (cur None) d | None => Cpu end in
  (forall l args, all_on kept args -> exec None l args = exec' None l args) ->
  let r := lead_run A (staged exec cur type store None) u ch p in
  lead_run A (staged exec' cur type store None) u ch p = r /\
  forall h v, In (h, v) (yields (fst r)) -> on kept v.
Proof.
  intros kept He. assert (Ek : kept = resolve (cur None) (fst (stage_devices type store None))) by (unfold kept; now destruct store). rewrite Ek in *. clear Ek kept.
  apply (C85_arguments A (exec None) (exec' None) (cur None) (fst (stage_devices type store None)) (fst (stage_devices type store None))).
  - intros l args Hon. apply He. now destruct (uses_accelerator A l).
  - intros h v [].
Qed.
(** If the tasks bound to the main thread return no tensors and do not mind where their arguments are, and the other tasks compute the
    same wherever their arguments are together, then the stages on their devices do, but for devices, what they would do without
    any (to which C07 applies), unless a result that the last stage needs is lost. *)
Theorem C85_stages {L K T O : Type} `{Eqb L} (A : attrs L) exec pure cur type store (none : pval K T O) ts u targets choose ctrail num p lost r :
  (forall w, portable (exec w) pure) ->
  (forall l, main_thread_only A l = true -> indifferent (exec None) pure l /\ forall args v, exec None l args = Ok v -> bare v) ->
  Props.asked ts u targets -> 0 < num -> construct A u choose ctrail targets num = Ok p ->
  stage_run A (staged exec cur type store) u none targets p lost r ->
  (forall h v, In (h, v) lost -> ~ exists x, trailing A u x /\ depends u x h) ->
  (p_parallel p <> [] \/ forall h, ~ duplicated A u h) ->
  mg_run A (in_place pure) u (content none) targets p (map (fun hv => (fst hv, content (snd hv))) lost) (rmap (map (fun hv => (fst hv, content (snd hv)))) r).
Proof.
  intros Hp Hm Ha Hn Hc Hr Hlost Hd. destruct (Props.asked_ok _ _ _ Ha) as [HU HC].
  destruct (construct_ok A u targets HU HC choose ctrail num Hn) as [(p1 & E1 & Hs & _)|[E1 _]]; [|congruence]. rewrite E1 in Hc. injection Hc as ->.
  exact (stages_same A exec pure cur type store Hp Hm u targets HU HC p num Hs none lost r Hr Hlost Hd).
Qed.

(** ** Merge runs *)
Section Run.
Context {M : Type} `{Eqb M} {T K : Type}.
Variable E : env M T K.
Variable E' : env M (device * T) K.
Hypothesis HE : portable_env E E'.
(** A merge run on any devices, reading to any device, is but for devices the run of C63 and C64. *)
Theorem C85_run cur read math store A choose targets :
  let r := run_on E E' cur read math store A choose targets in
  run E A choose targets = (map (event_map unplaced) (fst r), snd r) /\
  forall h v, In (h, v) (yields (fst r)) -> value_on (resolve cur store) v.
Proof.
  unfold run, run_on, executor_run_tasks. destruct (handles_of targets _) as [u hs]. cbn [snd].
  refine (executor_sim A (sem_on E E' cur read math store) (sem E) unplaced (value_on (resolve cur store)) u (fun _ => True) _ _ choose hs [] _ _).
  - intros l args v _ _ _. split; [apply move_value_on|apply unplaced_move].
  - intros l args _ Hi. cbn [execute sem_on sem].
    rewrite (exec_unplaced E E' HE cur read (resolve cur (if uses_accelerator A l then math else store))).
    + f_equal. unfold uargs. rewrite map_map. apply map_ext. intros [k v]. cbn. unfold move_arg. destruct (uses_accelerator A l); [cbn; now rewrite unplaced_move|reflexivity].
    + intros k v Hk. apply in_map_iff in Hk as ([k0 v0] & [= <- <-] & Hk). unfold move_arg. destruct (uses_accelerator A l); [apply move_value_on|exact (Hi _ _ Hk)].
  - tauto.
  - intros ? ? [].
Qed.
(** Merge methods and embedding permutation are given tensors on the math device only, if their tasks use the accelerator, and on the
    storage device otherwise. *)
Theorem C85_run_arguments E'' cur read math store A choose targets :
  (forall m, e_str E'' m = e_str E' m) -> e_tokenizer E'' = e_tokenizer E' -> (forall s x, e_cast E'' s x = e_cast E' s x) ->
  let where_ l := resolve cur (if uses_accelerator A l then math else store) in
  (forall t d, together (where_ (LMerge t)) d -> e_method E'' t d = e_method E' t d) ->
  (forall b k d, together (where_ (LPermute b)) d -> e_permute E'' b k d = e_permute E' b k d) ->
  run_on E E'' cur read math store A choose targets = run_on E E' cur read math store A choose targets.
Proof.
  intros H1 H2 H3 where_ H4 H5. unfold run_on, executor_run_tasks. destruct (handles_of targets _) as [u hs]. cbn [snd].
  destruct (executor_sim A (sem_on E E' cur read math store) (sem_on E E'' cur read math store) (fun v => v) (value_on (resolve cur store)) u (fun _ => True)) with (choose := choose) (targets := hs) (cached := @nil (nat * value M (device * T) K)) as (X & _); auto.
  - intros l args v _ _ _. split; [apply move_value_on|reflexivity].
  - intros l args _ Hi. cbn [execute sem_on]. rewrite (exec_agree E E' E'' cur read (where_ l) l) by (auto; first [intros t ->; apply H4|intros b ->; apply H5|
      intros k v Hk; apply in_map_iff in Hk as ([k0 v0] & [= <- <-] & Hk); unfold move_arg, where_; destruct (uses_accelerator A l); [apply move_value_on|exact (Hi _ _ Hk)]]).
    destruct (exec_on E E' cur read l _); reflexivity.
  - intros ? ? [].
  - cbn in X. rewrite events_id in X. exact X.
Qed.
End Run.
(** So the directory written is the one of C63, whatever the devices. *)
Theorem C85_directory {M : Type} `{Eqb M} {T K : Type} (W : world M) (E : env M T K) E' (nbytes : T -> nat) c out_cfg saves A choose safe max cur read math store :
  portable_env E E' -> plan_to_disk W c out_cfg = Ok saves -> NoDup (map sv_name saves) ->
  told_apart E saves -> inputs_consistent E saves ->
  outputs E saves <> [] -> (safe = true \/ ~ In "state_dict" (map fst (outputs E saves))) ->
  let (evs, st) := run_on E E' cur read math store A choose (disk_targets E (w_tokenizer W) saves) in
  exists f', apply_all (ops_of nbytes (new_writer safe None max) (acts (map (event_map unplaced) evs))) [] = Ok f' /\
    (st = None -> loads_always f' (outputs E saves)) /\
    (st <> None -> unreadable f' \/ (loads_always f' (outputs E saves) /\ forall s, In s saves -> exists x, output E s = Ok x)).
Proof.
  intros HE Hp HN Ht Hc Hne Hsafe. pose proof (Run.Props.C63_directory W E nbytes c out_cfg saves A choose safe max Hp HN Ht Hc Hne Hsafe) as HD.
  destruct (C85_run E E' HE cur read math store A choose (disk_targets E (w_tokenizer W) saves)) as (Er & _). rewrite Er in HD.
  destruct (run_on E E' cur read math store A choose (disk_targets E (w_tokenizer W) saves)) as [evs st]. exact HD.
Qed.

(** ** Options *)
(** The device is the one given, what was detected for "auto", and else the accelerator if --cuda or --gpu-rich is given; --gpu-rich
    implies the flags it stands for. *)
Theorem C85_options cuda xpu g : let o := validated cuda xpu g in
  (forall d, g_device g = Some d -> d <> "" -> d <> "auto" -> option_device o = d) /\
  (g_device g = Some "auto" -> option_device o = if cuda then "cuda" else if xpu then "xpu" else "cpu") /\
  (g_device g = None \/ g_device g = Some "" -> option_device o = if (g_cuda g || g_gpu_rich g)%bool then "cuda" else "cpu") /\
  g_cuda o = (g_cuda g || g_gpu_rich g)%bool /\ g_multi_gpu o = (g_multi_gpu g || g_gpu_rich g)%bool /\
  g_low_cpu_memory o = (g_low_cpu_memory g || g_gpu_rich g)%bool /\ g_read_to_gpu o = (g_read_to_gpu g || g_gpu_rich g)%bool.
Proof.
  destruct g as [dv cu gr lo re mu]. cbv zeta. unfold validated. rewrite handle_device_spec. cbn [g_device].
  assert (Hd : forall g, option_device (handle_gpu_rich g) = option_device g) by (intros [? ? [|] ? ? ?]; reflexivity). rewrite Hd. cbn [option_device with_device g_device].
  split; [intros d -> H1 H2; apply setting_given; [reflexivity|exact H1|exact H2]|]. split; [intros ->; reflexivity|]. split; [intros [-> | ->]; reflexivity|].
  clear Hd. destruct gr; cbn; rewrite ?Bool.orb_true_r, ?Bool.orb_false_r; auto.
Qed.
(** It does not matter in which order the validators run. *)
Theorem C85_validator_order cuda xpu g : handle_device_setting cuda xpu (handle_gpu_rich g) = validated cuda xpu g.
Proof. unfold validated. rewrite !handle_device_spec. destruct g as [[d|] [|] [|] lo re mu]; reflexivity. Qed.
(** and validating twice changes nothing (an evaluator gets options that were validated already). *)
Theorem C85_validated_again cuda xpu g : validated cuda xpu (validated cuda xpu g) = validated cuda xpu g.
Proof.
  unfold validated. rewrite !handle_device_spec. set (d := setting cuda xpu g).
  assert (E : setting cuda xpu (handle_gpu_rich (with_device g d)) = d) by (apply setting_again; destruct g as [? ? [|] ? ? ?]; reflexivity).
  rewrite E. clearbody d. clear E. destruct g as [dv cu [|] lo re mu]; reflexivity.
Qed.
(** The executor of [run_merge]: one executor that computes on the device asked for and stores there only with --low-cpu-memory, or
    with --multi-gpu one whose results stay where they were computed only with --low-cpu-memory. Weights are read to the CPU unless
    --read-to-gpu is given. *)
Theorem C85_executors cuda xpu g : let o := validated cuda xpu g in
  (g_gpu_rich g = true -> choose_executor o = Multi None /\ read_device o = option_device o) /\
  (g_gpu_rich g = false -> g_multi_gpu g = true -> choose_executor o = Multi (if g_low_cpu_memory g then None else Some "cpu")) /\
  (g_gpu_rich g = false -> g_multi_gpu g = false -> choose_executor o = Single (option_device o) (if g_low_cpu_memory g then option_device o else "cpu")) /\
  (g_gpu_rich g = false -> read_device o = if g_read_to_gpu g then option_device o else "cpu").
Proof.
  cbv zeta. assert (Hn : eqb (option_device (validated cuda xpu g)) "" = false).
  { unfold validated. rewrite handle_device_spec. replace (option_device _) with (setting cuda xpu g) by (destruct g as [? ? [|] ? ? ?]; reflexivity). apply eqb_neq, setting_proper. }
  destruct (C85_options cuda xpu g) as (_ & _ & _ & _ & Em & El & Er). unfold choose_executor, read_device. rewrite Em, El, Er, Hn.
  destruct (g_gpu_rich g), (g_multi_gpu g), (g_low_cpu_memory g), (g_read_to_gpu g); cbn; repeat split; intros; try discriminate; reflexivity.
Qed.
(** Findings. --gpu-rich overrides a device that was given: the weights are read to that device, and computed on the accelerators. *)
Theorem C85_gpu_rich_keeps_device_refuted cuda xpu : exists g, g_device g = Some "cpu" /\
  choose_executor (validated cuda xpu g) = Multi None /\ read_device (validated cuda xpu g) = "cpu".
Proof. exists {| g_device := Some "cpu"; g_cuda := false; g_gpu_rich := true; g_low_cpu_memory := false; g_read_to_gpu := false; g_multi_gpu := false |}. repeat split. Qed.
(** --cuda ("Perform matrix arithmetic on GPU") together with another device does not. *)
Theorem C85_cuda_refuted cuda xpu : exists g, g_cuda g = true /\ choose_executor (validated cuda xpu g) = Single "cpu" "cpu".
Proof. exists {| g_device := Some "cpu"; g_cuda := true; g_gpu_rich := false; g_low_cpu_memory := false; g_read_to_gpu := false; g_multi_gpu := false |}. repeat split. Qed.

(** ** Examples *)
(** Tasks as torch has them: tensors on different devices are an error, the result is on the device of the arguments. "main" tasks
    take any arguments and return no tensors; tasks without arguments make a tensor on the CPU. *)
Definition placed (v : pval string Z unit) : list (device * Z) := match v with PTensor d x => [(d, x)] | _ => [] end.
Definition torch (l : string * Z) (args : list (string * pval string Z unit)) : result (pval string Z unit) :=
  if String.eqb (fst l) "main" then Ok (POther tt)
  else match flat_map (fun kv => placed (snd kv)) args with
       | [] => Ok (PTensor Cpu (snd l))
       | (d, x) :: rest => if forallb (fun dx => if device_dec (fst dx) d then true else false) rest
                           then Ok (PTensor d (snd l + x + fold_right Z.add 0 (map snd rest))%Z) else Err RuntimeError
       end.
Lemma torch_portable : portable torch torch.
Proof.
  intros l args d Ha. unfold torch. destruct (String.eqb (fst l) "main"); [reflexivity|].
  assert (E1 : flat_map (fun kv => placed (snd kv)) (contents args) = map (fun dx => (Cpu, snd dx)) (flat_map (fun kv => placed (snd kv)) args)).
  { clear. induction args as [|[k v] args IH]; [reflexivity|]. cbn. rewrite map_app. f_equal; [now destruct v|exact IH]. }
  assert (E2 : forall dx, In dx (flat_map (fun kv => placed (snd kv)) args) -> fst dx = d).
  { intros dx Hi. apply in_flat_map in Hi as ([k v] & Hk & Hv). apply Ha in Hk. cbn in Hv. destruct Hk; try destruct Hv as [<-|[]]; try contradiction. reflexivity. }
  rewrite E1. destruct (flat_map _ args) as [|[d0 x] rest]; cbn [map fst snd]; [reflexivity|].
  pose proof (E2 _ (or_introl eq_refl)) as Ed. cbn in Ed. subst d0.
  replace (forallb (fun dx => if device_dec (fst dx) d then true else false) rest) with true
    by (symmetry; apply forallb_forall; intros dx Hi; destruct (device_dec (fst dx) d) as [|Hn]; [reflexivity|destruct Hn; apply E2; right; exact Hi]).
  replace (forallb _ (map _ rest)) with true
    by (symmetry; apply forallb_forall; intros dx Hi; apply in_map_iff in Hi as (dx0 & <- & _); reflexivity).
  rewrite map_map. reflexivity.
Qed.
(** "gpu" tasks use the accelerator *)
Definition gpu_attrs : attrs (string * Z) :=
  {| priority := fun _ => 0%Z; group_label := fun _ => None; uses_accelerator := fun l => String.eqb (fst l) "gpu";
     main_thread_only := fun l => String.eqb (fst l) "main"; duplicate_per_gpu := fun l => String.eqb (fst l) "dup" |}.
Lemma torch_main l : main_thread_only gpu_attrs l = true -> indifferent torch torch l /\ forall args v, torch l args = Ok v -> bare v.
Proof. cbn. intros Hm. unfold indifferent, torch. rewrite Hm. split; [reflexivity|]. intros args v [= <-] d. constructor. Qed.
Definition no_index (_ : string) : nat := 0.
(** Results are stored on the CPU; the same with --low-cpu-memory *)
Example C85_values_nonvacuous : let r m s := yields (fst (executor_run gpu_attrs (on_devices torch no_index m s) MultiGPU.Examples.c0 MultiGPU.Examples.mg_u [3; 7] [])) in
  portable torch torch /\
  r ("cuda", None) ("cpu", None) = [(3, PTensor Cpu 22%Z); (7, PTensor Cpu 42%Z)] /\
  r ("cuda", Some 1) ("cuda", Some 1) = [(3, PTensor (Acc "cuda" 1) 22%Z); (7, PTensor (Acc "cuda" 1) 42%Z)].
Proof. split; [exact torch_portable|]. split; vm_compute; reflexivity. Qed.
(** The task graph of C06 and C07 on two GPUs, nothing stored on the CPU *)
Notation Sx := (staged (fun _ => torch) (fun _ => no_index) "cuda" None).
Notation Wx := (POther tt : pval string Z unit).
Definition queue_x : list (nat * pval string Z unit) :=
  [(4, Wx); (5, Wx); (3, Wx); (1, PTensor (Acc "cuda" 0) 1022%Z); (8, Wx); (5, Wx); (7, Wx); (6, PTensor (Acc "cuda" 1) 2042%Z)].
Example C85_stages_nonvacuous :
  (forall w : option nat, portable torch torch) /\
  (forall l, main_thread_only gpu_attrs l = true -> indifferent torch torch l /\ forall args v, torch l args = Ok v -> bare v) /\
  MultiGPU.Props.asked MultiGPU.Examples.mg_ts MultiGPU.Examples.mg_u [0] /\
  construct gpu_attrs MultiGPU.Examples.mg_u MultiGPU.Examples.c0 MultiGPU.Examples.c0 [0] 2 = Ok MultiGPU.Examples.mg_p /\
  stage_run gpu_attrs Sx MultiGPU.Examples.mg_u Wx [0] MultiGPU.Examples.mg_p [] (Ok [(0, Wx)]) /\
  map (put_from gpu_attrs Sx MultiGPU.Examples.mg_u Wx [0] MultiGPU.Examples.mg_p MultiGPU.Examples.c0 (fun _ => MultiGPU.Examples.c0)) (p_assign MultiGPU.Examples.mg_p) =
    [firstn 4 queue_x; skipn 4 queue_x].
Proof.
  split; [intros _; exact torch_portable|]. split; [exact torch_main|].
  split; [apply MultiGPU.Props.C06_nonvacuous|]. split; [vm_compute; reflexivity|]. split; [|vm_compute; reflexivity].
  assert (H1 : snd (lead_run gpu_attrs (Sx None) MultiGPU.Examples.mg_u MultiGPU.Examples.c0 MultiGPU.Examples.mg_p) = None) by (vm_compute; reflexivity).
  assert (H2 : forall d tasks, In (d, tasks) (p_assign MultiGPU.Examples.mg_p) -> snd (worker_run gpu_attrs (Sx (Some d)) MultiGPU.Examples.mg_u MultiGPU.Examples.c0 MultiGPU.Examples.mg_p
    (dset_all [] (yields (fst (lead_run gpu_attrs (Sx None) MultiGPU.Examples.mg_u MultiGPU.Examples.c0 MultiGPU.Examples.mg_p)))) tasks) = None).
  { intros d tasks [[= <- <-]|[[= <- <-]|[]]]; vm_compute; reflexivity. }
  assert (H3 : interleaved (map (put_from gpu_attrs Sx MultiGPU.Examples.mg_u Wx [0] MultiGPU.Examples.mg_p MultiGPU.Examples.c0 (fun _ => MultiGPU.Examples.c0)) (p_assign MultiGPU.Examples.mg_p)) queue_x)
    by MultiGPU.Props.interleave.
  assert (H4 : queue_x = queue_x ++ []) by (now rewrite app_nil_r).
  pose proof (st_after gpu_attrs Sx MultiGPU.Examples.mg_u Wx [0] MultiGPU.Examples.mg_p MultiGPU.Examples.c0 (fun _ => MultiGPU.Examples.c0) queue_x queue_x [] MultiGPU.Examples.c0 H1 H2 H3 H4) as Hr.
  clear H1 H2 H3 H4. cbv zeta in Hr.
  match type of Hr with stage_run _ _ _ _ _ _ _ ?x => replace (Ok [(0, Wx)]) with x by (vm_compute; reflexivity) end. exact Hr.
Qed.
(** The run of C63, on a GPU, by a method that fails unless all its tensors are on one device *)
Definition ex_on : env nat (device * string) unit :=
  {| e_str := Run.Props.plain; e_dir := fun _ => []; e_hist := fun _ => []; e_convert := fun _ _ => Ok None; e_cast := fun d x => Ok (fst x, (snd x ++ "@" ++ d)%string);
     e_method := fun t d => match d with
                            | [] => Ok (Some (Cpu, ""))
                            | (_, (dv, _)) :: _ => if forallb (fun mx => if device_dec (fst (snd mx)) dv then true else false) d
                                                   then Ok (Some (dv, String.concat " " (map (fun mx => snd (snd mx)) d))) else Err RuntimeError
                            end;
     e_tokenizer := Ok tt; e_permute := fun _ _ d => Ok d |}.
Lemma ex_portable : portable_env Run.Props.Ex ex_on.
Proof.
  split; try reflexivity. intros t d dv Hd. cbn [e_method ex_on Run.Props.Ex Run.Props.ex_env Run.Props.join]. destruct d as [|[m [d0 x]] d]; [reflexivity|].
  replace (forallb _ _) with true; [|symmetry; apply forallb_forall; intros [m' [d' x']] Hi; pose proof (Hd _ _ Hi) as E1; pose proof (Hd _ _ (or_introl eq_refl)) as E2; cbn in *; subst; now destruct (device_dec dv dv)].
  unfold Run.Props.join, dvals, tensors. rewrite map_map. reflexivity.
Qed.
Example C85_run_nonvacuous : let r := run_on Run.Props.Ex ex_on no_index ("cpu", None) ("cuda", None) ("cuda", None) Run.Props.ex_attrs Run.Props.first_ready (memory_targets Run.Props.Ex Run.Props.the_saves) in
  portable_env Run.Props.Ex ex_on /\ snd r = None /\
  In (VTensor (Some (Acc "cuda" 0, "1:embed 2:embed@bf16"))) (map snd (yields (fst r))).
Proof. split; [exact ex_portable|]. split; [vm_compute; reflexivity|]. vm_compute. auto 20. Qed.

Print Assumptions C85_moved.
Print Assumptions C85_arguments.
Print Assumptions C85_values.
Print Assumptions C85_device_choice.
Print Assumptions C85_worker.
Print Assumptions C85_main.
Print Assumptions C85_stages.
Print Assumptions C85_run.
Print Assumptions C85_run_arguments.
Print Assumptions C85_directory.
Print Assumptions C85_options.
Print Assumptions C85_validator_order.
Print Assumptions C85_validated_again.
Print Assumptions C85_executors.
Print Assumptions C85_gpu_rich_keeps_device_refuted.
Print Assumptions C85_cuda_refuted.
