(** Model of where tensors are kept and computed: [Executor._move_tensors] (mergekit/graph.py 528-545) and its uses (467-485), the
    validators of MergeOptions (mergekit/options.py 62-91), the choice of executor in [run_merge] (mergekit/merge.py 71-81), the
    device tensors are read to (plan.py 207, io/tasks.py 94-126) and the devices of the stages of [MultiGPUExecutor]
    (multigpu_executor.py 143-147, 190-195, 352-365).

    Not modelled: streams and [non_blocking] copies (torch orders them on the stream), the memory of devices. *)
From Verif.Base Require Import Py.
From Verif.Graph Require Import Model.
From Verif.MultiGPU Require Import Model.
Local Open Scope string_scope.
Local Open Scope list_scope.

(** the device of a tensor: the CPU, or an accelerator of a type with an index *)
Inductive device := Cpu | Acc (type : string) (index : nat).
Definition device_dec (x y : device) : {x = y} + {x <> y}.
Proof. decide equality; [apply Nat.eq_dec|apply string_dec]. Defined.
(** [torch.device(...)]: type and optional index *)
Definition dname : Type := string * option nat.
(** [tensor.device] *)
Definition device_of (d : device) : dname := match d with Cpu => ("cpu", None) | Acc t i => (t, Some i) end.
(** the device that a name stands for; [cur] gives the current accelerator of each type *)
Definition resolve (cur : string -> nat) (n : dname) : device :=
  match snd n with
  | Some i => Acc (fst n) i
  | None => if eqb (fst n) "cpu" then Cpu else Acc (fst n) (cur (fst n))
  end.

(** ** Values passed between tasks. [O] are objects that [_move_tensors] returns as they are. *)
Section Values.
Context {K T O : Type}.
Inductive pval :=
| PTensor (d : device) (x : T)
| PDict (l : list (K * pval))
| PList (l : list pval)
| PTuple (l : list pval)
| POther (o : O).
(** [_move_tensors] (528-545) *)
Fixpoint move (cur : string -> nat) (n : dname) (v : pval) : pval :=
  match v with
  | PTensor d x => if eqb (device_of d) n then PTensor d x else PTensor (resolve cur n) x
  | PDict l => PDict (map (fun kv => (fst kv, move cur n (snd kv))) l)
  | PList l => PList (map (move cur n) l)
  | PTuple l => PTuple (map (move cur n) l)
  | POther o => POther o
  end.
(** [Executor(math_device, storage_device)] whose tasks do [exec] *)
Definition on_devices {L} (exec : L -> list (string * pval) -> result pval) (cur : string -> nat) (math store : dname) : semantics L pval :=
  {| execute := exec; to_math := move cur math; to_store := move cur store |}.
End Values.
Arguments pval : clear implicits.

(** ** The executors of [run_merge] *)
(** the fields of MergeOptions that concern devices, as given: [None] for a key that is absent *)
Record given_options := { g_device : option string; g_cuda : bool; g_gpu_rich : bool; g_low_cpu_memory : bool; g_read_to_gpu : bool; g_multi_gpu : bool }.
(** [handle_gpu_rich] (62-69) *)
Definition handle_gpu_rich (g : given_options) : given_options :=
  if g_gpu_rich g
  then {| g_device := g_device g; g_cuda := true; g_gpu_rich := true; g_low_cpu_memory := true; g_read_to_gpu := true; g_multi_gpu := true |}
  else g.
Definition with_device (g : given_options) (d : string) : given_options :=
  {| g_device := Some d; g_cuda := g_cuda g; g_gpu_rich := g_gpu_rich g; g_low_cpu_memory := g_low_cpu_memory g;
     g_read_to_gpu := g_read_to_gpu g; g_multi_gpu := g_multi_gpu g |}.
(** [handle_device_setting] (71-91); [cuda], [xpu]: what torch says is available *)
Definition handle_device_setting (cuda xpu : bool) (g : given_options) : given_options :=
  let g := match g_device g with
           | None | Some "" => with_device g (if g_cuda g || g_gpu_rich g then "cuda" else "cpu")
           | Some _ => g
           end in
  match g_device g with
  | Some "auto" => with_device g (if cuda then "cuda" else if xpu then "xpu" else "cpu")
  | _ => g
  end.
(** pydantic runs the validators of mode "before" in the reverse order of their definition *)
Definition validated (cuda xpu : bool) (g : given_options) : given_options := handle_gpu_rich (handle_device_setting cuda xpu g).
(** [options.device] *)
Definition option_device (g : given_options) : string := match g_device g with Some d => d | None => "" end.

(** the executor and its devices (merge.py 71-81); names are parsed by torch later *)
Inductive executor := Single (math store : string) | Multi (store : option string).
Definition choose_executor (g : given_options) : executor :=
  if g_multi_gpu g then Multi (if g_low_cpu_memory g then None else Some "cpu")
  else Single (option_device g) (if g_low_cpu_memory g then option_device g else "cpu").
(** the device weights are read to (plan.py 207, [self.device or "cpu"] in io/tasks.py) *)
Definition read_device (g : given_options) : string :=
  if g_read_to_gpu g then (if eqb (option_device g) "" then "cpu" else option_device g) else "cpu".

(** ** The stages of [MultiGPUExecutor.run]: each executor has its own devices, and its tasks run in the main thread ([None]) or in
    the worker of a GPU *)
Section Stages.
Context {L V : Type} `{Eqb L}.
Variable A : attrs L.
Variable S : option nat -> semantics L V.
Variable u : universe L.
Variable none : V.
Definition put_from targets (p : partition) ch chw (dt : nat * list nat) : list (nat * V) :=
  map (put none targets p)
    (yields (fst (worker_run A (S (Some (fst dt))) u (chw (fst dt)) p (dset_all [] (yields (fst (lead_run A (S None) u ch p)))) (snd dt)))).
(** as [mg_run] of MultiGPU/Model.v, stage by stage *)
Inductive stage_run (targets : list nat) (p : partition) : list (nat * V) -> result (list (nat * V)) -> Prop :=
| st_lead_error ch e lost :
    snd (lead_run A (S None) u ch p) = Some e -> stage_run targets p lost (Err e)
| st_worker_error ch chw d tasks e lost :
    snd (lead_run A (S None) u ch p) = None ->
    In (d, tasks) (p_assign p) ->
    snd (worker_run A (S (Some d)) u chw p (dset_all [] (yields (fst (lead_run A (S None) u ch p)))) tasks) = Some e ->
    stage_run targets p lost (Err e)
| st_after ch chw q got lost cht :
    snd (lead_run A (S None) u ch p) = None ->
    (forall d tasks, In (d, tasks) (p_assign p) ->
       snd (worker_run A (S (Some d)) u (chw d) p (dset_all [] (yields (fst (lead_run A (S None) u ch p)))) tasks) = None) ->
    interleaved (map (put_from targets p ch chw) (p_assign p)) q ->
    q = got ++ lost ->
    let trail := trail_run A (S None) u cht p (dset_all (dset_all [] (yields (fst (lead_run A (S None) u ch p)))) got) in
    stage_run targets p lost
      match snd trail with
      | Some e => Err e
      | None => Ok (filter (fun hv => mem (fst hv) targets)
                      (dset_all (dset_all (dset_all [] (yields (fst (lead_run A (S None) u ch p)))) got)
                         (filter (fun hv => mem (fst hv) targets) (yields (fst trail)))))
      end.
End Stages.
(** the devices of the stages: 143-147 and 190-195 in the main thread, 352-365 in a worker; [type] is the type of the accelerators *)
Definition stage_devices (type : string) (store : option dname) (w : option nat) : dname * dname :=
  match w with
  | None => let d := match store with Some d => d | None => ("cpu", None) end in (d, d)
  | Some i => ((type, Some i), match store with Some d => d | None => (type, Some i) end)
  end.
Definition staged {L K T O : Type} (exec : option nat -> L -> list (string * pval K T O) -> result (pval K T O)) (cur : option nat -> string -> nat)
  (type : string) (store : option dname) (w : option nat) : semantics L (pval K T O) :=
  let ms := stage_devices type store w in on_devices (exec w) (cur w) (fst ms) (snd ms).
