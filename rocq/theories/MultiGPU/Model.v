(** Model of mergekit/multigpu_executor.py. *)
From Verif.Base Require Import Py.
From Verif.Graph Require Import Model.
Local Open Scope list_scope.

Section MG.
Context {L V : Type} (A : attrs L) (S : semantics L V) (u : universe L).

(** an attribute of the task behind a handle ([t.task().main_thread_only()] etc.) *)
Definition task_attr (f : L -> bool) (h : nat) : bool :=
  match nth_error (u_tasks u) h with Some t => f (label t) | None => false end.
Definition mto (h : nat) : bool := task_attr (main_thread_only A) h.
Definition per_gpu (h : nat) : bool := task_attr (duplicate_per_gpu A) h.

(** ** _find_leading_tasks (249-275) *)
Definition find_leading (tasks : list nat) : list nat :=
  fold_left (fun lead h => if negb (mto h) then lead
                           else if existsb (fun d => negb (mem d lead)) (deps u h) then lead
                           else set_add h lead) tasks [].

(** ** _find_trailing_tasks (212-247). [dependants] is computed over the whole universe. *)
Definition dependants (h : nat) : list nat :=
  map fst (filter (fun kv => mem h (dvals (snd kv))) (u_args u)).

(** the loop; [choose] resolves [to_explore.pop()] *)
Fixpoint trailing_loop (choose : nat -> list nat -> nat) (fuel : nat) (trailing to_explore : list nat)
  : result (list nat) :=
  match fuel with
  | O => Err OutOfFuel
  | Datatypes.S f =>
      match set_pop (choose f) to_explore with
      | None => Ok trailing
      | Some (h, rest) =>
          if negb (mto h) then trailing_loop choose f trailing rest
          else if forallb (fun d => mem d trailing) (dependants h)
          then trailing_loop choose f (set_add h trailing) (fold_left (fun s d => set_add d s) (deps u h) rest)
          else trailing_loop choose f trailing rest
      end
  end.

(** size of the task tree: bounds how often the loop can come back to a task; proved sufficient *)
Fixpoint tree_size (t : task L) : nat :=
  match t with Node _ args => Datatypes.S (fold_right (fun kt n => tree_size (snd kt) + n) 0 args) end.
Definition handle_size (h : nat) : nat := match nth_error (u_tasks u) h with Some t => tree_size t | None => 1 end.
Definition sum (l : list nat) : nat := fold_right Nat.add 0 l.

Definition find_trailing (choose : nat -> list nat -> nat) (tasks : list nat) : result (list nat) :=
  let start := dedup (filter (fun h => match dependants h with [] => true | _ => false end) tasks) in
  trailing_loop choose (Datatypes.S (sum (map handle_size start))) [] start.

(** ** _assign_islands_to_gpus (277-327) *)
Definition island_edges (tasks : list nat) : list (nat * nat) :=
  flat_map (fun h => map (fun d => (d, h)) (filter (fun d => mem d tasks) (deps u h))) tasks.

(** networkx [weakly_connected_components]: breadth-first search in both directions, level by level *)
Definition neighbours (es : list (nat * nat)) (v : nat) : list nat :=
  flat_map (fun e => (if Nat.eqb (fst e) v then [snd e] else []) ++ (if Nat.eqb (snd e) v then [fst e] else [])) es.
Fixpoint bfs (es : list (nat * nat)) (fuel : nat) (seen level : list nat) : list nat :=
  match fuel, level with
  | Datatypes.S f, _ :: _ =>
      let next := dedup (filter (fun x => negb (mem x seen)) (flat_map (neighbours es) level)) in
      bfs es f (seen ++ next) next
  | _, _ => seen
  end.
Fixpoint components (es : list (nat * nat)) (n : nat) (seen : list nat) (nodes : list nat) : list (list nat) :=
  match nodes with
  | [] => []
  | v :: rest => if mem v seen then components es n seen rest
                 else let c := bfs es n [v] [v] in c :: components es n (seen ++ c) rest
  end.
Definition islands (tasks : list nat) : list (list nat) :=
  components (island_edges tasks) (length tasks) [] (dedup tasks).

(** [min(range(n), key=f)]: the first index with the least key *)
Definition argmin (f : nat -> nat) (n : nat) : result nat :=
  match seq 0 n with
  | [] => Err ValueError
  | i :: is => Ok (fold_left (fun best j => if f j <? f best then j else best) is i)
  end.

Definition assigned (a : dict nat (list nat)) (i : nat) : list nat := match dget a i with Some l => l | None => [] end.

Fixpoint assign (num : nat) (isl : list (list nat)) (a : dict nat (list nat)) : result (dict nat (list nat)) :=
  match isl with
  | [] => Ok a
  | c :: rest =>
      match c with
      | [] => assign num rest a
      | _ => let! i := argmin (fun i => length (assigned a i)) num in
             assign num rest (dset a i (assigned a i ++ c))
      end
  end.

(** ** __init__ (60-129). [targets] is the set of target handles in its iteration order. *)
Record partition := {
  p_schedule : list nat;
  p_per_gpu : list nat;
  p_leading : list nat;
  p_trailing : list nat;
  p_trailing_deps : list nat;
  p_parallel : list nat;
  p_assign : dict nat (list nat)     (* device index -> tasks *)
}.

Definition construct (choose ctrail : nat -> list nat -> nat) (targets : list nat) (num : nat) : result partition :=
  let! s := build_schedule A choose u targets [] in
  let ordered := s_tasks s in
  let pg := filter per_gpu ordered in
  let lead := find_leading ordered in
  let! trail := find_trailing ctrail ordered in
  let trailing_main := filter (fun t => mem t trail) ordered in
  let leading_main := filter (fun t => mem t lead) ordered in
  let par := filter (fun t => negb (mem t trail) && negb (mem t lead) && negb (mem t pg)) ordered in
  if existsb mto par then Err RuntimeError
  else if existsb mto pg then Err RuntimeError
  else let! a := assign num (islands par) [] in
       Ok {| p_schedule := ordered; p_per_gpu := pg; p_leading := leading_main; p_trailing := trailing_main;
             p_trailing_deps := dedup (flat_map (deps u) trailing_main); p_parallel := par; p_assign := a |}.

(** ** run (131-205) and _device_worker (329-377).

    The stages interact only through [self.results] and the completion queue: every worker reads the immutable
    snapshot of the leading results and puts its results on the FIFO queue; the collector thread moves queue entries to
    [self.results] until [done_event] is set. So a run is determined by the executors' own choices, by how the
    workers' puts interleave on the queue, and by how far the collector got when [done_event] was set ([lost] is what
    it left behind). Device placement is one [semantics] for all stages; [none] is Python's [None]. *)
Variable none : V.

Definition dset_all (d : dict nat V) (l : list (nat * V)) : dict nat V :=
  fold_left (fun d kv => dset d (fst kv) (snd kv)) l d.

(** what a worker puts on the queue (360-375) *)
Definition put (targets : list nat) (p : partition) (hv : nat * V) : nat * V :=
  (fst hv, if mem (fst hv) targets || mem (fst hv) (p_trailing_deps p) then snd hv else none).

Inductive interleaved {X} : list (list X) -> list X -> Prop :=
| il_done ls : Forall (fun l => l = []) ls -> interleaved ls []
| il_put l1 x xs l2 q : interleaved (l1 ++ xs :: l2) q -> interleaved (l1 ++ (x :: xs) :: l2) (x :: q).

Definition lead_run ch (p : partition) := executor_run A S ch u (p_leading p) [].
Definition worker_run ch (p : partition) (res0 : dict nat V) (tasks : list nat) :=
  executor_run A S ch u (p_per_gpu p ++ tasks) res0.
Definition trail_run ch (p : partition) (res1 : dict nat V) := executor_run A S ch u (p_trailing p) res1.

Inductive mg_run (targets : list nat) (p : partition) : list (nat * V) -> result (list (nat * V)) -> Prop :=
| mg_lead_error ch e lost :
    snd (lead_run ch p) = Some e -> mg_run targets p lost (Err e)
| mg_worker_error ch chw d tasks e lost :
    snd (lead_run ch p) = None ->
    In (d, tasks) (p_assign p) ->
    snd (worker_run chw p (dset_all [] (yields (fst (lead_run ch p)))) tasks) = Some e ->
    mg_run targets p lost (Err e)
| mg_trail_error ch chw q got lost cht e :
    snd (lead_run ch p) = None ->
    (forall d tasks, In (d, tasks) (p_assign p) -> snd (worker_run (chw d) p (dset_all [] (yields (fst (lead_run ch p)))) tasks) = None) ->
    interleaved (map (fun dt => map (put targets p) (yields (fst (worker_run (chw (fst dt)) p
                                        (dset_all [] (yields (fst (lead_run ch p)))) (snd dt))))) (p_assign p)) q ->
    q = got ++ lost ->
    snd (trail_run cht p (dset_all (dset_all [] (yields (fst (lead_run ch p)))) got)) = Some e ->
    mg_run targets p lost (Err e)
| mg_finished ch chw q got lost cht :
    snd (lead_run ch p) = None ->
    (forall d tasks, In (d, tasks) (p_assign p) -> snd (worker_run (chw d) p (dset_all [] (yields (fst (lead_run ch p)))) tasks) = None) ->
    interleaved (map (fun dt => map (put targets p) (yields (fst (worker_run (chw (fst dt)) p
                                        (dset_all [] (yields (fst (lead_run ch p)))) (snd dt))))) (p_assign p)) q ->
    q = got ++ lost ->
    snd (trail_run cht p (dset_all (dset_all [] (yields (fst (lead_run ch p)))) got)) = None ->
    mg_run targets p lost
      (Ok (filter (fun hv => mem (fst hv) targets)
             (dset_all (dset_all (dset_all [] (yields (fst (lead_run ch p)))) got)
                (filter (fun hv => mem (fst hv) targets)
                   (yields (fst (trail_run cht p (dset_all (dset_all [] (yields (fst (lead_run ch p)))) got)))))))).
End MG.
