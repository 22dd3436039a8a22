(** Model of mergekit/graph.py: tasks, task universe, schedule construction and the
    serial executor. *)
From Verif.Base Require Import Py.

(** A [Task] (graph.py:23-123). [lbl] stands for the task's class and all of its fields; [args] is the
    dict returned by [arguments()].  Python equality of tasks is equality of class and
    fields, which is structural equality here.  Simplified: a task's dependencies are part of the tree
    (frozen pydantic models cannot be cyclic). *)
Inductive task (L : Type) := Node (lbl : L) (args : list (string * task L)).
Arguments Node {L} lbl args.

Definition label {L} (t : task L) : L := match t with Node l _ => l end.
Definition targs {L} (t : task L) : list (string * task L) := match t with Node _ a => a end.

(** Boolean structural equality of tasks (pydantic [__eq__]). *)
Fixpoint task_eqb {L} `{Eqb L} (t1 t2 : task L) {struct t1} : bool :=
  match t1, t2 with
  | Node l1 a1, Node l2 a2 =>
      eqb l1 l2 &&
      (fix go (a1 a2 : list (string * task L)) {struct a1} : bool :=
         match a1, a2 with
         | [], [] => true
         | (k1, x1) :: r1, (k2, x2) :: r2 => eqb k1 k2 && task_eqb x1 x2 && go r1 r2
         | _, _ => false
         end) a1 a2
  end.

(** Well-founded induction through the nested list of arguments. *)
Fixpoint task_rect' {L} (P : task L -> Prop)
  (HN : forall l args, (forall k t, In (k, t) args -> P t) -> P (Node l args)) (t : task L) {struct t} : P t :=
  match t with
  | Node l args =>
      HN l args
        ((fix go (a : list (string * task L)) : forall k t, In (k, t) a -> P t :=
            match a with
            | [] => fun k t (H : False) => match H with end
            | kt :: r => fun k t H =>
                match H with
                | or_introl e => eq_ind (snd kt) P (match kt as p return P (snd p) with (k0, t0) => task_rect' P HN t0 end)
                                   t (f_equal snd e)
                | or_intror H' => go r k t H'
                end
            end) args)
  end.

Lemma task_eqb_iff {L} `{Eqb L} (x y : task L) : task_eqb x y = true <-> x = y.
Proof.
  revert y. induction x as [l1 a1 IH] using task_rect'. intros [l2 a2]. cbn.
  rewrite andb_true_iff, eqb_iff.
  enough (forall a2,
    (fix go (a1 a2 : list (string * task L)) {struct a1} : bool :=
         match a1, a2 with
         | [], [] => true
         | (k1, x1) :: r1, (k2, x2) :: r2 => String.eqb k1 k2 && task_eqb x1 x2 && go r1 r2
         | _, _ => false
         end) a1 a2 = true <-> a1 = a2) as HE.
  { rewrite HE. split; [intros []; congruence|intros [=]; auto]. }
  clear a2. induction a1 as [|[k1 x1] r1 IHr]; intros [|[k2 x2] r2]; try (split; congruence).
  rewrite !andb_true_iff, String.eqb_eq, (IH k1 x1) by (left; reflexivity).
  rewrite IHr by (intros k t Hin; apply (IH k t); now right).
  split; [intros [[-> ->] ->]; reflexivity|intros [=]; auto].
Qed.

#[export] Instance Eqb_task {L} `{Eqb L} : Eqb (task L) :=
  {| eqb := task_eqb; eqb_iff := task_eqb_iff |}.

(** [Task.priority/group_label/uses_accelerator/main_thread_only/duplicate_per_gpu]
    (graph.py:70-123) are functions of the task's fields. *)
Record attrs (L : Type) := {
  priority : L -> Z;
  group_label : L -> option string;
  uses_accelerator : L -> bool;
  main_thread_only : L -> bool;
  duplicate_per_gpu : L -> bool
}.
Arguments priority {L}. Arguments group_label {L}. Arguments uses_accelerator {L}.
Arguments main_thread_only {L}. Arguments duplicate_per_gpu {L}.

(** [TaskUniverse] (graph.py:126-152). Simplified: the [_type_id_to_index] fast path
    (167-173, object identity of an already stored frozen task) is omitted; it returns the same index as
    the equality lookup. *)
Record universe (L : Type) := {
  u_tasks : list (task L);
  u_index : dict (task L) nat;
  u_args : dict nat (dict string nat)
}.
Arguments u_tasks {L}. Arguments u_index {L}. Arguments u_args {L}. Arguments Build_universe {L}.

Definition empty_universe {L} : universe L :=
  {| u_tasks := []; u_index := []; u_args := [] |}.

(** [self.task_arguments[index][k] = j] (graph.py:184) *)
Definition set_arg {L} (u : universe L) (i : nat) (k : string) (j : nat) : universe L :=
  {| u_tasks := u_tasks u; u_index := u_index u;
     u_args := dset (u_args u) i
                 (dset (match dget (u_args u) i with Some d => d | None => [] end) k j) |}.

(** [TaskUniverse.add_task] with [recursive=True] (graph.py:154-185), the only mode used. *)
Fixpoint add_task {L} `{Eqb L} (t : task L) (u : universe L) {struct t} : universe L * nat :=
  let n := length (u_tasks u) in
  let idx := match dget (u_index u) t with Some i => i | None => n end in
  let ui := match dget (u_index u) t with Some _ => u_index u | None => u_index u ++ [(t, n)] end in
  if idx <? n then ({| u_tasks := u_tasks u; u_index := ui; u_args := u_args u |}, idx)
  else
    let u1 := {| u_tasks := u_tasks u ++ [t]; u_index := ui; u_args := dset (u_args u) idx [] |} in
    ((fix go (args : list (string * task L)) (u : universe L) {struct args} : universe L :=
        match args with
        | [] => u
        | (k, v) :: rest =>
            let (u', j) := add_task v u in
            go rest (set_arg u' idx k j)
        end) (match t with Node _ a => a end) u1, idx).

(** [TaskUniverse.__init__] (graph.py:145-152) followed by
    [targets = [universe.add_task(t) for t in targets]] (graph.py:430-431). *)
Definition add_tasks {L} `{Eqb L} (ts : list (task L)) (u : universe L) : universe L :=
  fold_left (fun u t => fst (add_task t u)) ts u.

Fixpoint handles_of {L} `{Eqb L} (ts : list (task L)) (u : universe L) : universe L * list nat :=
  match ts with
  | [] => (u, [])
  | t :: r => let (u1, h) := add_task t u in
              let (u2, hs) := handles_of r u1 in (u2, h :: hs)
  end.

(** [TaskHandle.arguments] (graph.py:240-250): [task_arguments[self._index]]. Total here; a handle obtained
    from [add_task] always has an entry (proved: [wf_universe]). *)
Definition args_of {L} (u : universe L) (h : nat) : dict string nat :=
  match dget (u_args u) h with Some d => d | None => [] end.
Definition deps {L} (u : universe L) (h : nat) : list nat := map snd (args_of u h).

(** ** build_schedule (graph.py:305-382) *)

(** [set.pop]: removes an arbitrary element; [choose] is the arbitrary choice. *)
Definition set_pop (choose : list nat -> nat) (s : list nat) : option (nat * list nat) :=
  match s with
  | [] => None
  | x0 :: _ => let i := choose s mod length s in
               Some (nth i s x0, firstn i s ++ skipn (S i) s)
  end.

(** Nodes of the networkx graph: [None] is the dummy handle (index -1, graph.py:329). *)
Definition node := option nat.

(** The exploration loop (graph.py:333-344). [choose] resolves [to_explore.pop()]. *)
Fixpoint explore {L} (choose : nat -> list nat -> nat) (u : universe L) (cached : nat -> bool)
  (fuel : nat) (explored to_explore : list nat) (edges : list (node * node))
  : result (list nat * list (node * node)) :=
  match fuel with
  | O => Err OutOfFuel
  | S f =>
      match set_pop (choose f) to_explore with
      | None => Ok (explored, edges)
      | Some (t, rest) =>
          if mem t explored then explore choose u cached f explored rest edges
          else if cached t then explore choose u cached f (t :: explored) rest edges
          else explore choose u cached f (t :: explored)
                 (fold_left (fun s d => set_add d s) (deps u t) rest)
                 (edges ++ map (fun d => (Some d, Some t)) (deps u t))
      end
  end.

(** [_compare_key] (graph.py:351-358) extended with networkx's node-insertion tiebreak. *)
Definition node_key {L} (A : attrs L) (u : universe L) (n : node) : string * Z :=
  match n with
  | None => (EmptyString, 0%Z)
  | Some h =>
      match nth_error (u_tasks u) h with
      | None => (EmptyString, 0%Z)
      | Some t => (match group_label A (label t) with Some s => s | None => EmptyString end,
                   (- priority A (label t))%Z)
      end
  end.

(** Python tuple comparison [(str, int, int)] *)
Definition key_lt (a b : string * Z * nat) : bool :=
  let '(s1, z1, n1) := a in let '(s2, z2, n2) := b in
  match String.compare s1 s2 with
  | Lt => true
  | Gt => false
  | Eq => match Z.compare z1 z2 with
          | Lt => true | Gt => false | Eq => n1 <? n2 end
  end.

(** position of a node in networkx's insertion order ([nodeid_map]) *)
Fixpoint index_of {A} `{Eqb A} (x : A) (l : list A) : nat :=
  match l with [] => 0 | y :: ys => if eqb x y then 0 else S (index_of x ys) end.

(** [heapq.heappop]: remove the least element. *)
Fixpoint min_by {A} (lt : A -> A -> bool) (m : A) (l : list A) : A :=
  match l with [] => m | x :: xs => min_by lt (if lt x m then x else m) xs end.
Fixpoint remove_first {A} `{Eqb A} (x : A) (l : list A) : list A :=
  match l with [] => [] | y :: ys => if eqb x y then ys else y :: remove_first x ys end.
Definition heap_pop (lt : node -> node -> bool) (heap : list node) : option (node * list node) :=
  match heap with
  | [] => None
  | x :: xs => let m := min_by lt x xs in Some (m, remove_first m heap)
  end.

Definition succs (es : list (node * node)) (n : node) : list node :=
  map snd (filter (fun e => eqb (fst e) n) es).
Definition indegree (es : list (node * node)) (n : node) : nat :=
  length (filter (fun e => eqb (snd e) n) es).

(** body of the child loop in [networkx.lexicographical_topological_sort] *)
Definition relax (st : result (dict node nat * list node)) (child : node)
  : result (dict node nat * list node) :=
  let! (ind, heap) := st in
  match dget ind child with
  | None => Err RuntimeError                      (* "Graph changed during iteration" *)
  | Some d => if (d - 1 =? 0)%nat then Ok (ddel ind child, heap ++ [child])
              else Ok (dset ind child (d - 1), heap)
  end.

(** the main loop of [networkx.lexicographical_topological_sort] *)
Fixpoint topo_loop (lt : node -> node -> bool) (es : list (node * node)) (fuel : nat)
  (ind : dict node nat) (heap out : list node) : result (list node) :=
  match heap_pop lt heap with
  | None => match ind with [] => Ok out | _ => Err UnfeasibleError end
  | Some (n, heap') =>
      match fuel with
      | O => Err OutOfFuel
      | S f =>
          let! (ind', heap'') := fold_left relax (succs es n) (Ok (ind, heap')) in
          topo_loop lt es f ind' heap'' (out ++ [n])
      end
  end.

(** [networkx.DiGraph(edge_tups)] (edges are deduplicated, nodes in order of first appearance) and
    [networkx.lexicographical_topological_sort(graph, key)]. *)
Definition topo_sort (key : node -> string * Z) (edges : list (node * node)) : result (list node) :=
  let es := dedup edges in
  let nodes := dedup (flat_map (fun e => [fst e; snd e]) edges) in
  let lt a b := key_lt (key a, index_of a nodes) (key b, index_of b nodes) in
  let ind := map (fun n => (n, indegree es n)) (filter (fun n => negb (indegree es n =? 0)%nat) nodes) in
  let heap := filter (fun n => indegree es n =? 0)%nat nodes in
  topo_loop lt es (length nodes) ind heap [].

Record schedule := { s_tasks : list nat; s_last : dict nat nat }.

Fixpoint enumerate_from {A} (i : nat) (l : list A) : list (nat * A) :=
  match l with [] => [] | x :: xs => (i, x) :: enumerate_from (S i) xs end.

(** last-use computation, backwards over the schedule (graph.py:368-374) *)
Definition last_use_step {L} (u : universe L) (d : dict nat nat) (it : nat * nat) : dict nat nat :=
  let '(idx, t) := it in
  let d1 := fold_left (fun d dep => if dmem d dep then d else dset d dep idx) (deps u t) d in
  if dmem d1 t then d1 else dset d1 t idx.
Definition last_use {L} (u : universe L) (sched : list nat) (cached : list nat) : dict nat nat :=
  let d := fold_left (last_use_step u) (rev (enumerate_from 0 sched)) [] in
  fold_left (fun d t => if dmem d t then d else dset d t (length sched + 1)) cached d.

(** bound on the number of [to_explore.pop()] iterations; proved sufficient *)
Definition explore_fuel {L} (u : universe L) (targets : list nat) : nat :=
  S (length targets + length (flat_map (fun kv => dvals (snd kv)) (u_args u))).

(** [node not in cached_values and node != dummy_handle] (graph.py:361-365) *)
Definition keep_scheduled (cached : list nat) (ns : list node) : list nat :=
  flat_map (fun n => match n with
                     | Some h => if mem h cached then [] else [h]
                     | None => [] end) ns.

Definition build_schedule {L} (A : attrs L) (choose : nat -> list nat -> nat) (u : universe L)
  (targets : list nat) (cached : list nat) : result schedule :=
  match targets with
  | [] => Ok {| s_tasks := []; s_last := [] |}
  | _ =>
      let! (_, edges) := explore choose u (fun h => mem h cached) (explore_fuel u targets)
                           [] (dedup targets) [] in
      let edges := edges ++ map (fun t => (None, Some t)) targets in
      let! order := topo_sort (node_key A u) edges in
      let sched := keep_scheduled cached order in
      Ok {| s_tasks := sched; s_last := last_use u sched cached |}
  end.

(** ** Executor._run (graph.py:442-504) *)

(** Observable events of a run. [EKeep] records the keys of [values] after eviction. *)
Inductive event (V : Type) :=
| EExec (h : nat)
| EYield (h : nat) (v : V)
| EKeep (keys : list nat).
Arguments EExec {V}. Arguments EYield {V}. Arguments EKeep {V}.

(** What the executor needs to know about values: task bodies and device moves.
    [to_math]/[to_store] model [_move_tensors] (graph.py:528-545). *)
Record semantics (L V : Type) := {
  execute : L -> list (string * V) -> result V;
  to_math : V -> V;
  to_store : V -> V
}.
Arguments execute {L V}. Arguments to_math {L V}. Arguments to_store {L V}.

Definition move_arg {L V} (A : attrs L) (S : semantics L V) (l : L) (v : V) : V :=
  if uses_accelerator A l then to_math S v else v.

(** eviction: [expired] keys are those with [idx >= last_use_index[key]] (graph.py:494-501) *)
Definition evict {V} (last : dict nat nat) (idx : nat) (values : dict nat V) : result (dict nat V) :=
  let! flags := rmapM (fun kv => let! i := dgetE last (fst kv) in Ok (fst kv, i <=? idx)) values in
  Ok (fold_left ddel (map fst (filter snd flags)) values).

Fixpoint run_from {L V} (A : attrs L) (S : semantics L V) (u : universe L) (targets : list nat)
  (last : dict nat nat) (idx : nat) (sched : list nat) (values : dict nat V)
  : list (event V) * option exn :=
  match sched with
  | [] => ([], None)
  | h :: rest =>
      match nth_error (u_tasks u) h with
      | None => ([], Some IndexError)
      | Some t =>
          match rmapM (fun nd => let! v := dgetE values (snd nd) in
                                 Ok (fst nd, move_arg A S (label t) v)) (args_of u h) with
          | Err e => ([], Some e)
          | Ok args =>
              match execute S (label t) args with
              | Err e => ([EExec h], Some e)
              | Ok res =>
                  let v := to_store S res in
                  let values1 := dset values h v in
                  let ys := if mem h targets then [EYield h v] else [] in
                  match evict last idx values1 with
                  | Err e => (EExec h :: ys, Some e)
                  | Ok values2 =>
                      let (evs, st) := run_from A S u targets last (Datatypes.S idx) rest values2 in
                      (EExec h :: ys ++ EKeep (dkeys values2) :: evs, st)
                  end
              end
          end
      end
  end.

(** [Executor(handles, cached_values)._run()] : schedule construction errors surface from the
    constructor, run-time errors from the generator; both are reported as the final status. *)
Definition executor_run {L V} (A : attrs L) (S : semantics L V) (choose : nat -> list nat -> nat)
  (u : universe L) (targets : list nat) (cached : dict nat V) : list (event V) * option exn :=
  match build_schedule A choose u targets (dkeys cached) with
  | Err e => ([], Some e)
  | Ok s => run_from A S u targets (s_last s) 0 (s_tasks s) cached
  end.

(** [Executor(tasks).run()] (graph.py:407-440, 506-519): fresh universe, no cached values. *)
Definition executor_run_tasks {L V} `{Eqb L} (A : attrs L) (S : semantics L V)
  (choose : nat -> list nat -> nat) (ts : list (task L)) : universe L * (list (event V) * option exn) :=
  let u := add_tasks ts empty_universe in
  let (u', hs) := handles_of ts u in
  (u', executor_run A S choose u' hs []).

Definition yields {V} (evs : list (event V)) : list (nat * V) :=
  flat_map (fun e => match e with EYield h v => [(h, v)] | _ => [] end) evs.
Definition executed {V} (evs : list (event V)) : list nat :=
  flat_map (fun e => match e with EExec h => [h] | _ => [] end) evs.
