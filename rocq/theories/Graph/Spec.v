(** Vocabulary for the statements about the serial executor. *)
From Verif.Base Require Import Py.
From Verif.Graph Require Import Model.

(** The recursive value of a task: execute it on the recursive values of its arguments.
    [env] supplies already known (cached) values. Arguments of accelerator tasks are first moved to
    the math device, results are moved to the storage device. *)
Fixpoint eval {L V} (A : attrs L) (S : semantics L V) (env : task L -> option V) (t : task L)
  : result V :=
  match env t with
  | Some v => Ok v
  | None =>
      match t with
      | Node l args =>
          let! vs := rmapM (fun kt => let! v := eval A S env (snd kt) in
                                      Ok (fst kt, if uses_accelerator A l then to_math S v else v)) args in
          rmap (to_store S) (execute S l vs)
      end
  end.

Definition no_env {L V} (t : task L) : option V := None.

(** [needs cached t t']: evaluating [t] requires executing [t'] when the tasks in [cached] are known. *)
Inductive needs {L} (cached : task L -> Prop) : task L -> task L -> Prop :=
| needs_self t : ~ cached t -> needs cached t t
| needs_arg t k a t' : ~ cached t -> In (k, a) (targs t) -> needs cached a t' -> needs cached t t'.

(** argument names are distinct (they are the keys of a Python dict) *)
Inductive wf_task {L} : task L -> Prop :=
| wf_node l args : NoDup (map fst args) -> (forall k t, In (k, t) args -> wf_task t) -> wf_task (Node l args).

(** handle [h] of universe [u] stands for task [t] *)
Definition names {L} (u : universe L) (h : nat) (t : task L) : Prop := nth_error (u_tasks u) h = Some t.

(** a universe as the program builds it *)
Definition built {L} `{Eqb L} (u : universe L) : Prop :=
  exists ts, Forall wf_task ts /\ u = add_tasks ts empty_universe.

(** [env] is the supplied cache seen from the task side *)
Definition env_matches {L V} (u : universe L) (cached : dict nat V) (env : task L -> option V) : Prop :=
  forall h t, names u h t -> env t = dget cached h.

(** [x] occurs strictly before [y] in [l] *)
Definition before {A} (x y : A) (l : list A) : Prop :=
  exists l1 l2 l3, l = l1 ++ x :: l2 ++ y :: l3.

(** task [h] directly depends on task [d] *)
Definition depends {L} (u : universe L) (h d : nat) : Prop :=
  exists t k a, names u h t /\ In (k, a) (targs t) /\ names u d a.

(** the body of task [t] itself raises [e]: its arguments have values, on which it fails *)
Definition raises {L V} (A : attrs L) (S : semantics L V) (env : task L -> option V) (t : task L) (e : exn)
  : Prop :=
  exists vs,
    Forall2 (fun kt kv => fst kv = fst kt /\
                          exists v, eval A S env (snd kt) = Ok v /\
                                    snd kv = if uses_accelerator A (label t) then to_math S v else v)
            (targs t) vs /\
    execute S (label t) vs = Err e.

(** [h] is still wanted by one of [later] *)
Definition wanted {L} (u : universe L) (later : list nat) (k : nat) : Prop :=
  exists h, In h later /\ depends u h k.

(** the values that should be resident after [done] ran and before [later] runs *)
Definition resident {L} (u : universe L) (cached done later : list nat) (k : nat) : Prop :=
  (In k done /\ wanted u later k) \/
  (In k cached /\ (wanted u later k \/ ~ wanted u (done ++ later) k)).

Definition keeps {V} (evs : list (event V)) : list (list nat) :=
  flat_map (fun e => match e with EKeep ks => [ks] | _ => [] end) evs.

(** [t1] should run before [t2] when both are ready: earlier group label, or same group and higher
    priority (an absent group label counts as the empty label) *)
Definition group_of {L} (A : attrs L) (t : task L) : string :=
  match group_label A (label t) with Some s => s | None => EmptyString end.
Definition preferred {L} (A : attrs L) (t1 t2 : task L) : Prop :=
  String.compare (group_of A t1) (group_of A t2) = Lt \/
  (group_of A t1 = group_of A t2 /\ (priority A (label t2) < priority A (label t1))%Z).
