(** Vocabulary for C06 and C07. *)
From Verif.Base Require Import Py.
From Verif.Graph Require Import Model Spec.
Local Open Scope list_scope.

Section Spec.
Context {L : Type} (A : attrs L) (u : universe L).

(** the task behind the handle must run on the main thread / is duplicated per GPU *)
Definition main_only (h : nat) : Prop := exists t, names u h t /\ main_thread_only A (label t) = true.
Definition duplicated (h : nat) : Prop := exists t, names u h t /\ duplicate_per_gpu A (label t) = true.

(** can run before all parallel work: main-thread-only, and so is everything it needs *)
Inductive leading : nat -> Prop :=
| leading_intro h : main_only h -> (forall d, depends u h d -> leading d) -> leading h.

(** can run after all parallel work: main-thread-only, and so is everything that needs it *)
Inductive trailing : nat -> Prop :=
| trailing_intro h : main_only h -> (forall x, depends u x h -> trailing x) -> trailing h.

(** two tasks of [par] that must share a device: linked by a chain of dependencies inside [par] *)
Inductive connected (par : list nat) : nat -> nat -> Prop :=
| conn_refl x : In x par -> connected par x x
| conn_dep x y z : connected par x y -> In z par -> depends u y z \/ depends u z y -> connected par x z.

(** device [i] was given task [h] *)
Definition given (a : dict nat (list nat)) (i h : nat) : Prop := exists l, dget a i = Some l /\ In h l.

(** every handle of the universe is needed by some target: what [TaskUniverse(targets)] guarantees *)
Definition covers (targets : list nat) : Prop :=
  (forall h, In h targets -> exists t, names u h t) /\
  (forall h t, names u h t -> exists ht tt, In ht targets /\ names u ht tt /\ needs (fun _ => False) tt t).
End Spec.
