(** Concrete task graphs used by the non-vacuity examples and the counterexamples. *)
From Verif.Base Require Import Py.
From Verif.Graph Require Import Model Spec.
Local Open Scope string_scope.

(** labels: (name, priority); a task returns the sum of its arguments plus its priority;
    the task named "bad" raises *)
Definition ex_attrs : attrs (string * Z) :=
  {| priority := snd; group_label := fun l => if String.eqb (fst l) "g" then Some "grp" else None;
     uses_accelerator := fun l => String.eqb (fst l) "gpu"; main_thread_only := fun _ => false;
     duplicate_per_gpu := fun _ => false |}.
Definition ex_sem : semantics (string * Z) Z :=
  {| execute := fun l args => if String.eqb (fst l) "bad" then Err (TaskError 7)
                              else Ok (fold_left (fun a kv => a + snd kv)%Z args (snd l));
     to_math := fun v => (v + 1000)%Z; to_store := fun v => v |}.
Definition leaf : task (string * Z) := Node ("leaf", 1%Z) [].
Definition mid : task (string * Z) := Node ("mid", 10%Z) [("a", leaf); ("b", leaf)].
Definition top : task (string * Z) := Node ("gpu", 100%Z) [("x", mid); ("y", leaf)].
Definition badt : task (string * Z) := Node ("mid", 5%Z) [("x", Node ("bad", 0%Z) []); ("y", leaf)].
Definition first_choice : nat -> list nat -> nat := fun _ _ => 0.
Definition last_choice : nat -> list nat -> nat := fun _ l => length l - 1.

Definition ex_u : universe (string * Z) := add_tasks [top; leaf] empty_universe.

(** a high-priority target without dependencies and a low-priority non-target leaf needed by another
    target *)
Definition hi : task (string * Z) := Node ("hi", 9%Z) [].
Definition lo : task (string * Z) := Node ("lo", 1%Z) [].
Definition user : task (string * Z) := Node ("user", 0%Z) [("a", lo)].
Definition ex_u2 : universe (string * Z) := add_tasks [user; hi] empty_universe.
