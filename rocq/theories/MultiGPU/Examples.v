(** Concrete task graphs for the multi-GPU executor. *)
From Verif.Base Require Import Py.
From Verif.Graph Require Import Model Spec.
From Verif.MultiGPU Require Import Model Spec.
Local Open Scope string_scope.
Local Open Scope list_scope.

(** "main" tasks are main-thread-only, "dup" tasks are duplicated per GPU; a task returns its number plus the sum
    of its arguments *)
Definition mg_attrs : attrs (string * Z) :=
  {| priority := fun _ => 0%Z; group_label := fun _ => None; uses_accelerator := fun _ => false;
     main_thread_only := fun l => String.eqb (fst l) "main"; duplicate_per_gpu := fun l => String.eqb (fst l) "dup" |}.
Definition mg_sem : semantics (string * Z) Z :=
  {| execute := fun l args => if String.eqb (fst l) "bad" then Err (TaskError 7)
                              else Ok (fold_left (fun a kv => a + snd kv)%Z args (snd l));
     to_math := fun v => v; to_store := fun v => v |}.

(** writer (leading) <- save <- merge <- load, finalize (trailing) needs the saves and the writer *)
Definition writer : task (string * Z) := Node ("main", 1%Z) [].
Definition perm : task (string * Z) := Node ("dup", 2%Z) [].
Definition merge n : task (string * Z) := Node ("gpu", n) [("l", Node ("load", n) []); ("perm", perm)].
Definition save n : task (string * Z) := Node ("save", (100 * n)%Z) [("w", writer); ("t", merge n)].
Definition finalize : task (string * Z) :=
  Node ("main", 7%Z) [("s1", save 10%Z); ("s2", save 20%Z); ("w", writer)].
Definition mg_ts := [finalize].
Definition mg_u := add_tasks mg_ts empty_universe.
Definition c0 : nat -> list nat -> nat := fun _ _ => 0.

(** handles: finalize 0, save10 1, writer 2, merge10 3, load10 4, perm 5, save20 6, merge20 7, load20 8 *)
Definition mg_p : partition :=
  {| p_schedule := [2; 4; 5; 3; 1; 8; 7; 6; 0]; p_per_gpu := [5]; p_leading := [2]; p_trailing := [0];
     p_trailing_deps := [1; 6; 2]; p_parallel := [4; 3; 1; 8; 7; 6]; p_assign := [(0, [4; 3; 1]); (1, [8; 7; 6])] |}.

(** a target that no main-thread stage produces *)
Definition solo_u := add_tasks [merge 10%Z] empty_universe.
(** only a duplicated task *)
Definition dup_u := add_tasks [perm] empty_universe.
Definition solo_p : partition :=
  {| p_schedule := [1; 2; 0]; p_per_gpu := [2]; p_leading := []; p_trailing := []; p_trailing_deps := [];
     p_parallel := [1; 0]; p_assign := [(0, [1; 0])] |}.
Definition dup_p : partition :=
  {| p_schedule := [0]; p_per_gpu := [0]; p_leading := []; p_trailing := []; p_trailing_deps := [];
     p_parallel := []; p_assign := [] |}.
