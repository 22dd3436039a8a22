(** Vocabulary for C80. *)
From Coq Require Import Reals Sorting.Permutation Sorting.Sorted.
From Verif.Base Require Import LinAlg RList Py.
From Verif.TokenSurgeon Require Import Model Approx.
Local Open Scope string_scope.
Local Open Scope list_scope.
Local Open Scope R_scope.

(** the text has the word somewhere in it *)
Definition mentions (word t : text) : Prop := exists a b, t = a ++ word ++ b.

(** an id stands for nothing: it has no token, or its token is listed, or has the name of a placeholder *)
Definition stands_for_nothing (vocab : dict ntok nat) (rows : nat) (listed : list ntok) (i : nat) : Prop :=
  ((i < rows)%nat /\ forall t, ~ In (t, i) vocab) \/
  (exists t, In (t, i) vocab /\
     (In t listed \/ mentions (u "unused_token") (unnormalize t) \/ mentions (u "reserved_special_token") (unnormalize t))).

(** t is the q-quantile of the values f 0 .. f (n-1): sorted, the value at position q (n - 1), between two values in proportion *)
Definition is_quantile (n : nat) (f : nat -> R) (q t : R) : Prop :=
  exists s k, Permutation s (map f (seq 0 n)) /\ StronglySorted Rle s /\ (k < n)%nat /\
    INR k <= q * (INR n - 1) < INR k + 1 /\
    t = nth k s 0 + (q * (INR n - 1) - INR k) * (nth (S k) s (nth k s 0) - nth k s 0).

Definition row_at (m : list row) (i : nat) : row := nth i m rzero.
(** the mean of the rows with the given ids *)
Definition mean_of (m : list row) (ids : nat -> Prop) (mean : row) : Prop :=
  exists l, NoDup l /\ (forall i, In i l <-> ids i) /\ l <> [] /\
    forall j, mean j = rsum (map (fun i => row_at m i j) l) / INR (length l).

(** the cosine of the angle between two vectors; norms below 10^-8 count as that *)
Definition cosine (D : nat) (x y : row) : R :=
  Sum D (fun j => x j * y j) / (Rmax (sqrt (Sum D (fun j => x j * x j))) (/ 10 ^ 8) * Rmax (sqrt (Sum D (fun j => y j * y j))) (/ 10 ^ 8)).

(** row i is among the shortest *)
Definition short (D : nat) (m : list row) (q : R) (i : nat) : Prop :=
  (i < length m)%nat /\
  let norm k := sqrt (Sum D (fun j => row_at m k j * row_at m k j)) in
  exists t, is_quantile (length m) norm q t /\ norm i < t.
(** row i looks more like the mean of the given rows than most, and has a cosine above one half *)
Definition like_unused (D : nat) (m : list row) (ids : nat -> Prop) (q : R) (i : nat) : Prop :=
  (i < length m)%nat /\ exists mean t, mean_of m ids mean /\
    is_quantile (length m) (fun k => cosine D (row_at m k) mean) (1 - q) t /\
    t < cosine D (row_at m i) mean /\ / 2 < cosine D (row_at m i) mean.
