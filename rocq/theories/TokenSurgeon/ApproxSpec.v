(** What the approximation theorems mean: contracts of the torch functions, and a notion of independent points. *)
From Coq Require Import Reals.
From Verif.Base Require Import LinAlg RList Py.
From Verif.TokenSurgeon Require Import Approx.
Local Open Scope list_scope.
Local Open Scope R_scope.

(** [torch.topk(ds, k, largest=False)]: k different positions, nothing left out being smaller *)
Definition is_topk (topk : list R -> nat -> list nat) : Prop :=
  forall ds k, (k <= length ds)%nat -> length (topk ds k) = k /\ NoDup (topk ds k) /\
  (forall i, In i (topk ds k) -> (i < length ds)%nat) /\
  forall i j, In i (topk ds k) -> (j < length ds)%nat -> ~ In j (topk ds k) -> nth i ds 0 <= nth j ds 0.

(** a maximal inner product among the points not chosen yet *)
Definition is_pick (D : nat) (pts : list row) (pick : row -> list nat -> nat) : Prop :=
  forall res sel, NoDup sel -> (forall i, In i sel -> (i < length pts)%nat) -> (length sel < length pts)%nat ->
  (pick res sel < length pts)%nat /\ ~ In (pick res sel) sel /\
  forall i, (i < length pts)%nat -> ~ In i sel -> Rabs (ip D res (pt pts i)) <= Rabs (ip D res (pt pts (pick res sel))).
(** [torch.linalg.qr] of orthonormal columns: q = q' r' with orthonormal q' and upper triangular r' without zeros on its diagonal *)
Definition is_qr (D : nat) (qr : nat -> (nat -> row) -> (nat -> row) * (nat -> nat -> R)) : Prop :=
  forall n q, orthonormal D n q -> let '(q', r') := qr n q in
  orthonormal D n q' /\ (forall j x, (j < n)%nat -> (x < D)%nat -> q j x = Sum n (fun i => r' i j * q' i x)) /\
  (forall i j, (j < i)%nat -> (i < n)%nat -> r' i j = 0) /\ (forall j, (j < n)%nat -> r' j j <> 0).
(** [solve_triangular(r, b, upper=True)] *)
Definition is_solve (solve : nat -> (nat -> nat -> R) -> (nat -> R) -> (nat -> R)) : Prop :=
  forall n r b, (forall i j, (j < i)%nat -> (i < n)%nat -> r i j = 0) -> (forall j, (j < n)%nat -> r j j <> 0) ->
  forall i, (i < n)%nat -> Sum n (fun j => r i j * solve n r b j) = b i.

(** every point is at least [eps] away from all combinations of the points before it *)
Definition independent (D : nat) (eps : R) (k : nat) (a : nat -> row) : Prop :=
  forall j d, (j < k)%nat -> eps <= nrm D (fun x => a j x - Sum j (fun i => d i * a i x)).

(** square matrices with orthonormal rows and columns; [torch.svd]: m = u diag(s) v^T *)
Definition orthogonal (n : nat) (u : nat -> nat -> R) : Prop :=
  (forall a b, (a < n)%nat -> (b < n)%nat -> Sum n (fun i => u i a * u i b) = if Nat.eqb a b then 1 else 0) /\
  (forall i j, (i < n)%nat -> (j < n)%nat -> Sum n (fun l => u i l * u j l) = if Nat.eqb i j then 1 else 0).
Definition is_svd (svd : nat -> (nat -> nat -> R) -> (nat -> nat -> R) * (nat -> nat -> R)) (n : nat) (m : nat -> nat -> R) : Prop :=
  orthogonal n (fst (svd n m)) /\ orthogonal n (snd (svd n m)) /\
  exists s, (forall l, (l < n)%nat -> 0 <= s l) /\
  forall i j, (i < n)%nat -> (j < n)%nat -> m i j = Sum n (fun l => fst (svd n m) i l * s l * snd (svd n m) j l).
