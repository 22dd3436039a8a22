(** Model of the weighting schemes barycentric and least_squares of mergekit/tokensurgeon/common_interpolation.py, for one
    target; exact real arithmetic as in [Approx.v]. *)
From Coq Require Import Reals.
From Verif.Base Require Import LinAlg RList Py.
From Verif.TokenSurgeon Require Import Approx.
Local Open Scope list_scope.
Local Open Scope R_scope.

Section Schemes.
(** [torch.linalg.lstsq] of the k columns of height D *)
Variable lstsq : nat -> nat -> (nat -> row) -> row -> (nat -> R).
(** least_squares (49-52): the points are the columns *)
Definition least_squares_weights (D : nat) (points : list row) (target : row) : list R :=
  map (lstsq D (length points) (fun j => nth j points rzero) target) (seq 0 (length points)).
(** barycentric_weights (58-72): the Gram matrix bordered by ones, the inner products with the target followed by 1 *)
Definition bordered (D : nat) (points : list row) : nat -> row := fun j i =>
  let n := length points in
  if Nat.ltb i n then if Nat.ltb j n then ip D (nth i points rzero) (nth j points rzero) else 1
  else if Nat.ltb j n then 1 else 0.
Definition bordered_rhs (D : nat) (points : list row) (target : row) : row := fun i =>
  if Nat.ltb i (length points) then ip D target (nth i points rzero) else 1.
Definition barycentric_weights (D : nat) (points : list row) (target : row) : list R :=
  map (lstsq (S (length points)) (S (length points)) (bordered D points) (bordered_rhs D points target)) (seq 0 (length points)).

Inductive scheme := DistanceProportional | Barycentric | LeastSquares.
Variable topk : list R -> nat -> list nat.
(** common_interp_approximate (81-126) with any scheme, followed by the product with the original rows (tokensurgeon.py 343-350) *)
Definition interpolate_with (s : scheme) (cosine : bool) (D k : nat) (donor_shared orig_shared : list row) (target : row) : result row :=
  if Nat.eqb k 0 then Err AssertionError
  else if Nat.ltb (length donor_shared) k then Err RuntimeError
  else
    let ds := map (distance cosine D target) donor_shared in
    let idx := topk ds k in
    let! near := rmapM (nthE ds) idx in
    let! points := rmapM (nthE donor_shared) idx in
    let! rs := rmapM (nthE orig_shared) idx in
    Ok (wsum match s with
             | DistanceProportional => landmark_weights cosine near
             | Barycentric => barycentric_weights D points target
             | LeastSquares => least_squares_weights D points target
             end rs).
End Schemes.
