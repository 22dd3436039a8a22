(** Model of mergekit/tokensurgeon/{subword,common_interpolation,omp,pca}.py, for one target token (the code treats the
    tokens of a batch independently).

    Exact real arithmetic: rounding and the conversions between dtypes are left out. A row of dimension D is a function
    on indices, read below D. Elsewhere: the schemes barycentric and least_squares ([Weights.v]), matching pursuit
    with resets and with rotary embeddings ([Rope.v]). Left out: the sparse token basis. *)
From Coq Require Import Reals.
From Verif.Base Require Import LinAlg RList Py.
Local Open Scope list_scope.
Local Open Scope R_scope.

Definition row := nat -> R.
Definition radd (x y : row) : row := fun i => x i + y i.
Definition rscale (c : R) (x : row) : row := fun i => c * x i.
Definition rzero : row := fun _ => 0.
(** the sum of [w_j * x_j] *)
Definition wsum (ws : list R) (xs : list row) : row := fun i => rsum (map2 (fun w (x : row) => w * x i) ws xs).

(** ** subword.py 20-61; [ids]: what the original tokenizer makes of the token's text *)
Inductive subword_method := SMean | SSum | SWeighted | SFirstLast.
(** [orig_embed[id]] for every id *)
Definition rows_at (embed : list row) (ids : list nat) : result (list row) := rmapM (nthE embed) ids.
(** 1 .. n *)
Definition counting (n : nat) : list R := map (fun i => INR (S i)) (seq 0 n).
Definition subword (m : subword_method) (is_lm_head : bool) (embed : list row) (ids : list nat) : result row :=
  match m with
  | SMean => let! rs := rows_at embed ids in
             Ok (match rs with [] => rzero | _ => rscale (/ INR (length ids)) (wsum (map (fun _ => 1) rs) rs) end)
  | SSum => let! rs := rows_at embed ids in Ok (wsum (map (fun _ => 1) rs) rs)
  | SWeighted =>
      let! rs := rows_at embed ids in
      let ws := if is_lm_head then counting (length ids) else rev (counting (length ids)) in
      Ok (match rs with [] => rzero | _ => rscale (/ rsum ws) (wsum ws rs) end)
  | SFirstLast =>
      match ids with
      | [] => Ok rzero
      | i :: _ => nthE embed (if is_lm_head then i else last ids i)
      end
  end.

(** ** common_interpolation.py *)
(** [approximate_from_landmarks], distance_proportional (40-45) *)
Definition tiny : R := / 10 ^ 6.
Definition landmark_weights (cosine : bool) (ds : list R) : list R :=
  let ws := map (fun d => if cosine then 1 - d else / Rmax d tiny) ds in
  map (fun w => w / Rmax (rsum ws) tiny) ws.

(** [cdist] and 1 - [_cosine_sim] (76-97) *)
Definition nrm (D : nat) (x : row) : R := sqrt (ip D x x).
Definition distance (cosine : bool) (D : nat) (x y : row) : R :=
  if cosine then 1 - ip D x y / Rmax (nrm D x * nrm D y) tiny
  else nrm D (fun i => x i - y i).

Section Interp.
(** [topk(distances, k, largest=False)]: the indices of k smallest values *)
Variable topk : list R -> nat -> list nat.
(** common_interp_approximate (82-126) followed by the product with the original rows (tokensurgeon.py 340-347) *)
Definition interpolate (cosine : bool) (D k : nat) (donor_shared orig_shared : list row) (target : row) : result row :=
  if Nat.eqb k 0 then Err AssertionError
  else if Nat.ltb (length donor_shared) k then Err RuntimeError
  else
    let ds := map (distance cosine D target) donor_shared in
    let idx := topk ds k in
    let! near := rmapM (nthE ds) idx in
    let! rs := rmapM (nthE orig_shared) idx in
    Ok (wsum (landmark_weights cosine near) rs).
End Interp.

(** ** batch_omp (omp.py 14-120) *)
Record omp_state := { o_sel : list nat; o_q : nat -> row; o_r : nat -> nat -> R; o_res : row }.
Section Omp.
Variables (D : nat) (pts : list row) (eps : R) (interval : nat) (target : row).
(** [torch.max] over the inner products, the already chosen points being masked *)
Variable pick : row -> list nat -> nat.
(** [torch.linalg.qr] of the first n columns *)
Variable qr : nat -> (nat -> row) -> (nat -> row) * (nat -> nat -> R).
(** [torch.linalg.solve_triangular] *)
Variable solve : nat -> (nat -> nat -> R) -> (nat -> R) -> (nat -> R).

Definition pt (n : nat) : row := nth n pts rzero.
Definition set2 (r : nat -> nat -> R) (j : nat) (col : nat -> R) : nat -> nat -> R :=
  fun i j' => if Nat.eqb j' j then col i else r i j'.
Definition set1 (q : nat -> row) (j : nat) (v : row) : nat -> row := fun i => if Nat.eqb i j then v else q i.

(** iteration [t] (54-101) *)
Definition omp_step (t : nat) (st : omp_state) : omp_state :=
  let idx := pick (o_res st) (o_sel st) in
  let a := pt idx in
  let '(col, q_t) :=
    if Nat.eqb t 0 then
      ((fun i => if Nat.eqb i 0 then nrm D a else 0), rscale (/ Rmax (nrm D a) eps) a)
    else
      let w := fun x => a x - Sum t (fun i => ip D (o_q st i) a * o_q st i x) in
      let norm := Rmax (nrm D w) eps in
      ((fun i => if Nat.ltb i t then ip D (o_q st i) a else if Nat.eqb i t then norm else 0), rscale (/ norm) w) in
  let r := set2 (o_r st) t col in
  let q := set1 (o_q st) t q_t in
  let '(q, r) :=
    if Nat.ltb 0 t && Nat.eqb (Nat.modulo t interval) 0 then
      let '(qn, rn) := qr (S t) q in
      (qn, fun i j => if Nat.leb i t && Nat.leb j t then Sum (S t) (fun l => rn i l * r l j) else r i j)
    else (q, r) in
  {| o_sel := o_sel st ++ [idx]; o_q := q; o_r := r;
     o_res := fun x => target x - Sum (S t) (fun i => ip D (q i) target * q i x) |}.
Fixpoint omp_run (k : nat) : omp_state :=
  match k with
  | O => {| o_sel := []; o_q := fun _ => rzero; o_r := fun _ _ => 0; o_res := target |}
  | S t => omp_step t (omp_run t)
  end.
(** the indices and coefficients *)
Definition omp (k : nat) : result (list nat * list R) :=
  if Nat.ltb (length pts) k then Err ValueError
  else let st := omp_run k in
       let c := solve k (o_r st) (fun i => ip D (o_q st i) target) in
       Ok (o_sel st, map c (seq 0 k)).
End Omp.

(** ** landmark_pca_approximate (pca.py 11-65); rows are points *)
Definition mean_row (pts : list row) : row := fun j => rsum (map (fun p : row => p j) pts) / INR (length pts).
Definition center (m : row) (pts : list row) : list row := map (fun p : row => fun j => p j - m j) pts.
(** [x @ v] for a row of dimension d *)
Definition rmul (d : nat) (x : row) (v : nat -> nat -> R) : row := fun j => Sum d (fun l => x l * v l j).
Section Pca.
(** [pca_lowrank(a, q)]: the matrix V of principal directions; [svd m]: U and V of m = U diag(S) V^T *)
Variable pca : nat -> list row -> nat -> (nat -> nat -> R).
Variable svd : nat -> (nat -> nat -> R) -> (nat -> nat -> R) * (nat -> nat -> R).
(** the matrix M = B_pca^T A_pca (pca.py 53) *)
Definition procrustes (d_a d_b : nat) (points_a points_b : list row) : nat -> nat -> R :=
  let e := Nat.min d_a d_b in
  let ca := center (mean_row points_a) points_a in
  let cb := center (mean_row points_b) points_b in
  let a_pca := map (fun p => rmul d_a p (pca d_a ca e)) ca in
  let b_pca := map (fun p => rmul d_b p (pca d_b cb e)) cb in
  fun i j => rsum (map2 (fun (b a : row) => b i * a j) b_pca a_pca).
Definition landmark_pca (d_a d_b : nat) (points_a points_b : list row) (target : row) : row :=
  let e := Nat.min d_a d_b in
  let mean_a := mean_row points_a in
  let mean_b := mean_row points_b in
  let va := pca d_a (center mean_a points_a) e in
  let vb := pca d_b (center mean_b points_b) e in
  let '(uu, vv) := svd e (procrustes d_a d_b points_a points_b) in
  let r := fun i j => Sum e (fun l => uu i l * vv j l) in
  let projected := rmul d_a (fun j => target j - mean_a j) va in
  let rotated := rmul e projected r in
  let back := fun j => Sum e (fun l => rotated l * vb j l) in
  fun j => back j + mean_b j.
End Pca.
