(** Model of mergekit/tokensurgeon/token_basis.py and of the branch of compute_new_embeddings that uses its result
    (mergekit/scripts/tokensurgeon.py 360-388).

    Exact real arithmetic, as in [Approx.v]; the debugging output (52-65) is left out. *)
From Coq Require Import Reals.
From Verif.Base Require Import LinAlg RList Py.
From Verif.TokenSurgeon Require Import Model Approx Transplant.
Local Open Scope list_scope.
Local Open Scope R_scope.

(** what is passed for [k]: a number, or the options of the command (scripts/tokensurgeon.py 440) *)
Inductive karg := KNumber (k : nat) | KOptions.

(** 37: [centered.T @ centered / num_pts] *)
Definition covariance (pts : list row) : nat -> nat -> R :=
  fun i j => rsum (map (fun p : row => p i * p j) (center (mean_row pts) pts)) / INR (length pts).
(** [sparse_linear_basis] (12-66): for each of [d] directions the chosen points and their coefficients *)
Definition sparse_basis (w : world) (D : nat) (k : karg) (d : nat) (pts : list row) : result (list (list nat * list R)) :=
  match k with
  | KOptions => Err TypeError                (* options <= number (31) *)
  | KNumber k =>
      if Nat.ltb (length pts) k then Err AssertionError
      else if Nat.ltb D d then Err AssertionError
      else
        let c := center (mean_row pts) pts in
        let u := fst (w_svd w D (covariance pts)) in
        rmapM (fun i => omp D c eps_omp 256 (fun x => u x i) (w_pick w c) (w_qr w) (w_solve w) k) (seq 0 d)
  end.

(** 90-96: common tokens that are not junk, in the order of the set *)
Definition basis_vocab (w : world) (orig donor : dict ntok nat) (junk : list nat) : list ntok :=
  filter (fun t => negb (mem (id_of donor t) junk)) (w_listing w (filter (dmem orig) (dkeys donor))).
(** 115-130: the same combinations of the rows of one model *)
Definition combine (rows : list row) (tb : list (list nat * list R)) : result (list row) :=
  rmapM (fun ic : list nat * list R => let! rs := rmapM (nthE rows) (fst ic) in Ok (wsum (snd ic) rs)) tb.
(** [compute_token_basis] (69-131); [dd], [dor] are the widths of the two matrices *)
Definition token_basis (w : world) (dd dor : nat) (orig_embed donor_embed : list row) (orig donor : dict ntok nat) (junk : list nat)
    (k : karg) : result (list row * list row) :=
  let common := basis_vocab w orig donor junk in
  let e := Nat.min dor dd in
  let! orig_shared := rows_of orig_embed orig common in
  let! donor_shared := rows_of donor_embed donor common in
  let! tb := (if Nat.ltb dd dor then sparse_basis w dd k e donor_shared else sparse_basis w dor k e orig_shared) in
  let! donor_basis := combine donor_shared tb in
  let! orig_basis := combine orig_shared tb in
  Ok (donor_basis, orig_basis).

(** tokensurgeon.py 368-374 and 388, one target *)
Definition stb_row (w : world) (dd : nat) (donor_basis orig_basis : list row) (orig_embed donor_embed : list row) (target : row) : row :=
  let c := w_lstsq w dd (length donor_basis) (fun i => nth i donor_basis rzero) (fun x => target x - mean_row donor_embed x) in
  fun y => Sum (length orig_basis) (fun i => c i * nth i orig_basis rzero y) + mean_row orig_embed y.
(** 267 and 360-388 *)
Definition compute_stb (w : world) (dd : nat) (donor_basis orig_basis : list row) (orig_embed donor_embed : list row) (donor : dict ntok nat)
    (ts : list ntok) : result (list row) :=
  if negb (forallb (dmem donor) ts) then Err AssertionError
  else let! targets := rows_of donor_embed donor ts in
       Ok (map (stb_row w dd donor_basis orig_basis orig_embed donor_embed) targets).
(** build_embedding_matrix 433-441: the options are passed in the place of [k] *)
Definition command_basis (w : world) (dd dor : nat) (orig_embed donor_embed : list row) (orig donor : dict ntok nat) (junk : list nat) :
    result (list row * list row) :=
  token_basis w dd dor orig_embed donor_embed orig donor junk KOptions.
