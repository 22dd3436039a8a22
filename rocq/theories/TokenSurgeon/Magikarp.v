(** Model of mergekit/tokensurgeon/magikarp.py: the tokens assumed to be well trained.

    Exact real arithmetic (the code computes norms, similarities and quantiles in single precision). A matrix is the list of
    its rows; a row is a function on indices, read below the width. *)
From Coq Require Import Reals.
From Verif.Base Require Import LinAlg RList Py.
From Verif.TokenSurgeon Require Import Model Approx.
Local Open Scope string_scope.
Local Open Scope list_scope.
Local Open Scope R_scope.

(** [a in b] for strings *)
Fixpoint contains (a b : text) : bool :=
  starts_with a b || match b with [] => false | _ :: b => contains a b end.
(** 37: the names of placeholders *)
Definition placeholder (t : ntok) : bool :=
  contains (u "unused_token") (unnormalize t) || contains (u "reserved_special_token") (unnormalize t).

(** 31-39: ids without a token, listed tokens, placeholders; a set, as a list without repetitions *)
Definition unused_indices (vocab : dict ntok nat) (rows : nat) (known_unused : list ntok) : list nat :=
  dedup (filter (fun i => negb (mem i (dvals vocab))) (seq 0 rows)
         ++ flat_map (fun t => match dget vocab t with Some i => [i] | None => [] end) known_unused
         ++ map snd (filter (fun ti => placeholder (fst ti)) vocab)).

(** [torch.sort] of the values *)
Fixpoint rinsert (x : R) (l : list R) : list R :=
  match l with [] => [x] | y :: l' => if Rle_dec x y then x :: l else y :: rinsert x l' end.
Definition rsort (l : list R) : list R := fold_right rinsert [] l.
(** [torch.quantile(xs, q)]: linear interpolation between the two sorted values around the rank q (n - 1) *)
Definition floor_nat (x : R) : nat := Z.to_nat (Int_part x).
Definition ceil_nat (x : R) : nat := Z.to_nat (- Int_part (- x)).
Definition quantile (xs : list R) (q : R) : result R :=
  if Rle_dec 0 q then
    if Rle_dec q 1 then
      match xs with
      | [] => Err RuntimeError
      | _ => let s := rsort xs in
             let rank := q * INR (length xs - 1) in
             let lower := nth (floor_nat rank) s 0 in
             let upper := nth (ceil_nat rank) s 0 in
             Ok (lower + (rank - INR (floor_nat rank)) * (upper - lower))
      end
    else Err RuntimeError
  else Err RuntimeError.

(** [cosine_similarity], with its eps *)
Definition eps8 : R := / 10 ^ 8.
Definition similarity (D : nat) (x y : row) : R := ip D x y / (Rmax (nrm D x) eps8 * Rmax (nrm D y) eps8).

Section Karp.
(** the order in which [list(unused_indices)] runs through the set *)
Variable listing : list nat -> list nat.

(** [m[list(unused_indices)].mean(dim=0)] (42-45) *)
Definition mean_unused (m : list row) (unused : list nat) : result row :=
  let! rs := rmapM (nthE m) (listing unused) in
  Ok (fun j => rsum (map (fun r : row => r j) rs) / INR (length rs)).

(** 54-64: indices of rows shorter than the quantile *)
Definition low_norm (D : nat) (m : list row) (q : R) : result (list nat) :=
  let norms := map (nrm D) m in
  let! threshold := quantile norms q in
  Ok (filter (fun i => if Rlt_dec (nth i norms 0) threshold then true else false) (seq 0 (length m))).
(** 66-84 and 86-104: indices of rows too similar to the mean of the unused ones *)
Definition too_similar (D : nat) (m : list row) (mean : row) (q : R) : result (list nat) :=
  let sims := map (fun r => similarity D r mean) m in
  let! threshold := quantile sims (1 - q) in
  let threshold := if Rlt_dec threshold (/ 2) then / 2 else threshold in
  Ok (filter (fun i => if Rlt_dec threshold (nth i sims 0) then true else false) (seq 0 (length m))).

(** [well_trained_tokens] (11-108); [D], [D']: the widths of the two matrices *)
Definition well_trained (D D' : nat) (vocab : dict ntok nat) (embed : list row) (lm_head : option (list row))
    (known_unused : list ntok) (q : R) : result (list ntok) :=
  let unused := unused_indices vocab (length embed) known_unused in
  let! means := match unused with
                | [] => Ok None
                | _ => let! mean_in := mean_unused embed unused in
                       let! mean_out := match lm_head with
                                        | Some h => let! m := mean_unused h unused in Ok (Some m)
                                        | None => Ok None
                                        end in
                       Ok (Some (mean_in, mean_out))
                end in
  let! low := match lm_head with Some _ => low_norm D embed q | None => Ok [] end in
  let! similar := match means with Some (m, _) => too_similar D embed m q | None => Ok [] end in
  let! similar_out := match lm_head, means with
                      | Some h, Some (_, Some m) => too_similar D' h m q
                      | _, _ => Ok []
                      end in
  let bad := unused ++ low ++ similar ++ similar_out in
  Ok (map fst (filter (fun ti => negb (mem (snd ti) bad)) vocab)).
End Karp.
