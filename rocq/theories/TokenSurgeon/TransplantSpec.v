(** Vocabulary for C81: rows of tokens, shared tokens, combinations of the rows of tokens. *)
From Coq Require Import Reals Permutation.
From Verif.Base Require Import LinAlg RList Py.
From Verif.TokenSurgeon Require Import Model Approx ApproxSpec OmpProofs.
Local Open Scope list_scope.
Local Open Scope R_scope.

(** the row a model has for a token *)
Definition row_of (m : list row) (v : dict ntok nat) (t : ntok) : row :=
  match dget v t with Some i => nth i m rzero | None => rzero end.
(** every id is that of a row (what [safe] leaves of a vocabulary) *)
Definition within (m : list row) (v : dict ntok nat) : Prop := forall t i, In (t, i) v -> (i < length m)%nat.
(** the tokens of both vocabularies, each once, in the order of the donor's ids *)
Definition in_both (orig donor : dict ntok nat) (t : ntok) : Prop := In t (dkeys orig) /\ In t (dkeys donor).
Definition shared_list (orig donor : dict ntok nat) (s : list ntok) : Prop :=
  NoDup s /\ (forall t, In t s <-> in_both orig donor t) /\
  forall a b i j p q, (p < q)%nat -> nth_error s p = Some a -> nth_error s q = Some b -> In (a, i) donor -> In (b, j) donor -> (i < j)%nat.
(** [set] iteration: the same tokens in any order *)
Definition is_listing (listing : list ntok -> list ntok) : Prop := forall l, Permutation (listing l) l.

(** the combination with coefficients cs of the rows that a model has for the tokens ts *)
Definition token_comb (m : list row) (v : dict ntok nat) (ts : list ntok) (cs : list R) : row :=
  fun x => Sum (length ts) (fun j => nth j cs 0 * nth j (map (row_of m v) ts) rzero x).
(** the rows of the tokens, in a sequence *)
Definition token_rows (m : list row) (v : dict ntok nat) (ts : list ntok) (j : nat) : row := nth j (map (row_of m v) ts) rzero.

(** k different tokens that both models have *)
Definition some_shared (orig donor : dict ntok nat) (k : nat) (used : list ntok) : Prop :=
  length used = k /\ NoDup used /\ forall u, In u used -> in_both orig donor u.
(** how far the combination is from the donor's row of t *)
Definition miss (D : nat) (m : list row) (v : dict ntok nat) (t : ntok) (used : list ntok) (cs : list R) : R :=
  nrm D (fun x => row_of m v t x - token_comb m v used cs x).
(** no other shared token is nearer to t, in the donor's space *)
Definition nearest_tokens (cosine : bool) (D : nat) (m : list row) (orig donor : dict ntok nat) (t : ntok) (used : list ntok) : Prop :=
  forall a b, In a used -> in_both orig donor b -> ~ In b used ->
  distance cosine D (row_of m donor t) (row_of m donor a) <= distance cosine D (row_of m donor t) (row_of m donor b).
(** the original rows of the shared tokens are a linear image of the donor's *)
Definition linear_image (D : nat) (f : nat -> nat -> R) (orig_m donor_m : list row) (orig donor : dict ntok nat) : Prop :=
  forall u y, in_both orig donor u -> row_of orig_m orig u y = Sum D (fun x => f y x * row_of donor_m donor u x).
