(** Vocabulary for C83: the tokens a basis is made of, and how near its combinations come. *)
From Coq Require Import Reals.
From Verif.Base Require Import LinAlg RList Py.
From Verif.TokenSurgeon Require Import Model Approx ApproxSpec TransplantSpec.
Local Open Scope list_scope.
Local Open Scope R_scope.

(** a token of both vocabularies that the donor does not number as junk *)
Definition usable (orig donor : dict ntok nat) (junk : list nat) (t : ntok) : Prop :=
  In t (dkeys orig) /\ exists i, In (t, i) donor /\ ~ In i junk.
(** all of them, each once, in any order *)
Definition usable_list (orig donor : dict ntok nat) (junk : list nat) (s : list ntok) : Prop :=
  NoDup s /\ forall t, In t s <-> usable orig donor junk t.
(** k different ones *)
Definition some_usable (orig donor : dict ntok nat) (junk : list nat) (k : nat) (used : list ntok) : Prop :=
  length used = k /\ NoDup used /\ forall u, In u used -> usable orig donor junk u.
(** the rows of the narrower model: the donor if it is narrower, the original model otherwise *)
Definition narrow (dd dor : nat) (orig_m donor_m : list row) (orig donor : dict ntok nat) (t : ntok) : row :=
  if Nat.ltb dd dor then row_of donor_m donor t else row_of orig_m orig t.
(** the average of rows given by tokens *)
Definition average (f : ntok -> row) (s : list ntok) : row := fun x => rsum (map (fun t => f t x) s) / INR (length s).
(** the directions are principal axes of the rows: the covariance matrix of the rows maps each to a multiple of itself *)
Definition principal (D : nat) (f : ntok -> row) (s : list ntok) (dirs : nat -> row) : Prop :=
  exists v, forall i, (i < D)%nat -> 0 <= v i /\ forall x, (x < D)%nat ->
    rsum (map (fun t => ip D (dirs i) (fun y => f t y - average f s y) * (f t x - average f s x)) s) / INR (length s) = v i * dirs i x.
(** the combination of rows *)
Definition comb (rs : list row) (cs : nat -> R) : row := fun y => Sum (length rs) (fun i => cs i * nth i rs rzero y).
(** the original rows of the usable tokens are a linear image of the donor's *)
Definition usable_image (D : nat) (f : nat -> nat -> R) (orig_m donor_m : list row) (orig donor : dict ntok nat) (junk : list nat) : Prop :=
  forall u y, usable orig donor junk u -> row_of orig_m orig u y = Sum D (fun x => f y x * row_of donor_m donor u x).
