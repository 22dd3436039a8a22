(** Vocabulary of the statements about merge methods. *)
From Coq Require Import Reals.
From Verif.Base Require Import Py RList.
From Verif.Sparsify Require Import Model.
From Verif.Methods Require Import Model LinearProofs.
Local Open Scope list_scope.
Local Open Scope R_scope.

(** The models that take part in a task-arithmetic merge of one weight, with their
    values: all but the base; of a different shape, only for embeddings and cut
    down to the rows and columns of the base. *)
Definition merged (is_embed : bool) (base_model : string) (base : tensor) (tensors : dict string tensor) : list (string * list R) :=
  flat_map (fun kx : string * tensor =>
    let (m, x) := kx in
    if eqb m base_model then []
    else if shape_eqb (shp x) (shp base) then [(m, dat x)]
    else if is_embed then [(m, dat (trim (nth 0 (shp base) 0%nat) (nth 1 (shp base) 0%nat) x))]
    else []) tensors.

(** [wd] is the weight and the (sparsified) difference to the base of model [fst mx]. *)
Definition contributes (sp : option method) (norm : option rescale_norm) (base : tensor) (params : dict string tparams)
    (choice : string -> choices) (mx : string * list R) (wd : R * list R) : Prop :=
  exists p, dget params (fst mx) = Some p /\ fst wd = p_weight p /\
    match sp with
    | None => snd wd = vsub (snd mx) (dat base)
    | Some s => exists rows, rows_of s (shp base) (vsub (snd mx) (dat base)) = Ok rows /\
                             sparsify rows (p_density p) s (p_gamma p) (p_epsilon p) norm (choice (fst mx)) = Ok (snd wd)
    end.

(** The elected sign of the contributions at one position: by their sum, or by
    how many are positive and how many negative. *)
Definition elected (c : consensus) (vs : list R) : R :=
  match c with
  | CSum => if Rle_dec 0 (rsum vs) then 1 else -1
  | CCount => if (length (filter (fun v => if Rlt_dec v 0 then true else false) vs)
                  <=? length (filter (fun v => if Rlt_dec 0 v then true else false) vs))%nat then 1 else -1
  end.
(** [v] has the (non-zero) sign [s]. *)
Definition agrees (s v : R) : bool := if Rlt_dec 0 (s * v) then true else false.
