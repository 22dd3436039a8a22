(** Vocabulary for C85: merge runs with tensors on devices. *)
From Verif.Base Require Import Py.
From Verif.Graph Require Import Model.
From Verif.Run Require Import Model.
From Verif.Devices Require Import Model.
Local Open Scope list_scope.

Section Spec.
Context {M : Type} `{Eqb M} {T K : Type}.
(** tensors without their device *)
Definition tensors (d : dict M (device * T)) : dict M T := map (fun mx => (fst mx, snd (snd mx))) d.
Definition unplaced (v : value M (device * T) K) : value M T K :=
  match v with
  | VTensor x => VTensor (option_map snd x)
  | VTensors d => VTensors (tensors d)
  | VTok k => VTok k
  | VWriter => VWriter
  | VSaved n x => VSaved n (option_map snd x)
  | VFinalized => VFinalized
  end.
Definition together (dv : device) (d : dict M (device * T)) : Prop := forall m x, In (m, x) d -> fst x = dv.
(** all tensors of a value are on a device *)
Definition value_on (dv : device) (v : value M (device * T) K) : Prop :=
  match v with VTensor (Some x) => fst x = dv | VTensors d => together dv d | _ => True end.
(** Given tensors on one device, whichever it is, merge methods, embedding permutation and casts compute what [E] says. *)
Record portable_env (E : env M T K) (E' : env M (device * T) K) : Prop := {
  pe_str : forall m, e_str E' m = e_str E m;
  pe_tokenizer : e_tokenizer E' = e_tokenizer E;
  pe_cast : forall s x, rmap snd (e_cast E' s x) = e_cast E s (snd x);
  pe_method : forall t d dv, together dv d -> rmap (option_map snd) (e_method E' t d) = e_method E t (tensors d);
  pe_permute : forall b k d dv, together dv d -> rmap tensors (e_permute E' b k d) = e_permute E b k (tensors d) }.
End Spec.
