(** Specification vocabulary for C42. *)
From Coq Require Import QArith Qabs.
From Verif.Base Require Import Py.
From Verif.Config Require Import Model Spec.
From Verif.Evo Require Import Model.
Local Open Scope string_scope.
Local Open Scope list_scope.

(** the integers lo, lo+1, ..., hi-1 *)
Definition zrange (lo hi : Z) : list Z := map (fun k => (lo + Z.of_nat k)%Z) (seq 0 (Z.to_nat (hi - lo))).

Section Spec.
Context {M : Type} `{Eqb M}.

(** the layers an output slice takes from its first source *)
Definition slice_layers (s : output_slice M) : list Z :=
  match os_sources s with src :: _ => zrange (is_start src) (is_end src) | [] => [] end.
(** in order, the slices use the layers 0..n-1, each once; all the sources of a slice cover the same layers *)
Definition uses_each_layer_once (n : Z) (slices : list (output_slice M)) : Prop :=
  flat_map slice_layers slices = zrange 0 n /\
  forall s, In s slices -> os_sources s <> [] /\
    forall a b, In a (os_sources s) -> In b (os_sources s) -> is_start a = is_start b /\ is_end a = is_end b.

(** parameter [name] is set to [v] for some model of the configuration *)
Definition model_setting (c : merge_config M) (m : M) (name : string) (v : pval) : Prop :=
  (exists slices s src d, mc_slices c = Some slices /\ In s slices /\ In src (os_sources s) /\ is_model src = m /\
                          is_params src = Some d /\ In (name, v) d) \/
  (exists ms im d, mc_models c = Some ms /\ In im ms /\ im_model im = m /\ im_params im = Some d /\ In (name, v) d).

(** whatever tensor and depth a setting is read for, a value read from it satisfies [P] *)
Definition always (P : Q -> Prop) (v : pval) : Prop :=
  forall tensor t r, (0 <= t <= 1)%Q -> evaluate_setting tensor t v = Ok (Some r) -> exists q, r = PNum q /\ P q.

(** entry of a flat genotype for a layer group, a model, a parameter set and a parameter *)
Definition gene (l : list Q) (models sets params : nat) (k j i p : nat) : Q :=
  nth (k * (models * sets * params) + j * (sets * params) + i * params + p) l 0%Q.

(** parameter set [i] is the one for [tensor]: the first filter that applies, or the last set if none does *)
Definition set_for (fs : list string) (tensor : option string) (i : nat) : Prop :=
  (forall i' f, (i' < i)%nat -> nth_error fs i' = Some f -> ~ applies tensor (Some f)) /\
  ((exists f, nth_error fs i = Some f /\ applies tensor (Some f)) \/ i = List.length fs).

(** what a genotype entry [x] becomes *)
Definition expressed (negative : bool) (param : string) (x q : Q) : Prop :=
  (param = "density" -> (Qabs x <= 1 -> q == Qabs x) /\ (1 <= Qabs x -> q == 1))%Q /\
  (param = "weight" -> q = if negative then x else Qabs x).
End Spec.
