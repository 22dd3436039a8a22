(** Specification vocabulary for C65: what a layer number in a tensor name is, and which weights an architecture inferred
    from the names should have, without reference to the scanner or the grouping into modules. *)
From Verif.Base Require Import Py PyStr.
Local Open Scope string_scope.
Local Open Scope list_scope.

(** the text [d] between two dots of [s] is a number *)
Definition number_in (s p d r : string) : Prop :=
  s = (p ++ "." ++ d ++ "." ++ r)%string /\ d <> "" /\ all_chars is_digit d = true.
(** ... and it is the first *)
Definition first_number (s p d r : string) : Prop :=
  number_in s p d r /\ forall p' d' r', number_in s p' d' r' -> (String.length p <= String.length p')%nat.
Definition no_number (s : string) : Prop := forall p d r, ~ number_in s p d r.

(** [s] is a weight of layer [k] of the stack [p], called [r] in its layer *)
Definition in_layer (s p : string) (k : nat) (r : string) : Prop :=
  exists d, first_number s p d r /\ Z.to_nat (digits_value 0 d) = k.
Definition layer_name (p : string) (i : nat) (r : string) : string := (p ++ "." ++ str_of_Z (Z.of_nat i) ++ "." ++ r)%string.
(** how the weight is called in the inferred definition *)
Definition generic_name (p r : string) : string := (p ++ ".${layer_index}." ++ r)%string.

Section Expected.
(** the names the layout is taken from, those not saved *)
Variable named : string -> Prop.
Variable ignored : string -> Prop.

(** stack [p] has a layer [k] *)
Definition has_layer (p : string) (k : nat) : Prop := exists m r, named m /\ ~ ignored m /\ in_layer m p k r.
(** ... and a weight called [r] in some layer *)
Definition has_weight (p r : string) : Prop := exists m k, named m /\ ~ ignored m /\ in_layer m p k r.
Definition stack (p : string) : Prop := exists k, has_layer p k.

(** every weight outside the layers, and every layer weight at every layer up to the last *)
Definition expected (n : string) : Prop :=
  (named n /\ no_number n) \/
  (exists p r i k, has_weight p r /\ has_layer p k /\ (i <= k)%nat /\ n = layer_name p i r).

(** available everywhere: at every layer of the stack, for a layer weight *)
Variable available : string -> Prop.
Definition available_throughout (n : string) : Prop :=
  (no_number n /\ available n) \/
  (exists p r, (exists i, n = layer_name p i r) /\ has_weight p r /\
               forall i k, has_layer p k -> (i <= k)%nat -> available (layer_name p i r)).
(** the name by which flags are looked up *)
Definition looked_up (n t : string) : Prop :=
  (no_number n /\ t = n) \/ (exists p i r, n = layer_name p i r /\ has_weight p r /\ t = generic_name p r).
End Expected.
