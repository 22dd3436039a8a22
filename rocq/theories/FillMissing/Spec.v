(** Vocabulary for C45. *)
From Verif.Base Require Import Py.
From Verif.IO Require Import Model.
Local Open Scope string_scope.
Local Open Scope list_scope.

(** the base model's name for the submodel's tensor [m]: [m] itself, or "prefix.m" *)
Definition under (prefix m : string) : string := if eqb prefix "" then m else (prefix ++ "." ++ m)%string.

(** the submodel's name [m] is found in the base model once "prefix." is taken off the base names that start with it *)
Definition reached (base : list string) (prefix m : string) : Prop :=
  In (under prefix m) base \/ (In m base /\ forall r, prefix <> "" -> m <> (prefix ++ "." ++ r)%string).

(** [l] lists, once each, the names of [sub] that are reached *)
Definition reached_names (base sub : list string) (prefix : string) (l : list string) : Prop :=
  exists p : string -> bool, (forall m, p m = true <-> reached base prefix m) /\ l = filter p sub.

(** every indexed tensor can be read: its file is a safetensors file that has it *)
Definition readable {T} (f : fs T) (ix : index) : Prop :=
  forall n file, dget (ix_paths ix) n = Some file -> exists d t, dget f file = Some (FShard true d) /\ dget d n = Some t.

(** the value of tensor [n] *)
Definition value {T} (f : fs T) (ix : index) (n : string) (t : T) : Prop :=
  exists file d, dget (ix_paths ix) n = Some file /\ dget f file = Some (FShard true d) /\ dget d n = Some t.

(** the value the filled model should have for the base model's tensor [n] *)
Definition filled_value {T} (base sub : fs T) (bix six : index) (prefix n : string) (t : T) : Prop :=
  (exists m, In m (dkeys (ix_paths six)) /\ n = under prefix m /\ value sub six m t) \/
  ((forall m, In m (dkeys (ix_paths six)) -> n <> under prefix m) /\ value base bix n t).
