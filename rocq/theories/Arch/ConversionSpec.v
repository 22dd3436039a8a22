(** Specification vocabulary for C66: when a group of tensors is complete, what a transform promises, and where renamed
    tensors come from. *)
From Verif.Base Require Import Py PyStr.
From Verif.Arch Require Import Conversion.
Local Open Scope string_scope.
Local Open Scope list_scope.

(** a group of tensors, each standing for a pattern with the values of its wildcards *)
Definition group := list (string * list string).
Definition filled (g : group) (p : string) (v : list string) : Prop := In (p, v) g.

(** one tensor of a pattern without wildcards, or at least two different ones of a pattern with wildcards *)
Definition complete_for (g : group) (p : string) : Prop :=
  (forall v, filled g p v <-> v = []) \/ (exists v v', v <> v' /\ filled g p v /\ filled g p v').
(** every source pattern is filled with the same wildcard values *)
Definition complete (sources : list string) (g : group) : Prop :=
  (exists p0, In p0 sources /\ complete_for g p0 /\ forall p, In p sources -> forall v, filled g p v <-> filled g p0 v) \/
  (exists p0 p, sources = [p0] /\ ~ (exists v, filled g p0 v) /\ complete_for g p).

Section Spec.
Context {T : Type}.
Notation transform := (transform T).

(** what the code relies on: from a complete group of loadable tensors of one target key, [convert] makes all the tensors
    that the key stands for *)
Definition honours (tr : transform) : Prop :=
  forall l adds, adds <> [] ->
    (forall a, In a adds -> (exists t, ad_value a = Ok t) /\ tr_rename tr (ad_key a) = (l, Some (ad_pattern a))) ->
    complete (tr_sources tr) (map (fun a => (ad_pattern a, wildcard_values (ad_pattern a) (ad_key a))) adds) ->
    exists d, tr_convert tr l adds = Ok d /\ forall t, In t (expanded l (tr_targets tr)) -> exists v, dget d t = Some v.

(** [tr] makes [target] from [key], under the name [r] *)
Definition makes (tr : transform) (target key r : string) : Prop :=
  exists p, tr_rename tr key = (r, Some p) /\
    (if tr_renaming tr then r = target else In target (expanded r (tr_targets tr))).
(** [s] turns into [t] by some of the renamings, in their order *)
Inductive renames : list transform -> string -> string -> Prop :=
| renames_done s : renames [] s s
| renames_skip tr trs s t : renames trs s t -> renames (tr :: trs) s t
| renames_step tr trs s s' p t : tr_renaming tr = true -> tr_rename tr s = (s', Some p) -> renames trs s' t -> renames (tr :: trs) s t.

(** [tr], after the transforms [pre], makes [target] of a tensor of the checkpoint *)
Definition produces (keys : list string) (pre : list transform) (tr : transform) (target : string) : Prop :=
  exists s key r, In s keys /\ renames pre s key /\ makes tr target key r.

(** the target belongs to one key, and is not made by a combination and by something else *)
Definition unambiguous (keys : list string) (trs : list transform) (target : string) : Prop :=
  (forall pre tr post s k r s' k' r', trs = pre ++ tr :: post -> tr_renaming tr = false ->
     In s keys -> renames pre s k -> makes tr target k r -> In s' keys -> renames pre s' k' -> makes tr target k' r' -> r = r') /\
  (forall pre tr mid tr' post, trs = pre ++ tr :: mid ++ tr' :: post -> produces keys pre tr target ->
     produces keys (pre ++ tr :: mid) tr' target -> tr_renaming tr = true /\ tr_renaming tr' = true).
End Spec.
