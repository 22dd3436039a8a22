(** Vocabulary for the statements about decorated functions. *)
From Coq Require Import QArith.
From Verif.Base Require Import Py.
From Verif.Config Require Import Model.
From Verif.Plan Require Model.
From Verif.Methods Require Import Signature.
Local Open Scope string_scope.
Local Open Scope list_scope.

(** the arguments with a meaning of their own *)
Definition apart (p : sparam) : Prop := In (sp_name p) ["tensors"; "base_tensor"; "output_weight"; "base_model"].
(** annotated int, float or bool *)
Definition scalar (p : sparam) : Prop := ~ apart p /\ (sp_ann p = AInt \/ sp_ann p = AFloat \/ sp_ann p = ABool).
(** annotated List[float] or List[int] *)
Definition listed (p : sparam) : Prop := ~ apart p /\ exists rest, sp_ann p = AList (AInt :: rest) \/ sp_ann p = AList (AFloat :: rest).
(** any other argument *)
Definition unknown (p : sparam) : Prop := ~ apart p /\ ~ scalar p /\ ~ listed p.
(** can be given by name; takes one value *)
Definition nameable (p : sparam) : Prop := sp_kind p = POrdinary \/ sp_kind p = PKeyword.
Definition takes_one (p : sparam) : Prop := sp_kind p <> PVarArgs /\ sp_kind p <> PVarKeywords.
Definition optional_tensor (a : ann) : Prop := a = AUnion [ATensor; ANoneType] \/ a = AUnion [ANoneType; ATensor].

(** the signatures a method may have *)
Definition accepted (sig : list sparam) : Prop :=
  (exists p, In p sig /\ sp_name p = "tensors" /\ sp_ann p = AList [ATensor]) /\
  (forall p, In p sig -> sp_name p = "base_tensor" -> sp_ann p = ATensor \/ optional_tensor (sp_ann p)) /\
  (forall p, In p sig -> ~ apart p -> sp_ann p <> ANull /\ sp_ann p <> ABareList /\ sp_ann p <> AList []) /\
  (forall p d, In p sig -> listed p -> sp_default p = Some d -> exists q, d = PNum q).

(** [m] lists the members of [l] with [P], in their order *)
Inductive picks (P : sparam -> Prop) : list sparam -> list sparam -> Prop :=
| picks_nil : picks P [] []
| picks_take p l m : P p -> picks P l m -> picks P (p :: l) (p :: m)
| picks_skip p l m : ~ P p -> picks P l m -> picks P (p :: l) m.
(** the parameter declared for an argument: required exactly if the argument has no default *)
Definition declares (p : sparam) (d : Plan.Model.param_def) : Prop :=
  Plan.Model.pd_name d = sp_name p /\ (Plan.Model.pd_required d = true <-> sp_default p = None) /\
  forall v, sp_default p = Some v -> Plan.Model.pd_default d = v.
