(** Vocabulary for the statements about merge methods chosen by name. *)
From Coq Require Import Reals QArith Qreals.
From Verif.Base Require Import Py.
From Verif.Config Require Import Model.
From Verif.Arch Require Import Model.
From Verif.Plan Require Import Model Spec.
From Verif.Methods Require Import Model Dispatch.
Local Open Scope string_scope.
Local Open Scope list_scope.

(** [task] merges weight [w] from [ins] with method [name], its parameters read by [r] *)
Definition planned (name : string) (W : world string) (r : reader string) (w : weight_info)
    (ins : list (string * weight_info)) (task : merge_task string) : Prop :=
  (exists k, get name = Ok k /\ w_params W = parameters k /\ w_tparams W = tensor_parameters k) /\
  merges W r w ins task /\ NoDup (map fst ins).

(** the setting of a method-wide parameter, for the output weight *)
Definition setting (r : reader string) (w : weight_info) (name : string) (default : pval) (v : pval) : Prop :=
  parameter (for_tensor r (wi_name w)) name None default false = Ok v.
Definition required_setting (r : reader string) (w : weight_info) (name : string) (v : pval) : Prop :=
  exists d, parameter (for_tensor r (wi_name w)) name None d true = Ok v.
(** the setting of a per-model parameter, for the weight that model contributes *)
Definition model_setting (r : reader string) (ins : list (string * weight_info)) (m name : string) (default : pval) (v : pval) : Prop :=
  exists wi, In (m, wi) ins /\ parameter (for_tensor r (wi_name wi)) name (Some m) default false = Ok v.
(** ... which must be there, except for the base model *)
Definition required_model_setting (r : reader string) (ins : list (string * weight_info)) (m name : string) (v : pval) : Prop :=
  exists wi d, In (m, wi) ins /\
    parameter (for_tensor r (wi_name wi)) name (Some m) d (match reader_base r with Some b => negb (eqb m b) | None => true end) = Ok v.

(** a setting as a number, as a yes or no, as an integer *)
Definition number (v : pval) (x : R) : Prop := exists q, v = PNum q /\ x = Q2R q.
Definition flag (v : pval) (b : bool) : Prop := exists q, v = PNum q /\ q == (if b then 1 else 0).
Definition integer (v : pval) (z : Z) : Prop := exists q, v = PNum q /\ q == inject_Z z.

(** the tensors of all models but the base *)
Definition apart (base : string) (ds : dict string tensor) : dict string tensor :=
  filter (fun kx => negb (eqb (fst kx) base)) ds.
