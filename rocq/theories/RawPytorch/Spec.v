(** Vocabulary for the statements about mergekit-pytorch. *)
From Coq Require Import QArith.
From Verif.Base Require Import Py.
From Verif.Config Require Import Model.
From Verif.RawPytorch Require Import Model.

(** the mapping [ps] of a configuration has a setting for [name], and for [tensor] it evaluates to [v]
    ([evaluate_setting] is characterised by C08 and C09; [v = None]: it does not apply to this tensor) *)
Definition setting (ps : params) (name tensor : string) (v : option pval) : Prop :=
  exists d s, ps = Some d /\ dget d name = Some s /\ evaluate_setting (Some tensor) 0 s = Ok v.

(** there is no setting for [name] *)
Definition absent (ps : params) (name : string) : Prop :=
  forall d, ps = Some d -> ~ In name (dkeys d).

(** every setting that is there evaluates without raising *)
Definition evaluates (ps : params) (name tensor : string) : Prop := absent ps name \/ exists v, setting ps name tensor v.

(** values Python treats as false: 0, 0.0, False, the empty string *)
Definition falsy (v : pval) : Prop := (exists q, v = PNum q /\ q == 0) \/ v = PStr "".
Definition scalar (v : pval) : Prop := (exists q, v = PNum q) \/ exists s, v = PStr s.

(** [m] is the last definition of its model in the configuration *)
Definition last_def (c : raw_config) (m : model_def) : Prop :=
  exists pre post, rc_models c = pre ++ m :: post /\ ~ In (md_model m) (map md_model post).
