(** Vocabulary for C84. *)
From Verif.Base Require Import Py.
From Verif.Config Require Import Model.
From Verif.Plan Require Import Model.
From Verif.Graph Require Import Model Spec.
From Verif.Run Require Import Model Cache.
Local Open Scope list_scope.

Section Spec.
Context {M : Type} `{Eqb M} {L D : Type}.
Variable merged : D -> M -> option string -> bool -> option string -> result M.
Variable lazy_loader : D -> M -> option string -> bool -> result L.

(** [l] is what opening [m] gives under the options [o], adapters being merged on disk [d] and the index read from disk [d'] *)
Definition opened_on (o : options) (d d' : D) (m : M) (l : L) : Prop :=
  exists m', merged d m (o_lora_merge_cache o) (o_trust_remote_code o) (o_lora_merge_dtype o) = Ok m' /\
             lazy_loader d' m' (o_transformers_cache o) (o_lazy_unpickle o) = Ok l.
Definition opened_under (o : options) (m : M) (l : L) : Prop := exists d d', opened_on o d d' m l.

(** no thread is inside [get] *)
Definition quiet (s : state M L) : Prop := forall t, s_place s t = Idle.
(** the models asked for *)
Definition asked (l : list (action M D)) : list M := flat_map (fun a => match a with Enter _ m => [m] | _ => [] end) l.
(** the options last set up in thread [t]; before that the attributes of the class (22-26) *)
Definition defaults : options :=
  {| o_lora_merge_cache := None; o_transformers_cache := None; o_lazy_unpickle := false; o_trust_remote_code := false; o_lora_merge_dtype := None |}.
Definition last_options (l : list (action M D)) (t : nat) : options :=
  fold_left (fun o a => match a with Setup t' o' => if Nat.eqb t' t then o' else o | _ => o end) l defaults.
Definition opens (a : action M D) : bool := match a with Open _ _ _ => true | _ => false end.

(** the configuration names model [m]: as base model, or among models or sources, at the top or in a module *)
Definition names_model (c : merge_config M) (m : M) : Prop :=
  mc_base c = Some m \/
  (exists im, In im (opt_list (mc_models c)) /\ im_model im = m) \/
  (exists sl s, In sl (opt_list (mc_slices c)) /\ In s (os_sources sl) /\ is_model s = m) \/
  (exists nm d, In (nm, d) (opt_list (mc_modules c)) /\
     ((exists im, In im (opt_list (om_models d)) /\ im_model im = m) \/
      (exists sl s, In sl (opt_list (om_slices d)) /\ In s (os_sources sl) /\ is_model s = m))).

(** running the task loads a tensor of model [m] *)
Definition reads (t : task (lbl M)) (m : M) : Prop :=
  exists u tensor dtype optional aliases tied, needs (fun _ => False) t u /\ label u = LLoad m tensor dtype optional aliases tied.
End Spec.
