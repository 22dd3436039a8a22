(** Vocabulary for C87. *)
From Verif.Base Require Import Py.
From Verif.Config Require Import Model.
From Verif.Arch Require Import Model Choose.
From Verif.Plan Require Import Model.
From Verif.Plan Require Import Props.
Local Open Scope string_scope.
Local Open Scope list_scope.

Section Configuration.
Context {M : Type} {HM : Eqb M}.

(** the output configuration starts as the one of [base]: the base model, or else the first model of the set *)
Definition based (c : merge_config M) (referenced : list M) (base : M) : Prop :=
  mc_base c = Some base \/ (mc_base c = None /\ hd_error referenced = Some base).
(** [base] is the base model, or one of the models of every module given by models *)
Definition models_have (c : merge_config M) (base : M) : Prop :=
  forall nm d, In (nm, d) (opt_list (mc_modules c)) -> truthy (om_models d) = true -> mc_base c = Some base \/ In base (map im_model (opt_list (om_models d))).

End Configuration.

(** the modules of an architecture keep their numbers of layers under keys none of which is below another *)
Definition keys_apart (l : list (string * module_def)) : Prop :=
  forall nm md nm' md' k, In (nm, md) l -> In (nm', md') l -> nm <> nm' -> ma_key (md_arch md) = Some k -> k <> "" -> key_apart k md'.
(** a module that has a key for its number of layers takes the number from there *)
Definition counted_by_key (md : module_def) : Prop :=
  forall k cfg n, ma_key (md_arch md) = Some k -> k <> "" -> ma_num (md_arch md) cfg = Ok n -> get_config_value cfg k = Ok (CVInt n).

(** the modules of an architecture, as the planner sees them *)
Definition modules_of (a : architecture) : dict string module_def :=
  map (fun m => (fst m, {| md_arch := module_of (me_info (snd m)); md_prefix := me_prefix (snd m) |})) (ar_modules a).

(** * The card *)
Section Card.
Context {M : Type}.
Variable path : M -> string.
Variable lora : M -> option string.
Variable hf : string -> result bool.
(** a repository of the hub is linked to, anything else is shown as it is *)
Definition linked (p t : string) : Prop :=
  (hf p = Ok true /\ t = ("[" ++ p ++ "](https://huggingface.co/" ++ p ++ ")")%string) \/ (hf p = Ok false /\ t = p).
(** the text for a model *)
Definition described (m : M) (t : string) : Prop :=
  exists t1, linked (path m) t1 /\
    match lora m with
    | None => t = t1
    | Some l => exists t2, linked l t2 /\ t = (t1 ++ " + " ++ t2)%string
    end.
(** the model is made of [p] *)
Definition made_of (m : M) (p : string) : Prop := path m = p \/ lora m = Some p.
(** the model the card calls the base: none for slerp *)
Definition card_base (method : string) (base : option M) (m : M) : Prop := method <> "slerp" /\ base = Some m.
End Card.
