(** Vocabulary for C88. *)
From Coq Require Import QArith Sorting.Sorted.
From Verif.Base Require Import Py.
From Verif.Common Require Import Model Spec.
From Verif.Config Require Import Model.
From Verif.Yaml Require Import Model.
Local Open Scope string_scope.
Local Open Scope list_scope.

(** the keys come in alphabetical order *)
Definition ordered {V} (d : dict string V) : Prop := Sorted (fun a b => String.leb a b = true) (dkeys d).

(** * The same configuration, its dictionaries in the order of their keys *)
Definition params_by_key (p : params) : params := option_map by_key p.
Definition islice_by_key (s : input_slice model_ref) : input_slice model_ref :=
  {| is_model := is_model s; is_start := is_start s; is_end := is_end s; is_params := params_by_key (is_params s) |}.
Definition imodel_by_key (m : input_model model_ref) : input_model model_ref :=
  {| im_model := im_model m; im_params := params_by_key (im_params m) |}.
Definition oslice_by_key (s : output_slice model_ref) : output_slice model_ref :=
  {| os_sources := map islice_by_key (os_sources s); os_base := os_base s; os_params := params_by_key (os_params s) |}.
Definition omodule_by_key (m : output_module model_ref) : output_module model_ref :=
  {| om_slices := option_map (map oslice_by_key) (om_slices m); om_models := option_map (map imodel_by_key) (om_models m);
     om_params := params_by_key (om_params m) |}.
Definition values {A B} (f : A -> B) (d : dict string A) : dict string B := map (fun kv => (fst kv, f (snd kv))) d.
Definition config_by_key (c : merge_config model_ref) : merge_config model_ref :=
  {| mc_modules := option_map (fun d => by_key (values omodule_by_key d)) (mc_modules c);
     mc_slices := option_map (map oslice_by_key) (mc_slices c); mc_models := option_map (map imodel_by_key) (mc_models c);
     mc_base := mc_base c; mc_params := params_by_key (mc_params c); mc_dtype := mc_dtype c; mc_out_dtype := mc_out_dtype c |}.
Definition tokenizer_by_key (t : tokenizer_config) : tokenizer_config :=
  {| tk_source := tk_source t; tk_tokens := option_map by_key (tk_tokens t); tk_pad := tk_pad t |}.
Definition document_by_key (d : document) : document :=
  {| d_config := config_by_key (d_config d); d_method := d_method d; d_tok_source := d_tok_source d;
     d_tokenizer := option_map tokenizer_by_key (d_tokenizer d); d_chat := d_chat d |}.

(** * What is written faithfully *)
(** a reference that is read back as written (C23) *)
Definition writable_ref (r : model_ref) : Prop :=
  plain_ref r \/ mr_arch r <> None \/ ~ free """" (str_ref r) \/ ~ free " " (str_ref r).
(** the shapes of a parameter setting: a number, a gradient, a conditional one or a list of these *)
Definition number (v : pval) : Prop := exists q, v = PNum q.
Definition gradient (v : pval) : Prop := number v \/ exists l, v = PList l /\ Forall number l.
Definition conditional (v : pval) : Prop := exists x f, v = PCond x f /\ gradient x.
Definition setting (v : pval) : Prop := gradient v \/ conditional v \/ exists l, v = PList l /\ Forall conditional l.
Definition on {A} (P : A -> Prop) (o : option A) : Prop := match o with Some a => P a | None => True end.
Definition settings (p : params) : Prop := on (Forall (fun kv => setting (snd kv))) p.

(** what holds of every reference [R] and every tokenizer source [S] of a configuration whose settings are well-formed *)
Section All.
Variable R : model_ref -> Prop.
Variable S : tok_source -> Prop.
Definition islice_all (s : input_slice model_ref) : Prop := R (is_model s) /\ settings (is_params s).
Definition imodel_all (m : input_model model_ref) : Prop := R (im_model m) /\ settings (im_params m).
Definition oslice_all (s : output_slice model_ref) : Prop := Forall islice_all (os_sources s) /\ on R (os_base s) /\ settings (os_params s).
Definition omodule_all (m : output_module model_ref) : Prop :=
  on (Forall oslice_all) (om_slices m) /\ on (Forall imodel_all) (om_models m) /\ settings (om_params m) /\ validate_module m = Ok tt.
(** one of the token and its id *)
Definition token_source_all (s : token_source) : Prop :=
  match s with
  | EToken m i t => R m /\ ((exists z, i = Some z /\ t = None) \/ (exists x, i = None /\ t = Some x))
  | EZero => True
  | EModel m => R m
  end.
Definition tokenizer_all (t : tokenizer_config) : Prop :=
  S (tk_source t) /\ on (Forall (fun kv => on token_source_all (te_source (snd kv)))) (tk_tokens t).
Definition document_all (d : document) : Prop :=
  let c := d_config d in
  on (Forall (fun kv => omodule_all (snd kv))) (mc_modules c) /\ on (Forall oslice_all) (mc_slices c) /\ on (Forall imodel_all) (mc_models c) /\
  on R (mc_base c) /\ settings (mc_params c) /\ on S (d_tok_source d) /\ on tokenizer_all (d_tokenizer d) /\
  validate_config c = Ok tt /\ (d_tok_source d = None \/ d_tokenizer d = None).
End All.
(** a model written as the word union or base would be read back as that word *)
Definition writable_source (s : tok_source) : Prop :=
  match s with TModel m => writable_ref m /\ dump_ref m <> YStr "union" /\ dump_ref m <> YStr "base" | _ => True end.
Definition writable : document -> Prop := document_all writable_ref writable_source.
(** well-formed, whatever the references *)
Definition well_formed : document -> Prop := document_all (fun _ => True) (fun _ => True).
