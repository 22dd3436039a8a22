(** What was dumped is read back. *)
From Coq Require Import QArith Permutation Sorting.Sorted.
From Verif.Base Require Import Py PyFacts.
From Verif.Common Require Import Model Spec Props.
From Verif.Config Require Import Model.
From Verif.Yaml Require Import Model Spec Proofs.
Local Open Scope string_scope.
Local Open Scope list_scope.

Lemma fields_map l : fields l = YMap (field_list l).
Proof. reflexivity. Qed.
Definition distinct (l : list (string * option yval)) : bool := (length (dedup (dkeys l)) =? length l)%nat.
Lemma optional_dumped {A} (dump : A -> yval) (rd : yval -> result A) P l k o :
  NoDup (dkeys l) -> solid dump -> inv dump rd P -> on P o -> dget l k = Some (option_map dump o) -> optional rd (field_list l) k = Ok o.
Proof.
  intros N S I HP G. unfold optional. rewrite (field_dget _ _ N), G. destruct o as [a|]; [|reflexivity]. cbn [option_map].
  pose proof (S a) as Sa. pose proof (I a HP) as Ia. destruct (dump a); try contradiction; now rewrite Ia.
Qed.
Lemma optional_null {A} (dump : A -> yval) (rd : yval -> result A) P l k o :
  NoDup (dkeys l) -> solid dump -> inv dump rd P -> on P o -> dget l k = Some (Some (or_null (option_map dump o))) -> optional rd (field_list l) k = Ok o.
Proof.
  intros N S I HP G. unfold optional. rewrite (field_dget _ _ N), G. destruct o as [a|]; [|reflexivity]. cbn [option_map or_null].
  pose proof (S a) as Sa. pose proof (I a HP) as Ia. destruct (dump a); try contradiction; now rewrite Ia.
Qed.
Lemma optional_absent {A} (rd : yval -> result A) l k : NoDup (dkeys l) -> dget l k = None -> optional rd (field_list l) k = Ok None.
Proof. intros N G. unfold optional. now rewrite (field_dget _ _ N), G. Qed.
Lemma required_dumped l k y : NoDup (dkeys l) -> dget l k = Some (Some y) -> required (field_list l) k = Ok y.
Proof. intros N G. unfold required. now rewrite (field_dget _ _ N), G. Qed.
Ltac nd := clear; unfold dkeys; cbn [map fst]; repeat (apply NoDup_cons; [cbn [In]; intuition discriminate|]); exact (NoDup_nil _).

Lemma str_inv : inv YStr read_str (fun _ => True).
Proof. intros s _. reflexivity. Qed.
Lemma str_solid : solid YStr.
Proof. intros s. discriminate. Qed.
Lemma int_inv : inv YInt read_int (fun _ => True).
Proof. intros s _. reflexivity. Qed.
Lemma int_solid : solid YInt.
Proof. intros s. discriminate. Qed.
Lemma on_True {A} (o : option A) : on (fun _ => True) o.
Proof. now destruct o. Qed.
Lemma list_inv {A} (dump : A -> yval) rd P : inv dump rd P -> inv (dump_list dump) (read_list rd) (Forall P).
Proof.
  intros I l H. unfold dump_list, read_list. induction H as [|a l Ha H IH]; [reflexivity|]. cbn. now rewrite (I a Ha), IH.
Qed.
Lemma list_solid {A} (dump : A -> yval) : solid (dump_list dump).
Proof. intros l. discriminate. Qed.
Lemma dict_inv {A} (dump : A -> yval) rd P : inv dump rd P -> inv (dump_dict dump) (read_dict rd) (Forall (fun kv => P (snd kv))).
Proof.
  intros I l H. unfold dump_dict, read_dict. cbn [as_map rbind]. induction H as [|[k a] l Ha H IH]; [reflexivity|].
  cbn in *. now rewrite (I a Ha), IH.
Qed.
Lemma dict_solid {A} (dump : A -> yval) : solid (dump_dict dump).
Proof. intros l. discriminate. Qed.

Lemma path_inv : inv dump_path read_path (fun _ => True).
Proof.
  intros [p r] _. unfold dump_path. rewrite fields_map. cbn [read_path as_map rbind].
  rewrite (required_dumped _ "path" (YStr p)); [|nd|reflexivity]. cbn [rbind read_str mp_path mp_revision].
  rewrite (optional_dumped YStr read_str (fun _ => True) _ _ r); [reflexivity|nd|exact str_solid|exact str_inv|apply on_True|reflexivity].
Qed.
Lemma path_solid : solid dump_path.
Proof. intros l. discriminate. Qed.
Lemma ref_inv : inv dump_ref read_ref writable_ref.
Proof.
  intros r W. apply C23_dump_then_validate in W. unfold dump_ref. destruct (serialize r) as [s|r'] eqn:E; [exact W|].
  cbn in W. injection W as ->. destruct r as [m l a]. cbn [mr_arch mr_model mr_lora]. destruct a as [a|].
  - rewrite fields_map. cbn [read_ref as_map rbind]. rewrite (required_dumped _ "model" (dump_path m)); [|nd|reflexivity]. cbn [rbind].
    rewrite (path_inv m I). cbn [rbind].
    rewrite (optional_null dump_path read_path (fun _ => True) _ _ l); [|nd|exact path_solid|exact path_inv|apply on_True|reflexivity]. cbn [rbind].
    rewrite (optional_dumped YStr read_str (fun _ => True) _ _ (Some a)); [reflexivity|nd|exact str_solid|exact str_inv|exact I|reflexivity].
  - rewrite fields_map. cbn [read_ref as_map rbind]. rewrite (required_dumped _ "model" (dump_path m)); [|nd|reflexivity]. cbn [rbind].
    rewrite (path_inv m I). cbn [rbind].
    rewrite (optional_dumped dump_path read_path (fun _ => True) _ _ l); [|nd|exact path_solid|exact path_inv|apply on_True|reflexivity]. cbn [rbind].
    rewrite optional_absent; [reflexivity|nd|reflexivity].
Qed.
Lemma ref_solid : solid dump_ref.
Proof. intros r. unfold dump_ref. destruct (serialize r) as [s|r']; [discriminate|]. destruct (mr_arch r'); discriminate. Qed.

Lemma num_inv : inv dump_setting read_num number.
Proof. intros v [q ->]. reflexivity. Qed.
Lemma gradient_inv : inv dump_setting read_gradient gradient.
Proof.
  intros v [[q ->]|(l & -> & F)]; [reflexivity|]. pose proof (list_inv _ _ _ num_inv l F) as E.
  change (dump_setting (PList l)) with (dump_list dump_setting l). unfold dump_list in *. cbn [read_gradient]. now rewrite E.
Qed.
Lemma cond_inv : inv dump_setting read_cond conditional.
Proof.
  intros v (x & f & -> & G). change (dump_setting (PCond x f)) with (fields [("value", Some (dump_setting x)); ("filter", option_map YStr f)]).
  rewrite fields_map. unfold read_cond. cbn [as_map rbind]. rewrite (required_dumped _ "value" (dump_setting x)); [|nd|reflexivity]. cbn [rbind].
  rewrite (gradient_inv x G). cbn [rbind].
  rewrite (optional_dumped YStr read_str (fun _ => True) _ _ f); [reflexivity|nd|exact str_solid|exact str_inv|apply on_True|reflexivity].
Qed.
Lemma setting_inv : inv dump_setting read_setting setting.
Proof.
  intros v [G|[C|(l & -> & F)]].
  - pose proof (gradient_inv v G) as E. destruct G as [[q ->]|(l & -> & F)]; [reflexivity|].
    change (dump_setting (PList l)) with (YList (map dump_setting l)) in *. cbn [read_setting]. rewrite E.
    destruct F as [|a l [q ->] F]; reflexivity.
  - pose proof (cond_inv v C) as E. destruct C as (x & f & -> & G). exact E.
  - pose proof (list_inv _ _ _ cond_inv l F) as E. unfold dump_list, read_list in E.
    change (dump_setting (PList l)) with (YList (map dump_setting l)). cbn [read_setting]. now rewrite E.
Qed.
Lemma params_dumped l p : NoDup (dkeys l) -> settings p -> dget l "parameters" = Some (dump_params p) -> read_params (field_list l) = Ok p.
Proof.
  intros N S G. unfold read_params. apply (optional_dumped (dump_dict dump_setting) _ (Forall (fun kv => setting (snd kv)))); auto.
  - apply dict_solid.
  - apply dict_inv, setting_inv.
Qed.
Lemma islice_inv : inv dump_islice read_islice (islice_all writable_ref).
Proof.
  intros [m a b p] [W S]. cbn in W, S. unfold dump_islice. rewrite fields_map. unfold read_islice. cbn [as_map rbind is_model is_start is_end is_params].
  rewrite (required_dumped _ "model" (dump_ref m)); [|nd|reflexivity]. cbn [rbind]. rewrite (ref_inv m W). cbn [rbind].
  rewrite (required_dumped _ "layer_range" (YList [YInt a; YInt b])); [|nd|reflexivity]. cbn [rbind].
  change (read_range (YList [YInt a; YInt b])) with (@Ok (Z * Z) (a, b)). cbn [rbind].
  rewrite (params_dumped _ p); [reflexivity|nd|exact S|reflexivity].
Qed.
Lemma imodel_inv : inv dump_imodel read_imodel (imodel_all writable_ref).
Proof.
  intros [m p] [W S]. cbn in W, S. unfold dump_imodel. rewrite fields_map. unfold read_imodel. cbn [as_map rbind im_model im_params].
  rewrite (required_dumped _ "model" (dump_ref m)); [|nd|reflexivity]. cbn [rbind]. rewrite (ref_inv m W). cbn [rbind].
  rewrite (params_dumped _ p); [reflexivity|nd|exact S|reflexivity].
Qed.
Lemma oslice_inv : inv dump_oslice read_oslice (oslice_all writable_ref).
Proof.
  intros [s b p] (F & B & S). cbn in F, B, S. unfold dump_oslice. rewrite fields_map. unfold read_oslice. cbn [as_map rbind os_sources os_base os_params].
  rewrite (required_dumped _ "sources" (dump_list dump_islice s)); [|nd|reflexivity]. cbn [rbind].
  rewrite (list_inv _ _ _ islice_inv s F). cbn [rbind].
  rewrite (optional_dumped dump_ref read_ref writable_ref _ _ b); [|nd|exact ref_solid|exact ref_inv|exact B|reflexivity]. cbn [rbind].
  rewrite (params_dumped _ p); [reflexivity|nd|exact S|reflexivity].
Qed.
Lemma omodule_inv : inv dump_omodule read_omodule (omodule_all writable_ref).
Proof.
  intros [s m p] (F & B & S & V). cbn in F, B, S. unfold dump_omodule. rewrite fields_map. unfold read_omodule. cbn [as_map rbind om_slices om_models om_params].
  rewrite (optional_dumped (dump_list dump_oslice) _ (Forall (oslice_all writable_ref)) _ _ s); [|nd|apply list_solid|apply list_inv, oslice_inv|exact F|reflexivity]. cbn [rbind].
  rewrite (optional_dumped (dump_list dump_imodel) _ (Forall (imodel_all writable_ref)) _ _ m); [|nd|apply list_solid|apply list_inv, imodel_inv|exact B|reflexivity]. cbn [rbind].
  rewrite (params_dumped _ p); [|nd|exact S|reflexivity]. cbn [rbind]. now rewrite V.
Qed.
Lemma tok_source_inv : inv dump_tok_source read_tok_source writable_source.
Proof.
  intros [| |m] W; [reflexivity|reflexivity|]. destruct W as (W & N1 & N2). pose proof (ref_inv m W) as E. cbn [dump_tok_source].
  destruct (dump_ref m) as [| | | |s| |]; cbn [read_tok_source]; rewrite ?E; try reflexivity.
  destruct (String.eqb_spec s "union") as [->|_]; [contradiction|]. destruct (String.eqb_spec s "base") as [->|_]; [contradiction|]. reflexivity.
Qed.
Lemma tok_source_solid : solid dump_tok_source.
Proof. intros [| |m]; [discriminate|discriminate|apply ref_solid]. Qed.
Lemma ref_no_kind m d : dump_ref m = YMap d -> dget d "kind" = None.
Proof.
  unfold dump_ref. destruct (serialize m) as [s|r]; [discriminate|].
  assert (J : forall a b, YMap a = YMap b -> a = b) by (intros a b H; now injection H).
  destruct (mr_arch r); rewrite fields_map; intros H; apply J in H; rewrite <- H; (rewrite field_dget; [reflexivity|nd]).
Qed.
Lemma token_source_inv : inv dump_token_source read_token_source (token_source_all writable_ref).
Proof.
  intros [m i t| |m] W; [|reflexivity|].
  - destruct W as [W H]. cbn [dump_token_source]. rewrite fields_map. cbn [read_token_source]. unfold read_model_token, has_kind.
    rewrite field_dget; [|nd]. cbn [dget].
    match goal with |- context [dget ?l "kind"] => change (dget l "kind") with (Some (Some (YStr "model_token"))) | _ => idtac end.
    cbn -[field_list required optional].
    rewrite (required_dumped _ "model" (dump_ref m)); [|nd|reflexivity]. cbn [rbind]. rewrite (ref_inv m W). cbn [rbind].
    rewrite (optional_dumped YInt read_int (fun _ => True) _ _ i); [|nd|exact int_solid|exact int_inv|apply on_True|reflexivity]. cbn [rbind].
    rewrite (optional_dumped YStr read_str (fun _ => True) _ _ t); [|nd|exact str_solid|exact str_inv|apply on_True|reflexivity]. cbn [rbind].
    destruct H as [(z & -> & ->)|(x & -> & ->)]; reflexivity.
  - cbn in W. pose proof (ref_inv m W) as E. cbn [dump_token_source]. pose proof (ref_no_kind m) as K.
    destruct (dump_ref m) as [| | | |s|l|d]; cbn [read_token_source]; try (now rewrite E).
    unfold read_model_token, has_kind. rewrite (K d eq_refl). cbn [or_try]. now rewrite E.
Qed.
Lemma token_source_solid : solid dump_token_source.
Proof. intros [m i t| |m]; [discriminate|discriminate|apply ref_solid]. Qed.
Lemma token_inv : inv dump_token read_token (fun t => on (token_source_all writable_ref) (te_source t)).
Proof.
  intros [s f] W. cbn in W. unfold dump_token. rewrite fields_map. unfold read_token. cbn [as_map rbind te_source te_force].
  rewrite (optional_dumped dump_token_source _ (token_source_all writable_ref) _ _ s); [|nd|exact token_source_solid|exact token_source_inv|exact W|reflexivity]. cbn [rbind].
  unfold defaulted. rewrite field_dget; [|nd]. destruct f; reflexivity.
Qed.
Lemma tokenizer_inv : inv dump_tokenizer read_tokenizer (tokenizer_all writable_ref writable_source).
Proof.
  intros [s t p] [W F]. cbn in W, F. unfold dump_tokenizer. rewrite fields_map. unfold read_tokenizer. cbn [as_map rbind tk_source tk_tokens tk_pad].
  assert (D : forall l, NoDup (dkeys l) -> dget l "source" = Some (match s with TUnion => None | s => Some (dump_tok_source s) end) ->
    defaulted read_tok_source TUnion (field_list l) "source" = Ok s).
  { intros l N G. unfold defaulted. rewrite (field_dget _ _ N), G. pose proof (tok_source_inv s W). now destruct s. }
  rewrite D; [|nd|now destruct s]. cbn [rbind].
  rewrite (optional_dumped (dump_dict dump_token) _ (Forall (fun kv => on (token_source_all writable_ref) (te_source (snd kv)))) _ _ t); [|nd|apply dict_solid|exact (dict_inv _ _ _ token_inv)|exact F|reflexivity]. cbn [rbind].
  rewrite (optional_dumped YInt read_int (fun _ => True) _ _ p); [reflexivity|nd|exact int_solid|exact int_inv|apply on_True|reflexivity].
Qed.
Lemma tokenizer_solid : solid dump_tokenizer.
Proof. intros t. discriminate. Qed.
Lemma document_inv : inv dump read writable.
Proof.
  intros [[ms sl im b p dt od] me ts tk ch] (H1 & H2 & H3 & H4 & H5 & H6 & H7 & H8 & H9).
  cbn [d_config mc_modules mc_slices mc_models mc_base mc_params d_tok_source d_tokenizer] in *.
  unfold dump. rewrite fields_map. unfold read. cbn [as_map rbind d_config mc_modules mc_slices mc_models mc_base mc_params mc_dtype mc_out_dtype d_method d_tok_source d_tokenizer d_chat].
  match goal with |- context [field_list ?L] => set (l := L) end.
  assert (N : NoDup (dkeys l)) by (subst l; nd).
  rewrite (optional_dumped (dump_dict dump_omodule) (read_dict read_omodule) _ l "modules" ms N (dict_solid _) (dict_inv _ _ _ omodule_inv) H1 eq_refl). cbn [rbind].
  rewrite (optional_dumped (dump_list dump_oslice) (read_list read_oslice) _ l "slices" sl N (list_solid _) (list_inv _ _ _ oslice_inv) H2 eq_refl). cbn [rbind].
  rewrite (optional_dumped (dump_list dump_imodel) (read_list read_imodel) _ l "models" im N (list_solid _) (list_inv _ _ _ imodel_inv) H3 eq_refl). cbn [rbind].
  rewrite (required_dumped l "merge_method" (YStr me) N eq_refl). cbn [rbind read_str].
  rewrite (optional_dumped dump_ref read_ref _ l "base_model" b N ref_solid ref_inv H4 eq_refl). cbn [rbind].
  rewrite (optional_dumped YStr read_str _ l "dtype" dt N str_solid str_inv (on_True _) eq_refl). cbn [rbind].
  rewrite (optional_dumped dump_tok_source read_tok_source _ l "tokenizer_source" ts N tok_source_solid tok_source_inv H6 eq_refl). cbn [rbind].
  rewrite (optional_dumped dump_tokenizer read_tokenizer _ l "tokenizer" tk N tokenizer_solid tokenizer_inv H7 eq_refl). cbn [rbind].
  rewrite (optional_dumped YStr read_str _ l "chat_template" ch N str_solid str_inv (on_True _) eq_refl). cbn [rbind].
  rewrite (optional_dumped YStr read_str _ l "out_dtype" od N str_solid str_inv (on_True _) eq_refl). cbn [rbind].
  rewrite (params_dumped l p N H5 eq_refl). cbn [rbind]. cbv zeta. cbn [d_config]. rewrite H8. cbn [rbind].
  unfold validate_tokenizer. cbn [d_tok_source d_tokenizer]. destruct H9 as [->| ->]; [|destruct ts]; reflexivity.
Qed.

(** * What reading gives is well-formed *)
Definition gives {A} (rd : yval -> result A) (P : A -> Prop) : Prop := forall y a, rd y = Ok a -> P a.
Lemma gives_list {A} (rd : yval -> result A) P : gives rd P -> gives (read_list rd) (Forall P).
Proof.
  intros G [| | | | |l|d] r H; try discriminate. cbn in H. revert r H. induction l as [|y l IH]; intros r H; cbn in H.
  - injection H as <-. constructor.
  - ok H. ok H. injection H as <-. constructor; [now apply (G y)|now apply IH].
Qed.
Lemma gives_dict {A} (rd : yval -> result A) P : gives rd P -> gives (read_dict rd) (Forall (fun kv => P (snd kv))).
Proof.
  intros G [| | | | |l|d] r H; try discriminate. unfold read_dict in H. cbn [as_map rbind] in H. revert r H.
  induction d as [|[k y] l IH]; intros r H; cbn in H.
  - injection H as <-. constructor.
  - ok H. ok H. injection H as <-. ok E. injection E as <-. constructor; [now apply (G y)|now apply IH].
Qed.
Lemma gives_optional {A} (rd : yval -> result A) P d k o : gives rd P -> optional rd d k = Ok o -> on P o.
Proof.
  intros G H. unfold optional in H. destruct (dget d k) as [y|]; [|injection H as <-; exact I].
  destruct y; try (injection H as <-; exact I); ok H; injection H as <-; exact (G _ _ E).
Qed.
Lemma gives_True {A} (rd : yval -> result A) : gives rd (fun _ => True).
Proof. intros y a _. exact I. Qed.
Lemma gives_num : gives read_num number.
Proof. intros [] a H; try discriminate; injection H as <-; now eexists. Qed.
Lemma gives_gradient : gives read_gradient gradient.
Proof.
  intros y a H. destruct y; try (left; exact (gives_num _ _ H)). unfold read_gradient in H. ok H. injection H as <-.
  right. eexists. split; [reflexivity|]. exact (gives_list _ _ gives_num _ _ E).
Qed.
Lemma gives_cond : gives read_cond conditional.
Proof.
  intros y a H. unfold read_cond in H. ok H. ok H. ok H. ok H. injection H as <-. eexists _, _. split; [reflexivity|]. now apply gives_gradient in E1.
Qed.
Lemma gives_setting : gives read_setting setting.
Proof.
  intros y a H. destruct y; try (left; left; exact (gives_num _ _ H)).
  - cbn [read_setting] in H. destruct (rmapM read_cond l) as [r|] eqn:E.
    + injection H as <-. right. right. eexists. split; [reflexivity|]. exact (gives_list _ _ gives_cond (YList l) r E).
    + left. now apply gives_gradient in H.
  - right. left. now apply gives_cond in H.
Qed.
Lemma gives_params d p : read_params d = Ok p -> settings p.
Proof. intros H. exact (gives_optional _ _ _ _ _ (gives_dict _ _ gives_setting) H). Qed.
Notation TT := (fun _ => True).
Lemma gives_islice : gives read_islice (islice_all TT).
Proof. intros y a H. unfold read_islice in H. ok H. ok H. ok H. ok H. ok H. ok H. injection H as <-. split; [exact I|]. now apply gives_params in E4. Qed.
Lemma gives_imodel : gives read_imodel (imodel_all TT).
Proof. intros y a H. unfold read_imodel in H. ok H. ok H. ok H. ok H. injection H as <-. split; [exact I|]. now apply gives_params in E2. Qed.
Lemma gives_oslice : gives read_oslice (oslice_all TT).
Proof.
  intros y a H. unfold read_oslice in H. ok H. ok H. ok H. ok H. ok H. injection H as <-.
  split; [exact (gives_list _ _ gives_islice _ _ E1)|]. split; [apply on_True|]. now apply gives_params in E3.
Qed.
Lemma gives_omodule : gives read_omodule (omodule_all TT).
Proof.
  intros y a H. unfold read_omodule in H. ok H. ok H. ok H. ok H. ok H. injection H as <-.
  split; [exact (gives_optional _ _ _ _ _ (gives_list _ _ gives_oslice) E0)|].
  split; [exact (gives_optional _ _ _ _ _ (gives_list _ _ gives_imodel) E1)|].
  split; [exact (gives_params _ _ E2)|]. now destruct v3.
Qed.
Lemma gives_model_token d a : read_model_token d = Ok a -> token_source_all TT a.
Proof.
  unfold read_model_token. destruct (has_kind d "model_token"); [|discriminate]. intros H. ok H. ok H. ok H. ok H.
  destruct v1, v2; try discriminate; injection H as <-; split; eauto.
Qed.
Lemma gives_token_source : gives read_token_source (token_source_all TT).
Proof.
  intros y a H. destruct y; try (cbn [read_token_source] in H; ok H; injection H as <-; exact I).
  cbn [read_token_source] in H. unfold or_try in H. destruct (read_model_token d) as [e|x] eqn:E.
  - injection H as <-. now apply gives_model_token in E.
  - destruct x; try discriminate. destruct (has_kind d "zero"); [injection H as <-; exact I|]. ok H. injection H as <-. exact I.
Qed.
Lemma gives_token : gives read_token (fun t => on (token_source_all TT) (te_source t)).
Proof. intros y a H. unfold read_token in H. ok H. ok H. ok H. injection H as <-. exact (gives_optional _ _ _ _ _ gives_token_source E0). Qed.
Lemma gives_tokenizer : gives read_tokenizer (tokenizer_all TT TT).
Proof.
  intros y a H. unfold read_tokenizer in H. ok H. ok H. ok H. ok H. injection H as <-. split; [exact I|].
  exact (gives_optional _ _ _ _ _ (gives_dict _ _ gives_token) E1).
Qed.
Lemma gives_document : gives read well_formed.
Proof.
  intros y a H. unfold read in H.
  ok H. ok H. ok H. ok H. ok H. ok H. ok H. ok H. ok H. ok H. ok H. ok H. ok H. ok H. ok H. injection H as <-.
  unfold well_formed, document_all. cbn [d_config mc_modules mc_slices mc_models mc_base mc_params d_tok_source d_tokenizer].
  split; [exact (gives_optional _ _ _ _ _ (gives_dict _ _ gives_omodule) E0)|].
  split; [exact (gives_optional _ _ _ _ _ (gives_list _ _ gives_oslice) E1)|].
  split; [exact (gives_optional _ _ _ _ _ (gives_list _ _ gives_imodel) E2)|].
  split; [apply on_True|]. split; [exact (gives_params _ _ E11)|]. split; [apply on_True|].
  split; [exact (gives_optional _ _ _ _ _ gives_tokenizer E8)|].
  split; [cbn [d_config] in E12; now destruct v12|].
  unfold validate_tokenizer in E13. cbn [d_tok_source d_tokenizer] in E13. destruct v7, v8; auto; discriminate.
Qed.
