(** Writing again what was read back. *)
From Coq Require Import QArith Permutation.
From Verif.Base Require Import Py PyFacts.
From Verif.Common Require Import Model.
From Verif.Config Require Import Model.
From Verif.Yaml Require Import Model Spec Proofs.
Local Open Scope string_scope.
Local Open Scope list_scope.

Definition alike {A} (dump : A -> yval) (f : A -> A) : Prop := forall a, ysort (dump (f a)) = ysort (dump a).
Lemma alike_id {A} (dump : A -> yval) : alike dump (fun a => a).
Proof. intros a. reflexivity. Qed.
Definition entry_alike (a b : string * option yval) : Prop := fst a = fst b /\ option_map ysort (snd a) = option_map ysort (snd b).
Lemma entry_id a : entry_alike a a.
Proof. now split. Qed.
Lemma fields_alike l l' : Forall2 entry_alike l l' -> ysort (fields l) = ysort (fields l').
Proof.
  intros F. unfold fields. cbn [ysort]. f_equal. f_equal. induction F as [|[k o] [k' o'] l l' [E1 E2] F IH]; [reflexivity|].
  cbn in E1, E2. subst k'. cbn [flat_map fst snd]. rewrite !map_app, IH. f_equal. destruct o, o'; try discriminate; [|reflexivity].
  injection E2 as E2. cbn. now rewrite E2.
Qed.
Lemma list_alike {A} (dump : A -> yval) f : alike dump f -> alike (dump_list dump) (map f).
Proof. intros H l. cbn. rewrite !map_map. f_equal. apply map_ext. exact H. Qed.
Lemma dict_alike {A} (dump : A -> yval) f : alike dump f -> alike (dump_dict dump) (fun d => by_key (values f d)).
Proof.
  intros H d. unfold dump_dict, values. cbn [ysort]. f_equal. rewrite <- by_key_map, <- by_key_map, by_key_idem, !map_map. cbn [fst snd]. f_equal.
  apply map_ext. intros [k a]. cbn [fst snd]. now rewrite H.
Qed.
Lemma option_alike {A} (dump : A -> yval) f k o : alike dump f -> entry_alike (k, option_map dump (option_map f o)) (k, option_map dump o).
Proof. intros H. split; [reflexivity|]. destruct o; [|reflexivity]. cbn. now rewrite H. Qed.
Lemma some_alike {A} (dump : A -> yval) f k a : alike dump f -> entry_alike (k, Some (dump (f a))) (k, Some (dump a)).
Proof. intros H. split; [reflexivity|]. cbn. now rewrite H. Qed.
Lemma params_alike k p : entry_alike (k, dump_params (params_by_key p)) (k, dump_params p).
Proof.
  pose proof (option_alike (dump_dict dump_setting) (fun d => by_key (values (fun a => a) d)) k p (dict_alike _ _ (alike_id _))) as H.
  unfold params_by_key, dump_params. destruct p as [d|]; [|apply entry_id]. cbn in *. now rewrite values_id in H.
Qed.
Ltac each := repeat (constructor; [first [apply entry_id|apply params_alike|idtac]|]); try apply Forall2_nil.
Lemma islice_alike : alike dump_islice islice_by_key.
Proof. intros s. apply fields_alike. each. Qed.
Lemma imodel_alike : alike dump_imodel imodel_by_key.
Proof. intros s. apply fields_alike. each. Qed.
Lemma oslice_alike : alike dump_oslice oslice_by_key.
Proof.
  intros s. apply fields_alike. constructor; [|each]. apply (some_alike (dump_list dump_islice) (map islice_by_key)), list_alike, islice_alike.
Qed.
Lemma omodule_alike : alike dump_omodule omodule_by_key.
Proof.
  intros s. apply fields_alike. constructor; [apply option_alike, list_alike, oslice_alike|]. constructor; [apply option_alike, list_alike, imodel_alike|]. each.
Qed.
Lemma tokenizer_alike : alike dump_tokenizer tokenizer_by_key.
Proof.
  intros t. apply fields_alike. constructor; [apply entry_id|]. constructor; [|each].
  pose proof (option_alike (dump_dict dump_token) (fun d => by_key (values (fun a => a) d)) "tokens" (tk_tokens t) (dict_alike _ _ (alike_id _))) as H.
  cbn [tokenizer_by_key tk_tokens]. destruct (tk_tokens t) as [d|]; [|apply entry_id]. cbn in *. now rewrite values_id in H.
Qed.
Lemma document_alike : alike dump document_by_key.
Proof.
  intros d. apply fields_alike. cbn [document_by_key d_config config_by_key mc_modules mc_slices mc_models mc_base mc_params mc_dtype mc_out_dtype d_method d_tok_source d_tokenizer d_chat].
  constructor; [apply (option_alike _ (fun d => by_key (values omodule_by_key d))), dict_alike, omodule_alike|].
  constructor; [apply option_alike, list_alike, oslice_alike|]. constructor; [apply option_alike, list_alike, imodel_alike|].
  do 4 (constructor; [apply entry_id|]). constructor; [apply option_alike, tokenizer_alike|]. each.
Qed.
