(** Lemmas for C88. *)
From Coq Require Import QArith Permutation Sorting.Sorted.
From Verif.Base Require Import Py PyFacts.
From Verif.Common Require Import Model Spec Props.
From Verif.Config Require Import Model.
From Verif.Yaml Require Import Model Spec.
Local Open Scope string_scope.
Local Open Scope list_scope.

(** * Sorting a dictionary *)
Lemma leb_total (a b : string) : String.leb a b = false -> String.leb b a = true.
Proof. unfold String.leb. rewrite (String.compare_antisym a b). destruct (String.compare b a); cbn; congruence. Qed.
Lemma compare_refl (a : string) : String.compare a a = Eq.
Proof. pose proof (String.compare_antisym a a) as H. destruct (String.compare a a); cbn in H; congruence. Qed.
Lemma leb_refl (a : string) : String.leb a a = true.
Proof. unfold String.leb. now rewrite compare_refl. Qed.
Lemma insert_dget {V} k v (d : list (string * V)) j : dget (insert k v d) j = if eqb j k then Some v else dget d j.
Proof.
  induction d as [|[k' v'] d IH]; [reflexivity|]. cbn [insert].
  destruct (String.leb k k') eqn:L; cbn [dget]; [reflexivity|]. rewrite IH.
  destruct (eqb_spec j k) as [E|N]; [|reflexivity].
  destruct (eqb_spec j k') as [E'|N']; [|reflexivity].
  rewrite <- E, <- E', leb_refl in L. discriminate.
Qed.
Lemma by_key_dget {V} (d : list (string * V)) j : dget (by_key d) j = dget d j.
Proof. induction d as [|[k v] d IH]; [reflexivity|]. cbn [by_key]. rewrite insert_dget. cbn. now rewrite IH. Qed.
Lemma insert_perm {V} k v (d : list (string * V)) : Permutation (insert k v d) ((k, v) :: d).
Proof.
  induction d as [|[k' v'] d IH]; cbn; [constructor; constructor|]. destruct (String.leb k k'); [reflexivity|].
  rewrite IH. constructor.
Qed.
Lemma by_key_perm {V} (d : list (string * V)) : Permutation (by_key d) d.
Proof. induction d as [|[k v] d IH]; cbn; [constructor|]. rewrite insert_perm. now constructor. Qed.
Lemma insert_map {V W} (f : V -> W) k v d :
  insert k (f v) (map (fun kv => (fst kv, f (snd kv))) d) = map (fun kv => (fst kv, f (snd kv))) (insert k v d).
Proof. induction d as [|[k' v'] d IH]; cbn; [reflexivity|]. destruct (String.leb k k'); cbn; [reflexivity|]. now rewrite IH. Qed.
Lemma by_key_map {V W} (f : V -> W) d : by_key (map (fun kv => (fst kv, f (snd kv))) d) = map (fun kv => (fst kv, f (snd kv))) (by_key d).
Proof. induction d as [|[k v] d IH]; [reflexivity|]. cbn [map by_key fst snd]. now rewrite IH, insert_map. Qed.

(** ** in order *)
Lemma insert_ordered {V} k v (d : list (string * V)) : ordered d -> ordered (insert k v d).
Proof.
  unfold ordered, dkeys. induction d as [|[k' v'] d IH]; intros H; cbn; [repeat constructor|].
  destruct (String.leb k k') eqn:L; cbn.
  - constructor; [exact H|]. now constructor.
  - cbn in H. inversion H as [|? ? H1 H2]; subst. constructor; [now apply IH|].
    destruct d as [|[k2 v2] d]; cbn; [constructor; now apply leb_total|].
    destruct (String.leb k k2); cbn; constructor; [now apply leb_total|]. now inversion H2.
Qed.
Lemma by_key_ordered {V} (d : list (string * V)) : ordered (by_key d).
Proof. induction d as [|[k v] d IH]; [constructor|]. now apply insert_ordered. Qed.
Lemma insert_head {V} k v (d : list (string * V)) : ordered ((k, v) :: d) -> insert k v d = (k, v) :: d.
Proof.
  intros H. destruct d as [|[k' v'] d]; [reflexivity|]. inversion H as [|? ? H1 H2]; subst. inversion H2 as [|? ? H3]; subst.
  cbn. now rewrite H3.
Qed.
Lemma ordered_by_key {V} (d : list (string * V)) : ordered d -> by_key d = d.
Proof.
  induction d as [|[k v] d IH]; intros H; [reflexivity|]. cbn [by_key]. rewrite IH; [now apply insert_head|].
  now inversion H.
Qed.
Lemma by_key_idem {V} (d : list (string * V)) : by_key (by_key d) = by_key d.
Proof. apply ordered_by_key, by_key_ordered. Qed.

(** * Reading does not depend on the order of the fields *)
Definition yfields (d : list (string * yval)) : list (string * yval) := by_key (map (fun kv => (fst kv, ysort (snd kv))) d).
Lemma yfields_dget d k : dget (yfields d) k = option_map ysort (dget d k).
Proof.
  unfold yfields. rewrite by_key_dget. induction d as [|[k' v] d IH]; [reflexivity|]. cbn [map dget fst snd].
  destruct (eqb k k'); [reflexivity|exact IH].
Qed.
Lemma ysort_map d : ysort (YMap d) = YMap (yfields d).
Proof. reflexivity. Qed.

(** [rd] reads the sorted value to the sorted result *)
Definition reads {A} (rd : yval -> result A) (f : A -> A) : Prop := forall y a, rd y = Ok a -> rd (ysort y) = Ok (f a).
Definition same {A} (rd : yval -> result A) : Prop := forall y, rd (ysort y) = rd y.
Lemma same_reads {A} (rd : yval -> result A) : same rd -> reads rd (fun a => a).
Proof. intros H y a E. now rewrite H. Qed.

Lemma bindR_Ok {A B} (x : result A) (f : A -> result B) b : (let! a := x in f a) = Ok b -> exists a, x = Ok a /\ f a = Ok b.
Proof. destruct x; cbn; [eauto|discriminate]. Qed.
Ltac ok H :=
  let a := fresh "v" in let E := fresh "E" in
  apply bindR_Ok in H; destruct H as (a & E & H).

Lemma required_same {A} (rd : yval -> result A) d k : same rd ->
  (let! y := required (yfields d) k in rd y) = (let! y := required d k in rd y).
Proof. intros S. unfold required. rewrite yfields_dget. destruct (dget d k); cbn; [apply S|reflexivity]. Qed.
Lemma required_ok {A} (rd : yval -> result A) f d k y a : reads rd f -> required d k = Ok y -> rd y = Ok a ->
  required (yfields d) k = Ok (ysort y) /\ rd (ysort y) = Ok (f a).
Proof.
  intros S H1 H2. split; [|now apply S]. unfold required in *. rewrite yfields_dget. destruct (dget d k); [|discriminate].
  injection H1 as ->. reflexivity.
Qed.
Lemma optional_same {A} (rd : yval -> result A) d k : same rd -> optional rd (yfields d) k = optional rd d k.
Proof.
  intros S. unfold optional. rewrite yfields_dget. destruct (dget d k) as [y|]; [|reflexivity]. cbn.
  pose proof (S y) as E. destruct y; cbn [ysort] in *; try reflexivity; now rewrite E.
Qed.
Lemma optional_ok {A} (rd : yval -> result A) f d k o : reads rd f -> optional rd d k = Ok o ->
  optional rd (yfields d) k = Ok (option_map f o).
Proof.
  intros S. unfold optional. rewrite yfields_dget. destruct (dget d k) as [y|]; [|cbn; intros H; injection H as <-; reflexivity].
  cbn. pose proof (S y) as E.
  destruct y; cbn [ysort] in *; intros H; try (injection H as <-; reflexivity);
    ok H; injection H as <-; rewrite (E _ E0); reflexivity.
Qed.
Lemma defaulted_same {A} (rd : yval -> result A) x d k : same rd -> defaulted rd x (yfields d) k = defaulted rd x d k.
Proof. intros S. unfold defaulted. rewrite yfields_dget. destruct (dget d k); [apply S|reflexivity]. Qed.
Lemma rmapM_map {A B C} (f : B -> result C) (g : A -> B) l : rmapM f (map g l) = rmapM (fun a => f (g a)) l.
Proof. induction l as [|a l IH]; [reflexivity|]. cbn. now rewrite IH. Qed.
Lemma rmapM_ext' {A B} (f g : A -> result B) l : (forall a, f a = g a) -> rmapM f l = rmapM g l.
Proof. intros H. induction l as [|a l IH]; [reflexivity|]. cbn. now rewrite H, IH. Qed.
Lemma list_same {A} (rd : yval -> result A) : same rd -> same (read_list rd).
Proof. intros S [| | | | |l|d]; try reflexivity. cbn. rewrite rmapM_map. now apply rmapM_ext'. Qed.
Lemma rmapM_reads {A B} (f g : A -> result B) h l r : (forall a b, f a = Ok b -> g a = Ok (h b)) -> rmapM f l = Ok r ->
  rmapM g l = Ok (map h r).
Proof.
  intros H. revert r. induction l as [|a l IH]; intros r E; cbn in *; [injection E as <-; reflexivity|].
  ok E. ok E. injection E as <-. rewrite (H _ _ E0), (IH _ E1). reflexivity.
Qed.
Lemma list_reads {A} (rd : yval -> result A) f : reads rd f -> reads (read_list rd) (map f).
Proof.
  intros S [| | | | |l|d] r H; try discriminate. cbn in *. rewrite rmapM_map. exact (rmapM_reads rd _ f l r (fun a b => S a b) H).
Qed.
Definition entry {A} (rd : yval -> result A) (kv : string * yval) : result (string * A) := let! v := rd (snd kv) in Ok (fst kv, v).
Lemma rmapM_insert {A} (rd : yval -> result A) k y v d r : rd y = Ok v -> rmapM (entry rd) d = Ok r ->
  rmapM (entry rd) (insert k y d) = Ok (insert k v r).
Proof.
  intros H. revert r. induction d as [|[k' y'] d IH]; intros r E; cbn in E.
  - injection E as <-. cbn. unfold entry; cbn. now rewrite H.
  - ok E. ok E. injection E as <-. unfold entry in E0; cbn in E0. ok E0. injection E0 as <-. cbn.
    destruct (String.leb k k'); cbn; unfold entry at 1; cbn.
    + rewrite H. cbn. unfold entry at 1; cbn. rewrite E; cbn. now rewrite E1.
    + rewrite E; cbn. now rewrite (IH _ E1).
Qed.
Lemma rmapM_by_key {A} (rd : yval -> result A) d r : rmapM (entry rd) d = Ok r -> rmapM (entry rd) (by_key d) = Ok (by_key r).
Proof.
  revert r. induction d as [|[k y] d IH]; intros r E; cbn in E; [injection E as <-; reflexivity|].
  ok E. ok E. injection E as <-. unfold entry in E0; cbn in E0. ok E0. injection E0 as <-. cbn.
  apply rmapM_insert; auto.
Qed.
Lemma dict_reads {A} (rd : yval -> result A) f : reads rd f -> reads (read_dict rd) (fun d => by_key (values f d)).
Proof.
  intros S [| | | | |l|d] r H; try discriminate. unfold read_dict in *. cbn [as_map rbind] in H. rewrite ysort_map. cbn [as_map rbind].
  apply (rmapM_by_key rd). rewrite rmapM_map. cbn [fst snd].
  apply (rmapM_reads (entry rd) _ (fun kv => (fst kv, f (snd kv)))); [|exact H].
  intros [k y] [k' v] E. unfold entry in *. cbn in *. ok E. injection E as <- <-. now rewrite (S _ _ E0).
Qed.

(** ** the readers *)
Lemma str_same : same read_str.
Proof. intros []; reflexivity. Qed.
Lemma int_same : same read_int.
Proof. intros []; reflexivity. Qed.
Lemma num_same : same read_num.
Proof. intros []; reflexivity. Qed.
Lemma bool_same : same read_bool.
Proof. intros []; reflexivity. Qed.
Ltac req := match goal with |- context [required (yfields ?d) ?k] => unfold required at 1; rewrite (yfields_dget d k); unfold required; destruct (dget d k); cbn [option_map rbind]; [|reflexivity] end.
Lemma path_same : same read_path.
Proof.
  intros [| | | | |l|d]; try reflexivity. rewrite ysort_map. cbn [read_path as_map rbind]. req. rewrite str_same.
  now rewrite (optional_same read_str d "revision" str_same).
Qed.
Lemma ref_same : same read_ref.
Proof.
  intros [| | | | |l|d]; try reflexivity. rewrite ysort_map. cbn [read_ref as_map rbind]. req. rewrite path_same.
  now rewrite (optional_same read_path d "lora" path_same), (optional_same read_str d _ str_same).
Qed.
Lemma gradient_same : same read_gradient.
Proof. intros [| | | | |l|d]; try reflexivity. cbn [ysort read_gradient]. pose proof (list_same _ num_same (YList l)) as H. cbn [ysort] in H. now rewrite H. Qed.
Lemma cond_same : same read_cond.
Proof.
  intros [| | | | |l|d]; try reflexivity. rewrite ysort_map. unfold read_cond. cbn [as_map rbind]. req. rewrite gradient_same.
  now rewrite (optional_same read_str d _ str_same).
Qed.
Lemma setting_same : same read_setting.
Proof.
  intros [| | | | |l|d]; try reflexivity.
  - pose proof (gradient_same (YList l)) as H. cbn [ysort] in *. cbn [read_setting]. rewrite rmapM_map, (rmapM_ext' _ read_cond l cond_same).
    now rewrite H.
  - pose proof (cond_same (YMap d)) as H. exact H.
Qed.
Lemma values_id {A} (d : dict string A) : values (fun a => a) d = d.
Proof. unfold values. induction d as [|[k v] d IH]; cbn; [reflexivity|]. now rewrite IH. Qed.
Lemma params_ok d p : read_params d = Ok p -> read_params (yfields d) = Ok (params_by_key p).
Proof.
  unfold read_params. intros H. rewrite (optional_ok _ _ _ _ _ (dict_reads _ _ (same_reads _ setting_same)) H).
  unfold params_by_key. destruct p as [p|]; [|reflexivity]. cbn. now rewrite values_id.
Qed.
Lemma range_same : same read_range.
Proof. intros y. unfold read_range. now rewrite (list_same _ int_same). Qed.
Ltac reqs H :=
  match type of H with
  | (let! m := required ?d ?k in let! x := ?rd m in _) = Ok _ => idtac
  end.
Lemma req_same {A} (rd : yval -> result A) d k y : same rd -> required d k = Ok y ->
  exists y', required (yfields d) k = Ok y' /\ rd y' = rd y.
Proof.
  intros S H. unfold required in *. rewrite yfields_dget. destruct (dget d k); [|discriminate]. injection H as ->. cbn.
  exists (ysort y). split; [reflexivity|apply S].
Qed.
Lemma islice_reads : reads read_islice islice_by_key.
Proof.
  intros [| | | | |l|d] a H; try discriminate. rewrite ysort_map. unfold read_islice in *. cbn [as_map rbind] in *.
  ok H. ok H. ok H. ok H. ok H. injection H as <-.
  destruct (req_same read_ref _ _ _ ref_same E) as (y1 & -> & R1). cbn [rbind]. rewrite R1, E0. cbn [rbind].
  destruct (req_same read_range _ _ _ range_same E1) as (y2 & -> & R2). cbn [rbind]. rewrite R2, E2. cbn [rbind].
  rewrite (params_ok _ _ E3). reflexivity.
Qed.
Lemma imodel_reads : reads read_imodel imodel_by_key.
Proof.
  intros [| | | | |l|d] a H; try discriminate. rewrite ysort_map. unfold read_imodel in *. cbn [as_map rbind] in *.
  ok H. ok H. ok H. injection H as <-.
  destruct (req_same read_ref _ _ _ ref_same E) as (y1 & -> & R1). cbn [rbind]. rewrite R1, E0. cbn [rbind].
  rewrite (params_ok _ _ E1). reflexivity.
Qed.
Lemma oslice_reads : reads read_oslice oslice_by_key.
Proof.
  intros [| | | | |l|d] a H; try discriminate. rewrite ysort_map. unfold read_oslice in *. cbn [as_map rbind] in *.
  ok H. ok H. ok H. ok H. injection H as <-.
  destruct (required_ok _ _ _ _ _ _ (list_reads _ _ islice_reads) E E0) as [-> R1]. cbn [rbind]. rewrite R1. cbn [rbind].
  rewrite (optional_same read_ref d _ ref_same), E1. cbn [rbind]. rewrite (params_ok _ _ E2). reflexivity.
Qed.
Lemma omodule_valid_by_key m : validate_module (omodule_by_key m) = validate_module m.
Proof. destruct m as [[[|s sl]|] [[|x im]|] p]; reflexivity. Qed.
Lemma omodule_reads : reads read_omodule omodule_by_key.
Proof.
  intros [| | | | |l|d] a H; try discriminate. rewrite ysort_map. unfold read_omodule in *. cbn [as_map rbind] in *.
  ok H. ok H. ok H. ok H. injection H as <-.
  rewrite (optional_ok _ _ _ _ _ (list_reads _ _ oslice_reads) E). cbn [rbind].
  rewrite (optional_ok _ _ _ _ _ (list_reads _ _ imodel_reads) E0). cbn [rbind].
  rewrite (params_ok _ _ E1). cbn [rbind].
  pose proof (omodule_valid_by_key {| om_slices := v; om_models := v0; om_params := v1 |}) as V. unfold omodule_by_key in V at 1.
  cbn [om_slices om_models om_params] in V. rewrite V, E2. reflexivity.
Qed.
Lemma tok_source_same : same read_tok_source.
Proof. intros y. pose proof (ref_same y) as H. destruct y; try reflexivity; cbn [ysort read_tok_source] in *; now rewrite H. Qed.
Lemma has_kind_same d k : has_kind (yfields d) k = has_kind d k.
Proof. unfold has_kind. rewrite yfields_dget. destruct (dget d "kind") as [[]|]; reflexivity. Qed.
Lemma model_token_same d : read_model_token (yfields d) = read_model_token d.
Proof.
  unfold read_model_token. rewrite has_kind_same. destruct (has_kind d "model_token"); [|reflexivity]. req. rewrite ref_same.
  now rewrite (optional_same read_int d _ int_same), (optional_same read_str d _ str_same).
Qed.
Lemma token_source_same : same read_token_source.
Proof.
  intros y. pose proof (ref_same y) as H. destruct y; try reflexivity. rewrite ysort_map in *. cbn [read_token_source].
  now rewrite model_token_same, has_kind_same, H.
Qed.
Lemma token_same : same read_token.
Proof.
  intros [| | | | |l|d]; try reflexivity. rewrite ysort_map. unfold read_token. cbn [as_map rbind].
  now rewrite (optional_same _ d _ token_source_same), (defaulted_same _ _ d _ bool_same).
Qed.
Lemma tokenizer_reads : reads read_tokenizer tokenizer_by_key.
Proof.
  intros [| | | | |l|d] a H; try discriminate. rewrite ysort_map. unfold read_tokenizer in *. cbn [as_map rbind] in *.
  ok H. ok H. ok H. injection H as <-.
  rewrite (defaulted_same _ _ d _ tok_source_same), E. cbn [rbind].
  rewrite (optional_ok _ _ _ _ _ (dict_reads _ _ (same_reads _ token_same)) E0). cbn [rbind].
  rewrite (optional_same _ d _ int_same), E1. cbn [rbind]. unfold tokenizer_by_key. cbn. f_equal. f_equal.
  destruct v0; [|reflexivity]. cbn. now rewrite values_id.
Qed.
Lemma by_key_nil {V} (d : list (string * V)) : by_key d = [] -> d = [].
Proof. intros H. apply Permutation_nil. rewrite <- H. apply by_key_perm. Qed.
Lemma config_valid_by_key c : validate_config (config_by_key c) = validate_config c.
Proof.
  destruct c as [[ms|] sl im b p dt od]; cbv [config_by_key validate_config mc_modules mc_slices mc_models option_map].
  - destruct ms as [|[k m] ms]; [now destruct sl as [[]|], im as [[]|]|].
    destruct (by_key (values omodule_by_key ((k, m) :: ms))) eqn:E; [now apply by_key_nil in E|].
    now destruct sl as [[]|], im as [[]|].
  - now destruct sl as [[]|], im as [[]|].
Qed.
Lemma read_reads : reads read document_by_key.
Proof.
  intros [| | | | |l|d] a H; try discriminate. rewrite ysort_map. unfold read in *. cbn [as_map rbind] in *.
  ok H. ok H. ok H. ok H. ok H. ok H. ok H. ok H. ok H. ok H. ok H. ok H. ok H. ok H. injection H as <-.
  rewrite (optional_ok _ _ _ _ _ (dict_reads _ _ omodule_reads) E). cbn [rbind].
  rewrite (optional_ok _ _ _ _ _ (list_reads _ _ oslice_reads) E0). cbn [rbind].
  rewrite (optional_ok _ _ _ _ _ (list_reads _ _ imodel_reads) E1). cbn [rbind].
  destruct (req_same read_str _ _ _ str_same E2) as (y2 & -> & R2). cbn [rbind]. rewrite R2, E3. cbn [rbind].
  rewrite (optional_same _ d _ ref_same), E4. cbn [rbind].
  rewrite (optional_same _ d "dtype" str_same), E5. cbn [rbind].
  rewrite (optional_same _ d _ tok_source_same), E6. cbn [rbind].
  rewrite (optional_ok _ _ _ _ _ tokenizer_reads E7). cbn [rbind].
  rewrite (optional_same _ d "chat_template" str_same), E8. cbn [rbind].
  rewrite (optional_same _ d "out_dtype" str_same), E9. cbn [rbind].
  rewrite (params_ok _ _ E10). cbn [rbind]. cbv zeta. cbn [d_config].
  pose proof (config_valid_by_key {| mc_modules := v; mc_slices := v0; mc_models := v1; mc_base := v4; mc_params := v10; mc_dtype := v5; mc_out_dtype := v9 |}) as V.
  match goal with |- rbind (validate_config ?c) _ = _ => assert (VV : validate_config c = Ok v11) by exact (eq_trans V E11) end.
  rewrite VV. cbn [rbind].
  unfold validate_tokenizer in *. cbn [d_tok_source d_tokenizer] in *. destruct v6, v7; try discriminate E12; reflexivity.
Qed.

(** * Reading what was dumped *)
Definition field_list (l : list (string * option yval)) : list (string * yval) :=
  flat_map (fun kv => match snd kv with Some y => [(fst kv, y)] | None => [] end) l.
Definition inv {A} (dump : A -> yval) (rd : yval -> result A) (P : A -> Prop) : Prop := forall a, P a -> rd (dump a) = Ok a.
Definition solid {A} (dump : A -> yval) : Prop := forall a, dump a <> YNull.
Lemma field_dget l k : NoDup (dkeys l) -> dget (field_list l) k = match dget l k with Some o => o | None => None end.
Proof.
  induction l as [|[k' o] l IH]; [reflexivity|]. unfold dkeys. cbn [map fst]. intros N. inversion N as [|? ? N1 N2]; subst.
  unfold field_list. cbn [flat_map fst snd]. fold (field_list l). cbn [dget].
  destruct (eqb_spec k k') as [->|D].
  - destruct o; cbn [app dget]; [now rewrite eqb_refl|]. rewrite (IH N2). destruct (dget l k') eqn:G; [|reflexivity].
    exfalso. apply N1. apply dget_Some_key. now exists o.
  - destruct o; cbn [app dget]; [|now apply IH]. destruct (eqb_spec k k'); [contradiction|now apply IH].
Qed.
