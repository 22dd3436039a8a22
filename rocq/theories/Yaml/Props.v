(** * C88: a configuration that is written out is read back unchanged *)
From Coq Require Import Lia Permutation QArith Sorting.Sorted.
From Verif.Base Require Import Py PyFacts.
From Verif.Common Require Import Model Spec Props.
From Verif.Config Require Import Model.
From Verif.Arch Require Import Model.
From Verif.Tokenizer Require Import Model.
From Verif.Plan Require Import Model Spec Props.
From Verif.Recorded Require Import Model Spec Props.
From Verif.Yaml Require Import Model Spec Proofs RoundTrip PlanProofs Stable.
Local Open Scope string_scope.
Local Open Scope list_scope.

(** What is written is read back, with every dictionary in the order of its keys. *)
Theorem C88_round_trip d : writable d -> read (to_yaml d) = Ok (document_by_key d).
Proof. intros H. apply read_reads. now apply document_inv. Qed.

(** Putting a dictionary in the order of its keys changes neither its entries nor what is found under a key. *)
Theorem C88_by_key (V : Type) (d : dict string V) :
  Permutation (by_key d) d /\ ordered (by_key d) /\ (forall k, dget (by_key d) k = dget d k) /\ (ordered d -> by_key d = d).
Proof. split; [apply by_key_perm|]. split; [apply by_key_ordered|]. split; [apply by_key_dget|apply ordered_by_key]. Qed.

(** Written and read again, nothing changes any more: the same text and the same configuration. *)
Theorem C88_stable d d' : writable d -> read (to_yaml d) = Ok d' -> to_yaml d' = to_yaml d /\ read (to_yaml d') = Ok d'.
Proof.
  intros H E. rewrite (C88_round_trip d H) in E. injection E as <-.
  assert (T : to_yaml (document_by_key d) = to_yaml d) by apply document_alike. split; [exact T|]. rewrite T. now apply C88_round_trip.
Qed.

(** The order in which a file gives the entries of its mappings only decides the order of the dictionaries. *)
Theorem C88_order y d : read y = Ok d -> read (ysort y) = Ok (document_by_key d).
Proof. apply read_reads. Qed.

(** Whatever is read is well-formed: parameter settings are numbers, gradients or conditional ones, one of models, slices and
    modules is given, and one of tokenizer and tokenizer_source at most. It is written faithfully when its models are. *)
Theorem C88_well_formed y d : read y = Ok d -> well_formed d.
Proof. apply gives_document. Qed.

(** A reference is read back as written exactly if it is [writable_ref]; one given as a string is, unless it has an empty
    revision, and so is one with an architecture. *)
Theorem C88_references r : read_ref (dump_ref r) = Ok r <-> writable_ref r.
Proof.
  split; [|apply ref_inv]. intros H. apply C23_dump_then_validate. unfold dump_ref in H. destruct (serialize r) as [s|r'] eqn:E; [exact H|].
  unfold serialize in E. destruct (mr_arch r); [now injection E as <-|]. destruct (_ || _); [now injection E as <-|discriminate].
Qed.
Theorem C88_given_as_string s r : read_ref (YStr s) = Ok r -> ~ empty_revision (mr_model r) -> (forall l, mr_lora r = Some l -> ~ empty_revision l) ->
  writable_ref r.
Proof.
  intros H H1 H2. cbn in H. left. apply C23_print_then_parse. now rewrite (proj2 (C23_parse_then_print s r H) (conj H1 H2)).
Qed.

(** The merge described is the same. The tensors to be saved are the same, computed by the same tasks; unless modules are
    given they even come in the same order. The output configuration is the same. *)
Theorem C88_same_merge {HM : Eqb model_ref} (W : world model_ref) d d' : writable d -> read (to_yaml d) = Ok d' ->
  (forall referenced, model_out_config W (d_config d') referenced = model_out_config W (d_config d) referenced) /\
  (forall out saves, plan_to_disk W (d_config d) out = Ok saves -> exists saves',
     plan_to_disk W (d_config d') out = Ok saves' /\ Permutation saves' saves /\ (mc_modules (d_config d) = None -> saves' = saves)).
Proof.
  intros H E. rewrite (C88_round_trip d H) in E. injection E as <-. cbn [document_by_key d_config].
  split; [intros r; apply model_out_by_key|]. intros out saves Hp. unfold plan_to_disk in *. ok Hp. injection Hp as <-.
  destruct (plan_by_key W _ _ _ E) as (ts & -> & P & Q). cbn [rbind]. eexists. split; [reflexivity|]. cbn [config_by_key mc_out_dtype].
  split; [now apply Permutation_map, Permutation_sym|]. intros N. now rewrite (Q N).
Qed.

(** With C87: merging with the configuration a merge left behind, as read from its text, saves the same tensors. *)
Theorem C88_from_the_record {HM : Eqb model_ref} (W : world model_ref) c c' d d' referenced referenced' base out saves :
  NoDup (dkeys (w_arch W)) -> w_arch W <> [] -> keys_apart (w_arch W) -> (forall nm md, In (nm, md) (w_arch W) -> counted_by_key md) ->
  validate_config c = Ok tt -> (forall nm x, In (nm, x) (opt_list (mc_modules c)) -> validate_module x = Ok tt) ->
  Permutation referenced (referenced_models c) -> based c referenced base -> based c referenced' base -> models_have c base ->
  recorded W c = Ok c' -> model_out_config W c referenced = Ok out -> plan_to_disk W c out = Ok saves ->
  d_config d = c' -> writable d -> read (to_yaml d) = Ok d' ->
  model_out_config W (d_config d') referenced' = Ok out /\
  exists saves', plan_to_disk W (d_config d') out = Ok saves' /\ Permutation saves' saves.
Proof.
  intros H1 H2 H3 H4 H5 H6 H7 H8 H9 H10 H11 H12 H13 E Hw Hr.
  destruct (C87_rerun W c c' referenced referenced' base out saves H1 H2 H3 H4 H5 H6 H7 H8 H9 H10 H11 H12 H13) as (R1 & R2 & _).
  destruct (C88_same_merge W d d' Hw Hr) as (S1 & S2). rewrite S1, E. split; [exact R1|]. rewrite E in S2. destruct (S2 out saves R2) as (s' & P1 & P2 & _). eauto.
Qed.

(** * What is not read back *)
Definition ex_doc (tokens : option (dict string token_config)) : document :=
  {| d_config := {| mc_modules := None; mc_slices := None; mc_models := Some [{| im_model := mk_ref "org/a" None; im_params := None |}];
                    mc_base := None; mc_params := None; mc_dtype := None; mc_out_dtype := None |};
     d_method := "linear"; d_tok_source := None; d_tokenizer := Some {| tk_source := TUnion; tk_tokens := tokens; tk_pad := None |}; d_chat := None |}.
Definition ex_new : token_config := {| te_source := Some EZero; te_force := false |}.
Definition ex_base : tok := {| t_vocab := [("a", 0%Z)]; t_added := []; t_size := 1 |}.
Definition ids (d : document) : dict string Z :=
  match d_tokenizer d with
  | Some t => t_vocab (ti_tok (build_tokenizer "A" ex_base [] (fun _ => None) ["A"] SrcUnion (dkeys (opt_list (tk_tokens t)))))
  | None => []
  end.
(** Tokens to be added get their ids in the order the dictionary gives them, and that order is lost: read back, the same
    configuration numbers the new tokens differently. *)
Theorem C88_token_order_refuted : exists d d', writable d /\ read (to_yaml d) = Ok d' /\
  dget (ids d) "<user>" = Some 1%Z /\ dget (ids d') "<user>" = Some 2%Z /\ dget (ids d') "<bot>" = Some 1%Z.
Proof.
  set (d := ex_doc (Some [("<user>", ex_new); ("<bot>", ex_new)])).
  assert (Hw : writable d).
  { split; [exact I|]. split; [exact I|]. split; [constructor; [split; [left; repeat split; reflexivity|exact I]|constructor]|].
    split; [exact I|]. split; [exact I|]. split; [exact I|]. split; [split; [exact I|constructor; [exact I|constructor; [exact I|constructor]]]|]. split; [reflexivity|now left]. }
  exists d. eexists. split; [exact Hw|]. split; [exact (C88_round_trip d Hw)|]. repeat split; reflexivity.
Qed.
(** A local model called union, given by its fields, becomes the union of all tokenizers. *)
Theorem C88_model_called_union_refuted : exists y m, read_tok_source y = Ok (TModel m) /\ read_tok_source (dump_tok_source (TModel m)) = Ok TUnion.
Proof. exists (YMap [("model", YStr "union")]), (mk_ref "union" None). split; reflexivity. Qed.
(** An empty revision, or a plus sign in a path given by its fields, changes the model. *)
Theorem C88_reference_refuted :
  (exists r r', read_ref (YStr "org/a@") = Ok r /\ read_ref (dump_ref r) = Ok r' /\ r' <> r) /\
  (exists y r r', read_ref y = Ok r /\ mr_lora r = None /\ read_ref (dump_ref r) = Ok r' /\ mr_lora r' <> None).
Proof.
  split.
  - exists (mk_ref "org/a" (Some "")), (mk_ref "org/a" None). split; [reflexivity|]. split; [reflexivity|discriminate].
  - exists (YMap [("model", YMap [("path", YStr "a+b")])]), (mk_ref "a+b" None). eexists. split; [reflexivity|]. split; [reflexivity|]. split; [reflexivity|discriminate].
Qed.

(** * A concrete configuration *)
Definition ex_full : document :=
  {| d_config :=
       {| mc_modules := None;
          mc_slices := Some [{| os_sources := [{| is_model := mk_ref "org/a" (Some "v2"); is_start := 0; is_end := 4; is_params := Some [("weight", PList [PNum 0; PNum 1])] |};
                                               {| is_model := {| mr_model := {| mp_path := "b"; mp_revision := None |}; mr_lora := Some {| mp_path := "c"; mp_revision := None |}; mr_arch := Some "Arch" |};
                                                  is_start := 0; is_end := 4;
                                                  is_params := Some [("weight", PList [PCond (PNum (1 # 2)) (Some "mlp"); PCond (PList [PNum 1]) None])] |}];
                                os_base := None; os_params := None |}];
          mc_models := None; mc_base := Some (mk_ref "my model" None); mc_params := Some [("normalize", PNum 1); ("lambda", PCond (PNum 2) None)]; mc_dtype := Some "float32"; mc_out_dtype := None |};
     d_method := "ties"; d_tok_source := None;
     d_tokenizer := Some {| tk_source := TModel (mk_ref "org/a" None);
                            tk_tokens := Some [("<z>", {| te_source := Some (EToken (mk_ref "org/a" None) (Some 5%Z) None); te_force := true |}); ("<b>", {| te_source := None; te_force := false |})]; tk_pad := Some 8%Z |};
     d_chat := Some "auto" |}.
Ltac plain_r := left; repeat split; (reflexivity || discriminate).
Example C88_nonvacuous : writable ex_full /\ document_by_key ex_full <> ex_full /\
  exists y d, read y = Ok d /\ mc_models (d_config d) <> None /\ mc_params (d_config d) = Some [("weight", PNum 1); ("t", PList [PNum 0; PNum (1 # 2)])].
Proof.
  split; [|split].
  - split; [exact I|]. split.
    { constructor; [|constructor]. split; [|split; exact I]. constructor; [|constructor; [|constructor]].
      - split; [plain_r|]. constructor; [|constructor]. left. right. eexists. split; [reflexivity|]. repeat constructor; now eexists.
      - split; [right; left; discriminate|]. constructor; [|constructor]. right. right. eexists. split; [reflexivity|]. constructor; [|constructor; [|constructor]].
        + eexists _, _. split; [reflexivity|]. left. now eexists.
        + eexists _, _. split; [reflexivity|]. right. eexists. split; [reflexivity|]. repeat constructor. now eexists. }
    split; [exact I|]. split; [right; right; right; intros H; discriminate H|]. split.
    { constructor; [left; left; now eexists|]. constructor; [|constructor]. right. left. eexists _, _. split; [reflexivity|]. left. now eexists. }
    split; [exact I|]. split.
    { split; [split; [plain_r|split; discriminate]|]. constructor; [|constructor; [exact I|constructor]]. split; [plain_r|]. left. now eexists. }
    split; [reflexivity|now left].
  - discriminate.
  - exists (YMap [("merge_method", YStr "slerp"); ("models", YList [YMap [("model", YStr "org/a")]]); ("unknown", YNull);
                  ("parameters", YMap [("weight", YInt 1); ("t", YList [YBool false; YFloat (1 # 2)])])]).
    eexists. split; [reflexivity|]. split; [discriminate|reflexivity].
Qed.

Print Assumptions C88_round_trip.
Print Assumptions C88_by_key.
Print Assumptions C88_stable.
Print Assumptions C88_order.
Print Assumptions C88_well_formed.
Print Assumptions C88_references.
Print Assumptions C88_given_as_string.
Print Assumptions C88_same_merge.
Print Assumptions C88_from_the_record.
Print Assumptions C88_token_order_refuted.
Print Assumptions C88_model_called_union_refuted.
Print Assumptions C88_reference_refuted.
