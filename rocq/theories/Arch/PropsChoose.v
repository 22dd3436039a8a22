(** C78: the architecture definition a merge works with. *)
From Coq Require Import Permutation.
From Verif.Base Require Import Py PyFacts PyStr.
From Verif.Arch Require Import Model Spec Proofs Data ShippedProofs Choose Table ChooseProofs.
Local Open Scope string_scope.
Local Open Scope list_scope.

(** ** Looking up a definition *)
(** a table in which two definitions of the same architecture name have different model types *)
Definition clear_table (t : list architecture) : Prop :=
  NoDup t /\ (forall a, In a t -> NoDup (ar_names a)) /\
  (forall a b n, In a t -> In b t -> In n (ar_names a) -> In n (ar_names b) -> ar_type a = ar_type b -> a = b).
Definition made_by_hand (n : string) : Prop := n = "AfmoeForCausalLM" \/ n = "Glm4MoeForCausalLM".

(** A model gets the definition of its architecture name: the only one there is, whatever its model type, or the one of its
    model type among several. It gets none when there is no such definition, and nothing else can happen. *)
Theorem C78_lookup t c n : clear_table t -> hc_names c = Some [n] -> ~ made_by_hand n ->
  exists o, arch_info_for_config t c = Ok o /\
  forall a, o = Some a <-> In a t /\ In n (ar_names a) /\
              ((forall b, In b t -> In n (ar_names b) -> b = a) \/ ar_type a = hc_type c).
Proof.
  intros (Ht & Hn & Hu) Hc Hh. unfold arch_info_for_config. rewrite Hc.
  destruct (eqb_spec n "AfmoeForCausalLM") as [->|_]; [elim Hh; now left|]. destruct (eqb_spec n "Glm4MoeForCausalLM") as [->|_]; [elim Hh; now right|].
  rewrite (lookup_candidates t n Hn).
  assert (Hu' : forall a b, declares t n a -> declares t n b -> ar_type a = ar_type b -> a = b) by (intros a b [H1 H2] [H3 H4]; now apply (Hu a b n)).
  pose proof (pick_spec t n (hc_type c) Ht Hu') as Hp. exists (pick (candidates t n) (hc_type c)). split.
  { destruct (candidates t n) as [|a [|b l]]; reflexivity. }
  assert (E : forall a, (In a t /\ In n (ar_names a) /\ ((forall b, In b t -> In n (ar_names b) -> b = a) \/ ar_type a = hc_type c)) <-> chosen t n (hc_type c) a).
  { intros a. unfold chosen, declares. split; [intros (H1 & H2 & [H|H])|intros [[H1 H2] [H|H]]]; (split; [auto|]); auto; try (left; intros b []; auto). }
  intros a. rewrite E. destruct (pick (candidates t n) (hc_type c)) as [x|].
  - split; [intros [= <-]; exact Hp|]. intros Ha. f_equal. exact (chosen_unique _ _ _ _ _ Hu' Hp Ha).
  - split; [discriminate|]. intros Ha. elim (Hp a Ha).
Qed.

(** The shipped definitions are such a table. *)
Definition no_conflict (a b : architecture) : bool :=
  negb (existsb (fun n => mem n (ar_names b)) (ar_names a)) || negb (eqb (ar_type a) (ar_type b)).
Lemma pairwise_In {A} (r : A -> A -> bool) l x y : pairwise r l = true -> In x l -> In y l -> x = y \/ r x y = true \/ r y x = true.
Proof.
  induction l as [|z l IH]; cbn [pairwise In]; [tauto|]. intros H. apply andb_true_iff in H as [H1 H2]. rewrite forallb_forall in H1.
  intros [->|Hx] [->|Hy]; auto.
Qed.
Lemma pairwise_irrefl {A} (r : A -> A -> bool) l : pairwise r l = true -> (forall x, In x l -> r x x = false) -> NoDup l.
Proof.
  induction l as [|z l IH]; cbn [pairwise]; [constructor|]. intros H Hr. apply andb_true_iff in H as [H1 H2]. rewrite forallb_forall in H1.
  constructor; [|apply IH; auto; intros x Hx; apply Hr; now right]. intros Hz. specialize (H1 z Hz). rewrite Hr in H1 by now left. discriminate.
Qed.
Lemma no_conflict_neq a b n : In n (ar_names a) -> In n (ar_names b) -> ar_type a = ar_type b -> no_conflict a b = false.
Proof.
  intros Ha Hb E. unfold no_conflict. rewrite E, eqb_refl. cbn [negb]. rewrite orb_false_r. apply negb_false_iff, existsb_exists. exists n. split; [exact Ha|now apply mem_In].
Qed.
Lemma table_pairs : pairwise no_conflict table = true.
Proof. vm_compute. reflexivity. Qed.
Lemma table_names : forallb (fun a => match ar_names a with [] => false | l => Nat.eqb (List.length (dedup l)) (List.length l) end) table = true.
Proof. vm_compute. reflexivity. Qed.
Lemma dedup_length {A} `{Eqb A} (l : list A) : List.length (dedup l) = List.length l -> NoDup l.
Proof.
  intros E. apply (@NoDup_incl_NoDup _ (dedup l) l); [apply dedup_NoDup|rewrite E; apply le_n|]. intros x Hx. exact (proj1 (dedup_In l x) Hx).
Qed.
Theorem C78_table_clear t : Permutation t table -> clear_table t.
Proof.
  intros Hp.
  assert (HI : forall a, In a t -> In a table) by (intros a; apply Permutation_in, Hp).
  pose proof table_names as Hn. rewrite forallb_forall in Hn.
  split; [|split].
  - apply (Permutation_NoDup (Permutation_sym Hp)). apply (pairwise_irrefl no_conflict); [exact table_pairs|]. intros a Ha. specialize (Hn a Ha).
    destruct (ar_names a) as [|n l] eqn:E; [discriminate|]. apply (no_conflict_neq a a n); [rewrite E; now left..|reflexivity].
  - intros a Ha. specialize (Hn a (HI a Ha)). destruct (ar_names a) as [|n l]; [discriminate|]. apply Nat.eqb_eq in Hn. now apply dedup_length.
  - intros a b n Ha Hb Hna Hnb E. destruct (pairwise_In _ _ a b table_pairs (HI a Ha) (HI b Hb)) as [H|[H|H]]; [exact H|..].
    + rewrite (no_conflict_neq a b n) in H by auto. discriminate.
    + rewrite (no_conflict_neq b a n) in H by auto. discriminate.
Qed.
(** So the order in which the directory lists the files does not matter, for any model. *)
Theorem C78_any_directory_order t c : Permutation t table -> arch_info_for_config t c = arch_info_for_config table c.
Proof.
  intros Hp. destruct (hc_names c) as [[|n [|m l]]|] eqn:Hc; [unfold arch_info_for_config; now rewrite Hc| |unfold arch_info_for_config; now rewrite Hc..].
  assert (Hd : made_by_hand n \/ ~ made_by_hand n).
  { unfold made_by_hand. destruct (eqb_spec n "AfmoeForCausalLM"); [auto|]. destruct (eqb_spec n "Glm4MoeForCausalLM"); [auto|]. right. tauto. }
  destruct Hd as [Hh|Hh].
  - unfold arch_info_for_config. rewrite Hc. destruct Hh as [-> | ->]; reflexivity.
  - destruct (C78_lookup t c n (C78_table_clear t Hp) Hc Hh) as (o & -> & Ho).
    destruct (C78_lookup table c n (C78_table_clear table (Permutation_refl _)) Hc Hh) as (o' & -> & Ho'). f_equal.
    assert (E : forall a, o = Some a <-> o' = Some a).
    { intros a. rewrite Ho, Ho'.
      assert (HI : forall x, In x t <-> In x table) by (intros x; split; apply Permutation_in; [exact Hp|now symmetry]).
      split; intros (H1 & H2 & H3); repeat split; auto; try (now apply HI); (destruct H3 as [H3|H3]; [left|now right]); intros b Hb; apply H3; now apply HI. }
    destruct o as [a|]; [symmetry; now apply E|]. destruct o' as [a|]; [|reflexivity]. now apply E.
Qed.
(** The hand-made definitions find the JSON files they build on, in any order of the directory. *)
Theorem C78_partial_definitions t : Permutation t table ->
  dget (name_to_arch t) "_AfmoePartialForCausalLM" = Some [f_afmoe_partial] /\ dget (name_to_arch t) "Glm4MoeForCausalLM" = Some [f_glm4moe].
Proof.
  intros Hp. destruct (C78_table_clear t Hp) as (_ & Hn & _). rewrite !(lookup_candidates t _ Hn). unfold candidates.
  assert (Hf : forall n l, filter (fun a => mem n (ar_names a)) table = [l] -> filter (fun a => mem n (ar_names a)) t = [l]).
  { intros n l E. apply Permutation_length_1_inv. rewrite <- E. symmetry. clear -Hp. induction Hp; cbn [filter].
    - constructor.
    - destruct (mem n (ar_names x)); [now constructor|assumption].
    - destruct (mem n (ar_names x)), (mem n (ar_names y)); try constructor; reflexivity.
    - etransitivity; eassumption. }
  rewrite (Hf "_AfmoePartialForCausalLM" f_afmoe_partial), (Hf "Glm4MoeForCausalLM" f_glm4moe) by (vm_compute; reflexivity). split; reflexivity.
Qed.

Definition phi (mt : string) : model_config := {| hc_names := Some ["PhiForCausalLM"]; hc_type := mt; hc_fields := CVObj [] |}.
(** the one name that two files share *)
Example C78_lookup_nonvacuous :
  arch_info_for_config table (phi "phi") = Ok (Some f_phi2) /\ arch_info_for_config table (phi "phi-msft") = Ok (Some f_phi2_old) /\
  arch_info_for_config table (phi "other") = Ok None /\ ~ made_by_hand "PhiForCausalLM" /\ Permutation (rev table) table.
Proof.
  split; [vm_compute; reflexivity|]. split; [vm_compute; reflexivity|]. split; [vm_compute; reflexivity|].
  split; [intros [H|H]; discriminate|symmetry; apply Permutation_rev].
Qed.

(** ** Agreement *)
(** Without --allow-crimes a declared definition is used exactly when it is that of every model, and models without a
    definition make it inferred; nothing depends on the order of the models. *)
Theorem C78_agreement t models a : models <> [] ->
  get_architecture_info t models false = Ok (Declared a) <-> (forall m, In m models -> arch_info_for_config t m = Ok (Some a)).
Proof.
  intros Hne. unfold get_architecture_info. destruct models as [|m0 models]; [contradiction|]. cbn [negb andb].
  destruct (rmapM (arch_info_for_config t) (m0 :: models)) as [infos|e] eqn:E; cbn [rbind].
  2: { split; [discriminate|]. intros H. assert (Hok : exists l, rmapM (arch_info_for_config t) (m0 :: models) = Ok l).
       { clear E Hne. induction (m0 :: models) as [|m l IH]; cbn; [eauto|]. rewrite H by now left. cbn. destruct IH as (r & ->); [intros; apply H; now right|]. cbn. eauto. }
       destruct Hok as (l & Hl). congruence. }
  apply rmapM_Ok_Forall2 in E. destruct (declared infos) as [l|] eqn:D.
  - apply declared_Some in D. subst infos. destruct l as [|a0 l]; [inversion E|].
    destruct (existsb _ (a0 :: l)) eqn:Ex.
    + split; [discriminate|]. intros H. exfalso. apply existsb_exists in Ex as (b & Hb & Hs). apply negb_true_iff in Hs.
      assert (Ha : forall b, In b (a0 :: l) -> b = a).
      { intros x Hx. apply (in_map Some) in Hx. destruct (Forall2_In_r' _ _ _ _ E Hx) as (m & Hm & Em). rewrite (H m Hm) in Em. congruence. }
      rewrite (Ha b Hb), (Ha a0 (or_introl eq_refl)) in Hs. assert (same_arch a a = true) by now apply same_arch_true. congruence.
    + assert (Hall : forall b, In b (a0 :: l) -> b = a0).
      { intros b Hb. destruct (same_arch b a0) eqn:Hs; [now apply same_arch_true|]. assert (existsb (fun a => negb (same_arch a a0)) (a0 :: l) = true) by (apply existsb_exists; exists b; rewrite Hs; auto). congruence. }
      split.
      * intros [= <-] m Hm. destruct (Forall2_In_l' _ _ _ _ E Hm) as (o & Ho & ->). apply in_map_iff in Ho as (b & <- & Hb). now rewrite (Hall b Hb).
      * intros H. inversion E as [|? ? ? ? E1 _]; subst. rewrite (H m0 (or_introl eq_refl)) in E1. congruence.
  - apply declared_None in D. split; [discriminate|]. intros H. destruct (Forall2_In_r' _ _ _ _ E D) as (m & Hm & Em). rewrite (H m Hm) in Em. discriminate.
Qed.
Theorem C78_inferred t models crimes : models <> [] ->
  get_architecture_info t models crimes = Ok Inferred <->
  (forall m, In m models -> exists o, arch_info_for_config t m = Ok o) /\ (exists m, In m models /\ arch_info_for_config t m = Ok None).
Proof.
  intros Hne. unfold get_architecture_info. destruct models as [|m0 models]; [contradiction|].
  destruct (rmapM (arch_info_for_config t) (m0 :: models)) as [infos|e] eqn:E; cbn [rbind].
  2: { split; [discriminate|]. intros [H _]. assert (Hok : exists l, rmapM (arch_info_for_config t) (m0 :: models) = Ok l).
       { clear E Hne. induction (m0 :: models) as [|m l IH]; cbn; [eauto|]. destruct (H m (or_introl eq_refl)) as (o & ->). cbn. destruct IH as (r & ->); [intros; apply H; now right|]. cbn. eauto. }
       destruct Hok as (l & Hl). congruence. }
  apply rmapM_Ok_Forall2 in E.
  assert (Hall : forall m, In m (m0 :: models) -> exists o, arch_info_for_config t m = Ok o).
  { intros m Hm. destruct (Forall2_In_l' _ _ _ _ E Hm) as (o & _ & Ho). eauto. }
  destruct (declared infos) as [l|] eqn:D.
  - apply declared_Some in D. subst infos. destruct l as [|a0 l]; [inversion E|]. split.
    + destruct (negb crimes && _); discriminate.
    + intros [_ (m & Hm & Em)]. destruct (Forall2_In_l' _ _ _ _ E Hm) as (o & Ho & Eo). apply in_map_iff in Ho as (b & <- & _). congruence.
  - apply declared_None in D. destruct (Forall2_In_r' _ _ _ _ E D) as (m & Hm & Em). split; [eauto|reflexivity].
Qed.
Theorem C78_no_models t crimes : get_architecture_info t [] crimes = Err ValueError.
Proof. reflexivity. Qed.
Theorem C78_any_model_order t models models' x : Permutation models models' ->
  get_architecture_info t models false = Ok x -> get_architecture_info t models' false = Ok x.
Proof.
  intros Hp Hx. assert (Hne : models <> []) by (intros ->; discriminate). assert (Hne' : models' <> []) by (intros ->; now apply Permutation_sym, Permutation_nil in Hp).
  assert (HI : forall m, In m models' -> In m models) by (intros m; apply Permutation_in; now symmetry).
  destruct x as [a|].
  - apply C78_agreement; [exact Hne'|]. intros m Hm. exact (proj1 (C78_agreement t models a Hne) Hx m (HI m Hm)).
  - apply C78_inferred; [exact Hne'|]. apply C78_inferred in Hx as [H1 (m & Hm & Em)]; [|exact Hne]. split; [auto|]. exists m. split; [now apply (Permutation_in _ Hp)|exact Em].
Qed.
(** With --allow-crimes the definition is that of the first model. *)
Theorem C78_crimes t m0 models a :
  get_architecture_info t (m0 :: models) true = Ok (Declared a) <->
  arch_info_for_config t m0 = Ok (Some a) /\ (forall m, In m models -> exists b, arch_info_for_config t m = Ok (Some b)).
Proof.
  unfold get_architecture_info. cbn [negb andb].
  destruct (rmapM (arch_info_for_config t) (m0 :: models)) as [infos|e] eqn:E; cbn [rbind].
  2: { split; [discriminate|]. intros [H0 H]. assert (Hok : exists l, rmapM (arch_info_for_config t) (m0 :: models) = Ok l).
       { assert (H' : forall m, In m (m0 :: models) -> exists b, arch_info_for_config t m = Ok (Some b)) by (intros m [<-|Hm]; eauto).
         clear -H'. induction (m0 :: models) as [|m l IH]; cbn; [eauto|]. destruct (H' m (or_introl eq_refl)) as (o & ->). cbn. destruct IH as (r & ->); [intros; apply H'; now right|]. cbn. eauto. }
       destruct Hok as (l & Hl). congruence. }
  apply rmapM_Ok_Forall2 in E. destruct (declared infos) as [l|] eqn:D.
  - apply declared_Some in D. subst infos. destruct l as [|a0 l]; [inversion E|]. cbn [map] in E. inversion E as [|? ? ? ? E1 E2]; subst. rewrite E1. split.
    + intros [= ->]. split; [reflexivity|]. intros m Hm. destruct (Forall2_In_l' _ _ _ _ E2 Hm) as (o & Ho & Eo). apply in_map_iff in Ho as (b & <- & _). eauto.
    + intros [[= ->] _]. reflexivity.
  - apply declared_None in D. split; [discriminate|]. intros [H0 H]. destruct (Forall2_In_r' _ _ _ _ E D) as (m & [<-|Hm] & Em); [congruence|]. destruct (H m Hm) as (b & Hb). congruence.
Qed.

(** A mixture-of-experts model gets a definition for as many experts as its configuration says, and none when it does not say. *)
Definition experts_key (n : string) : string := if eqb n "AfmoeForCausalLM" then "num_experts" else "n_routed_experts".
Definition for_experts (n : string) (e : Z) : architecture :=
  if eqb n "AfmoeForCausalLM" then single_module (MAfmoe e) n "afmoe" else single_module (MGlm4 e) n "glm4_moe".
Theorem C78_expert_models t c n o : hc_names c = Some [n] -> made_by_hand n ->
  (arch_info_for_config t c = Ok o <-> exists e, attr (hc_fields c) (experts_key n) = Some (CVInt e) /\ o = Some (for_experts n e)) /\
  (arch_info_for_config t c = Err AttributeError <-> attr (hc_fields c) (experts_key n) = None).
Proof.
  intros Hc Hn. unfold arch_info_for_config, for_experts, experts_key, experts_of. rewrite Hc.
  destruct Hn as [-> | ->]; cbn [eqb].
  - replace (eqb "AfmoeForCausalLM" "AfmoeForCausalLM") with true by reflexivity.
    destruct (attr (hc_fields c) "num_experts") as [[]|]; cbn [rbind]; split; split; intros H; try discriminate; try (destruct H as (e & He & ->); first [discriminate He|injection He as ->; reflexivity]); try reflexivity.
    injection H as <-. eauto.
  - replace (eqb "Glm4MoeForCausalLM" "AfmoeForCausalLM") with false by reflexivity. replace (eqb "Glm4MoeForCausalLM" "Glm4MoeForCausalLM") with true by reflexivity.
    destruct (attr (hc_fields c) "n_routed_experts") as [[]|]; cbn [rbind]; split; split; intros H; try discriminate; try (destruct H as (e & He & ->); first [discriminate He|injection He as ->; reflexivity]); try reflexivity.
    injection H as <-. eauto.
Qed.

(** Expert models agree only when they have the same number of experts. *)
Definition afmoe (experts : Z) (rest : dict string cfgval) : model_config :=
  {| hc_names := Some ["AfmoeForCausalLM"]; hc_type := "afmoe"; hc_fields := CVObj (("num_experts", CVInt experts) :: rest) |}.
Definition glm4 (experts : Z) (rest : dict string cfgval) : model_config :=
  {| hc_names := Some ["Glm4MoeForCausalLM"]; hc_type := "glm4_moe"; hc_fields := CVObj (("n_routed_experts", CVInt experts) :: rest) |}.
Example C78_expert_models_nonvacuous t :
  hc_names (afmoe 8 []) = Some ["AfmoeForCausalLM"] /\ made_by_hand "AfmoeForCausalLM" /\
  arch_info_for_config t (afmoe 8 []) = Ok (Some (for_experts "AfmoeForCausalLM" 8)).
Proof. split; [reflexivity|]. split; [now left|]. reflexivity. Qed.
Theorem C78_expert_counts t n n' rest rest' :
  (get_architecture_info t [afmoe n rest; afmoe n' rest'] false = (if (n =? n')%Z then Ok (Declared (single_module (MAfmoe n) "AfmoeForCausalLM" "afmoe")) else Err RuntimeError)) /\
  (get_architecture_info t [glm4 n rest; glm4 n' rest'] false = (if (n =? n')%Z then Ok (Declared (single_module (MGlm4 n) "Glm4MoeForCausalLM" "glm4_moe")) else Err RuntimeError)).
Proof.
  assert (Ha : forall n rest, arch_info_for_config t (afmoe n rest) = Ok (Some (single_module (MAfmoe n) "AfmoeForCausalLM" "afmoe"))) by reflexivity.
  assert (Hg : forall n rest, arch_info_for_config t (glm4 n rest) = Ok (Some (single_module (MGlm4 n) "Glm4MoeForCausalLM" "glm4_moe"))) by reflexivity.
  split; unfold get_architecture_info; cbn [rmapM]; rewrite ?Ha, ?Hg; cbn [rbind declared negb andb existsb].
  all: match goal with |- context [same_arch ?x ?x] => rewrite (proj2 (same_arch_true x x) eq_refl) end; cbn [negb orb]; rewrite orb_false_r.
  all: destruct (Z.eqb_spec n n') as [->|Hne];
       [match goal with |- context [same_arch ?x ?x] => rewrite (proj2 (same_arch_true x x) eq_refl) end; reflexivity|].
  all: match goal with |- context [same_arch ?x ?y] => destruct (same_arch x y) eqn:E end; [|reflexivity]; apply same_arch_true in E; injection E as E; congruence.
Qed.

(** ** Whole models *)
(** What the mixture-of-experts definitions consist of, layer by layer; [true] marks what may be missing. *)
Definition named (i : Z) (l : list (string * bool)) : list weight_info :=
  map (fun x => {| wi_name := ("model.layers." ++ str_of_Z i ++ fst x)%string; wi_embed := false; wi_optional := snd x;
                   wi_aliases := None; wi_dtype := None; wi_tied := None |}) l.
Definition glm4_attention : list (string * bool) :=
  [(".post_attention_layernorm.weight", false); (".self_attn.q_norm.weight", true); (".self_attn.k_norm.weight", true);
   (".self_attn.q_proj.weight", false); (".self_attn.q_proj.bias", true); (".self_attn.k_proj.weight", false);
   (".self_attn.k_proj.bias", true); (".self_attn.v_proj.weight", false); (".self_attn.v_proj.bias", true);
   (".self_attn.o_proj.weight", false)].
Definition glm4_dense : list (string * bool) :=
  [(".input_layernorm.weight", false); (".mlp.down_proj.weight", false); (".mlp.gate_proj.weight", false); (".mlp.up_proj.weight", false)]
  ++ glm4_attention.
Definition glm4_sparse : list (string * bool) :=
  [(".mlp.experts.gate_up_proj", false); (".mlp.experts.down_proj", false); (".mlp.gate.weight", false); (".mlp.gate.e_score_correction_bias", false);
   (".mlp.shared_experts.gate_proj.weight", false); (".mlp.shared_experts.up_proj.weight", false); (".mlp.shared_experts.down_proj.weight", false);
   (".input_layernorm.weight", false)] ++ glm4_attention.
Definition afmoe_common : list (string * bool) :=
  [(".input_layernorm.weight", false); (".pre_mlp_layernorm.weight", false); (".mlp.down_proj.weight", true); (".mlp.gate_proj.weight", true);
   (".mlp.up_proj.weight", true); (".mlp.shared_experts.down_proj.weight", true); (".mlp.shared_experts.gate_proj.weight", true);
   (".mlp.shared_experts.up_proj.weight", true); (".mlp.expert_bias", true); (".mlp.router.gate.weight", true); (".post_mlp_layernorm.weight", false);
   (".self_attn.q_norm.weight", false); (".self_attn.q_proj.weight", false); (".self_attn.k_norm.weight", false); (".self_attn.k_proj.weight", false);
   (".self_attn.o_proj.weight", false); (".self_attn.v_proj.weight", false); (".self_attn.gate_proj.weight", false); (".post_attention_layernorm.weight", false)].
Definition afmoe_experts (n : Z) : list (string * bool) :=
  flat_map (fun e => [((".mlp.experts." ++ str_of_Z e ++ ".up_proj.weight")%string, true); ((".mlp.experts." ++ str_of_Z e ++ ".gate_proj.weight")%string, true);
                      ((".mlp.experts." ++ str_of_Z e ++ ".down_proj.weight")%string, true)]) (map Z.of_nat (seq 0 (Z.to_nat n))).
Definition embed : weight_info :=
  {| wi_name := "model.embed_tokens.weight"; wi_embed := true; wi_optional := false; wi_aliases := None; wi_dtype := None; wi_tied := None |}.
Definition norm_and_head : list weight_info :=
  [{| wi_name := "model.norm.weight"; wi_embed := false; wi_optional := false; wi_aliases := None; wi_dtype := None; wi_tied := None |};
   {| wi_name := "lm_head.weight"; wi_embed := true; wi_optional := true; wi_aliases := None; wi_dtype := None; wi_tied := Some ["model.embed_tokens.weight"] |}].
Definition in_order (n : Z) (layer : Z -> list weight_info) : list weight_info :=
  [embed] ++ concat (map layer (map Z.of_nat (seq 0 (Z.to_nat n)))) ++ norm_and_head.

Lemma num_layers_key a c n : ja_key a = Some "num_hidden_layers" -> ja_override a = None -> attr c "num_hidden_layers" = Some (CVInt n) ->
  ja_num a c = Ok n /\ base_num (ja_key a) c = Ok n.
Proof.
  intros H1 H2 H3. unfold ja_num, base_num. rewrite H1, H2. unfold get_config_value.
  change (split_on "."%char "num_hidden_layers") with ["num_hidden_layers"]. cbn [get_path]. rewrite H3. split; reflexivity.
Qed.
Lemma subst_plain a c n i w p r o : ja_num a c = Ok n -> w = {| wi_name := wi_name w; wi_embed := false; wi_optional := o; wi_aliases := None; wi_dtype := None; wi_tied := None |} ->
  form_of_template (wi_name w) = Some (FIdx p true r) ->
  substitute a c (Some i) w =
  Ok {| wi_name := (p ++ str_of_Z i ++ r)%string; wi_embed := false; wi_optional := o; wi_aliases := None; wi_dtype := None; wi_tied := None |}.
Proof.
  intros Hn Hw Hf.
  assert (E : template_substitution (wi_name w) n (Some i) = Ok (p ++ str_of_Z i ++ r)%string).
  { unfold form_of_template in Hf. unfold template_substitution. destruct (infix "{" (wi_name w)); [|discriminate].
    destruct (form_of_render n (Some i) i _ _ _ Hf (fun _ => eq_refl)) as (s & E1 & E2). rewrite E1. cbn in E2. now rewrite E2. }
  unfold substitute. rewrite Hn. cbn [rbind]. rewrite E. rewrite Hw. reflexivity.
Qed.
Lemma glm4_json_layer i c n : ja_num glm4_moe c = Ok n -> ma_layer (json_module glm4_moe) i c = Ok (named i glm4_dense).
Proof.
  intros Hn. cbn [json_module ma_layer]. apply rmapM_Ok_Forall2. unfold named, glm4_dense, glm4_attention. cbn [glm4_moe a_glm4moe_default ja_layer map app fst snd].
  repeat (constructor; [apply (subst_plain _ _ n); [exact Hn|reflexivity|vm_compute; reflexivity]|]). constructor.
Qed.
Lemma afmoe_json_layer i c n : ja_num afmoe_partial c = Ok n -> ma_layer (json_module afmoe_partial) i c = Ok (named i afmoe_common).
Proof.
  intros Hn. cbn [json_module ma_layer]. apply rmapM_Ok_Forall2. unfold named, afmoe_common. cbn [afmoe_partial a_afmoe_partial_default ja_layer map app fst snd].
  repeat (constructor; [apply (subst_plain _ _ n); [exact Hn|reflexivity|vm_compute; reflexivity]|]). constructor.
Qed.
Lemma outer_weights a c n : (a = glm4_moe \/ a = afmoe_partial) -> ja_num a c = Ok n ->
  ma_pre (json_module a) c = Ok [embed] /\ ma_post (json_module a) c = Ok norm_and_head.
Proof. intros Ha Hn. cbn [json_module ma_pre ma_post]. unfold substitute. rewrite Hn. destruct Ha as [-> | ->]; split; reflexivity. Qed.
Lemma rmapM_all {A B} (f : A -> result B) g l : (forall x, In x l -> f x = Ok (g x)) -> rmapM f l = Ok (map g l).
Proof. induction l as [|x l IH]; intros H; cbn; [reflexivity|]. rewrite H by now left. cbn. rewrite IH by (intros; apply H; now right). reflexivity. Qed.

Lemma named_app i l l' : named i (l ++ l') = named i l ++ named i l'.
Proof. apply map_app. Qed.
Lemma filter_named i l : (0 <= i)%Z -> filter (fun w => negb (infix ".mlp." (wi_name w))) (named i l) = named i (filter (fun x => negb (infix ".mlp." (fst x))) l).
Proof.
  intros Hi. unfold named. induction l as [|x l IH]; [reflexivity|]. cbn [map filter wi_name].
  change ("model.layers." ++ str_of_Z i ++ fst x)%string with (layer_name i (fst x)). rewrite (infix_mlp i (fst x) Hi). rewrite IH.
  destruct (negb (infix ".mlp." (fst x))); reflexivity.
Qed.

(** The first layers of a GLM-4 model, up to [first_k_dense_replace], are dense and the others sparse. *)
Theorem C78_glm4_weights experts c n k :
  attr c "num_hidden_layers" = Some (CVInt n) -> attr c "first_k_dense_replace" = Some (CVInt k) ->
  all_weights (module_of (MGlm4 experts)) c = Ok (in_order n (fun i => named i (if (i <? k)%Z then glm4_dense else glm4_sparse))).
Proof.
  intros Hn Hk. destruct (num_layers_key glm4_moe c n eq_refl eq_refl Hn) as [Hj Hb].
  destruct (outer_weights glm4_moe c n (or_introl eq_refl) Hj) as [Hpre Hpost].
  unfold all_weights. cbn [module_of glm4_module ma_num ma_pre ma_post ma_layer]. rewrite Hb. cbn [rbind]. rewrite Hpre, Hpost. cbn [rbind].
  rewrite (rmapM_all _ (fun i => named i (if (i <? k)%Z then glm4_dense else glm4_sparse))); [reflexivity|].
  intros i Hi. apply layer_range_In in Hi. rewrite Hk. rewrite (glm4_json_layer i c n Hj). destruct (i <? k)%Z; [reflexivity|]. cbn [rbind]. f_equal.
  rewrite filter_named by lia.
  assert (Hp : forall l, map (fun s => plain_weight (layer_prefix i ++ s)%string false) l = named i (map (fun s => (s, false)) l)).
  { intros l. unfold named, plain_weight, layer_prefix. rewrite map_map. apply map_ext. intros s. cbn [fst snd]. now rewrite app_str_assoc. }
  rewrite !Hp, <- !named_app. f_equal.
Qed.
(** Every layer of an AFMoE model has the weights of all experts. *)
Theorem C78_afmoe_weights experts c n :
  attr c "num_hidden_layers" = Some (CVInt n) ->
  all_weights (module_of (MAfmoe experts)) c = Ok (in_order n (fun i => named i (afmoe_common ++ afmoe_experts experts))).
Proof.
  intros Hn. destruct (num_layers_key afmoe_partial c n eq_refl eq_refl Hn) as [Hj Hb].
  destruct (outer_weights afmoe_partial c n (or_intror eq_refl) Hj) as [Hpre Hpost].
  unfold all_weights. cbn [module_of afmoe_module ma_num ma_pre ma_post ma_layer]. rewrite Hb. cbn [rbind]. rewrite Hpre, Hpost. cbn [rbind].
  rewrite (rmapM_all _ (fun i => named i (afmoe_common ++ afmoe_experts experts))); [reflexivity|].
  intros i Hi. rewrite (afmoe_json_layer i c n Hj). cbn [rbind]. f_equal. unfold named. rewrite map_app. f_equal.
  unfold afmoe_experts, layer_range. induction (map Z.of_nat (seq 0 (Z.to_nat experts))) as [|e l IH]; [reflexivity|].
  cbn [flat_map]. rewrite IH, map_app. reflexivity.
Qed.

Lemma Ok_inj {A} (x y : A) : Ok x = Ok y -> x = y.
Proof. congruence. Qed.
Lemma named_names i l : map wi_name (named i l) = map (layer_name i) (map fst l).
Proof. unfold named. rewrite !map_map. reflexivity. Qed.
Lemma in_order_NoDup n (f : Z -> list (string * bool)) :
  (forall i, (0 <= i < n)%Z -> NoDup (map fst (f i))) -> (forall i r, In r (map fst (f i)) -> stops r = true) ->
  NoDup (map wi_name (in_order n (fun i => named i (f i)))).
Proof.
  intros Hd Hs. unfold in_order. rewrite !map_app, concat_map, map_map.
  rewrite (map_ext _ (fun i => map (layer_name i) (map fst (f i)))) by (intros; apply named_names).
  apply (layered_NoDup _ _ n (fun i => map fst (f i))); auto.
  - cbn. repeat (constructor; [cbn; intuition discriminate|]). constructor.
  - intros s [<-|[<-|[<-|[]]]]; reflexivity.
Qed.
Ltac distinct := repeat (constructor; [cbn; intuition discriminate|]); constructor.
Lemma expert_rests n : NoDup (map fst (afmoe_experts n)) /\ (forall s, In s (map fst (afmoe_experts n)) -> String.prefix ".mlp.experts." s = true).
Proof.
  assert (HI : forall s, In s (map fst (afmoe_experts n)) <-> exists e p, (0 <= e < n)%Z /\ In p [".up_proj.weight"; ".gate_proj.weight"; ".down_proj.weight"] /\ s = (".mlp.experts." ++ str_of_Z e ++ p)%string).
  { intros s. unfold afmoe_experts. rewrite in_map_iff. split.
    - intros ([s' b] & <- & H). apply in_flat_map in H as (e & He & H). apply layer_range_In in He. exists e.
      destruct H as [H|[H|[H|[]]]]; injection H as <- <-; eexists; (split; [exact He|split; [|reflexivity]]); cbn; auto.
    - intros (e & p & He & Hp & ->). apply layer_range_In in He. exists ((".mlp.experts." ++ str_of_Z e ++ p)%string, true). split; [reflexivity|]. apply in_flat_map. exists e. split; [exact He|].
      destruct Hp as [<-|[<-|[<-|[]]]]; cbn; auto. }
  split.
  - unfold afmoe_experts. rewrite flat_map_concat_map, concat_map, map_map. apply NoDup_concat_map; [apply layer_range_NoDup|..].
    + intros e _. cbn [map fst]. repeat (constructor; [cbn [In]; intros H; repeat destruct H as [H|H]; try exact H; apply app_str_inj_l, app_str_inj_l in H; discriminate|]). constructor.
    + intros e e' b He He' Hne Hb Hb'. apply layer_range_In in He, He'. cbn [map fst In] in Hb, Hb'.
      destruct Hb as [<-|[<-|[<-|[]]]], Hb' as [E|[E|[E|[]]]]; apply app_str_inj_l, str_index_inj in E; try reflexivity; lia.
  - intros s Hs. apply HI in Hs as (e & p & _ & _ & ->). generalize (str_of_Z e ++ p)%string. intros x. now destruct x.
Qed.
Theorem C78_expert_names_distinct m c ws n : (exists e, m = MAfmoe e \/ m = MGlm4 e) -> attr c "num_hidden_layers" = Some (CVInt n) ->
  all_weights (module_of m) c = Ok ws -> NoDup (map wi_name ws).
Proof.
  intros (e & [->| ->]) Hn Hw.
  - rewrite (C78_afmoe_weights e c n Hn) in Hw. apply Ok_inj in Hw. rewrite <- Hw. clear Hw. destruct (expert_rests e) as [H1 H2].
    apply (in_order_NoDup n (fun _ => afmoe_common ++ afmoe_experts e)).
    + intros i _. rewrite map_app. apply NoDup_app_intro; [distinct|exact H1|]. intros b Hb Hb'. apply H2 in Hb'. cbn in Hb.
      repeat destruct Hb as [<-|Hb]; try discriminate. exact Hb.
    + intros i r Hr. rewrite map_app in Hr. apply in_app_iff in Hr as [Hr|Hr].
      * cbn in Hr. repeat destruct Hr as [<-|Hr]; try reflexivity. destruct Hr.
      * apply H2 in Hr. destruct r as [|x r]; [reflexivity|]. cbn [String.prefix] in Hr. destruct (Ascii.ascii_dec "." x) as [<-|]; [reflexivity|discriminate].
  - assert (Hk : exists k, attr c "first_k_dense_replace" = Some (CVInt k) \/ (n <= 0)%Z).
    { unfold all_weights in Hw. cbn [module_of glm4_module ma_num ma_pre ma_post ma_layer] in Hw.
      destruct (num_layers_key glm4_moe c n eq_refl eq_refl Hn) as [Hj Hb]. rewrite Hb in Hw. cbn [rbind] in Hw.
      destruct (outer_weights glm4_moe c n (or_introl eq_refl) Hj) as [-> _] in Hw. cbn [rbind] in Hw.
      destruct (Z.leb_spec n 0); [exists 0%Z; now right|]. destruct (rmapM _ (layer_range n)) as [wl|] eqn:Wl; [|discriminate].
      apply rmapM_Ok_Forall2 in Wl. assert (Hi : In 0%Z (layer_range n)) by (apply layer_range_In; lia).
      destruct (Forall2_In_l' _ _ _ _ Wl Hi) as (l & _ & El). cbn beta in El. destruct (attr c "first_k_dense_replace") as [[k| | | |]|]; try discriminate. eauto. }
    destruct Hk as (k & [Hk|Hk]).
    + rewrite (C78_glm4_weights e c n k Hn Hk) in Hw. apply Ok_inj in Hw. rewrite <- Hw. clear Hw. apply (in_order_NoDup n (fun i => if (i <? k)%Z then glm4_dense else glm4_sparse)).
      * intros i _. destruct (i <? k)%Z; distinct.
      * intros i r Hr. destruct (i <? k)%Z; cbn in Hr; repeat destruct Hr as [<-|Hr]; try reflexivity; destruct Hr.
    + destruct (num_layers_key glm4_moe c n eq_refl eq_refl Hn) as [Hj Hb].
      destruct (outer_weights glm4_moe c n (or_introl eq_refl) Hj) as [Hpre Hpost].
      unfold all_weights in Hw. cbn [module_of glm4_module ma_num ma_pre ma_post ma_layer] in Hw. rewrite Hb in Hw. cbn [rbind] in Hw. rewrite Hpre, Hpost in Hw. cbn [rbind] in Hw.
      replace (layer_range n) with (@nil Z) in Hw by (unfold layer_range; replace (Z.to_nat n) with 0 by lia; reflexivity). cbn in Hw. injection Hw as <-. cbn. distinct.
Qed.
Example C78_expert_names_nonvacuous :
  let c := CVObj [("num_hidden_layers", CVInt 3); ("first_k_dense_replace", CVInt 1)] in
  attr c "num_hidden_layers" = Some (CVInt 3) /\ attr c "first_k_dense_replace" = Some (CVInt 1) /\
  match all_weights (module_of (MGlm4 8)) c with Ok ws => List.length ws | Err _ => 0 end = 3 + 14 + 2 * 18 /\
  match all_weights (module_of (MAfmoe 8)) c with Ok ws => List.length ws | Err _ => 0 end = 3 + 3 * (19 + 24).
Proof.
  cbv zeta. split; [reflexivity|]. split; [reflexivity|].
  rewrite (C78_glm4_weights 8 _ 3 1), (C78_afmoe_weights 8 _ 3) by reflexivity. split; vm_compute; reflexivity.
Qed.

(** ** Whole models of the shipped files *)
(** the files whose projector repeats its names (C37) *)
Definition repeated : list string := ["qwen2_vl"; "qwen2_5_vl"].
Lemma files_checked :
  forallb (fun x => mem (fst x) repeated || match json_entries (snd x) with Some l => whole l | None => false end) files = true.
Proof. vm_compute. reflexivity. Qed.

(** No tensor name occurs twice among all modules of a model, whatever its numbers of layers. *)
Theorem C78_model_names_distinct f a c ws : In (f, a) files -> ~ In f repeated ->
  (forall k m n, In (k, m) (ar_modules a) -> ma_num (module_of (me_info m)) c = Ok n -> (0 <= n)%Z) ->
  model_weights a c = Ok ws -> NoDup (map wi_name ws).
Proof.
  intros Hin Hr Hn Hw. pose proof files_checked as H. rewrite forallb_forall in H. specialize (H _ Hin). cbn [fst snd] in H.
  apply orb_true_iff in H as [H|H]; [apply mem_In in H; contradiction|].
  destruct (json_entries a) as [l|] eqn:E; [|discriminate]. exact (model_weights_NoDup a l c ws E H Hn Hw).
Qed.
Lemma in_files a : In a table -> exists f, In (f, a) files.
Proof. unfold table. intros H. apply in_map_iff in H as ([f b] & <- & H). eauto. Qed.
Lemma repeated_files f a : In (f, a) files -> In f repeated -> a = f_qwen2_vl \/ a = f_qwen2_5_vl.
Proof.
  intros Hin Hf.
  assert (E : filter (fun x => mem (fst x) repeated) files = [("qwen2_5_vl", f_qwen2_5_vl); ("qwen2_vl", f_qwen2_vl)]) by (vm_compute; reflexivity).
  assert (Hx : In (f, a) (filter (fun x => mem (fst x) repeated) files)) by (apply filter_In; split; [exact Hin|now apply mem_In]).
  rewrite E in Hx. destruct Hx as [Hx|[Hx|[]]]; injection Hx as _ <-; auto.
Qed.
(** So whatever definition a model gets, its tensors are told apart by their names. *)
Theorem C78_chosen_names_distinct t cfg a ws : Permutation t table -> arch_info_for_config t cfg = Ok (Some a) ->
  a <> f_qwen2_vl -> a <> f_qwen2_5_vl ->
  (forall k m n, In (k, m) (ar_modules a) -> ma_num (module_of (me_info m)) (hc_fields cfg) = Ok n -> (0 <= n)%Z) ->
  model_weights a (hc_fields cfg) = Ok ws -> NoDup (map wi_name ws).
Proof.
  intros Hp Ha H1 H2 Hn Hw.
  assert (Hmoe : forall m name ty, (exists e, m = MAfmoe e \/ m = MGlm4 e) -> a = single_module m name ty -> NoDup (map wi_name ws)).
  { intros m name ty He ->. unfold model_weights in Hw. cbn [single_module ar_modules rmapM me_info me_prefix snd rbind] in Hw.
    destruct (all_weights (module_of m) (hc_fields cfg)) as [lw|] eqn:E; [|discriminate]. cbn [rbind concat] in Hw. apply Ok_inj in Hw. rewrite app_nil_r in Hw.
    assert (El : map (prefix_weight None) lw = lw) by (rewrite <- (map_id lw) at 2; now apply map_ext). rewrite El in Hw. subst lw.
    assert (Hx : exists n, attr (hc_fields cfg) "num_hidden_layers" = Some (CVInt n)).
    { assert (Hnum : exists n, base_num (Some "num_hidden_layers") (hc_fields cfg) = Ok n).
      { unfold all_weights in E. destruct He as (e & [-> | ->]); cbn [module_of afmoe_module glm4_module ma_num] in E;
        [change (ja_key afmoe_partial) with (Some "num_hidden_layers") in E|change (ja_key glm4_moe) with (Some "num_hidden_layers") in E];
        destruct (base_num (Some "num_hidden_layers") (hc_fields cfg)) as [n|]; try discriminate; eauto. }
      destruct Hnum as (n & Hnum). unfold base_num, get_config_value in Hnum. change (split_on "."%char "num_hidden_layers") with ["num_hidden_layers"] in Hnum. cbn [get_path] in Hnum.
      destruct (attr (hc_fields cfg) "num_hidden_layers") as [v|]; [|discriminate]. cbn [rbind] in Hnum. destruct v; try discriminate. eauto. }
    destruct Hx as (n & Hx). exact (C78_expert_names_distinct m _ _ n He Hx E). }
  unfold arch_info_for_config in Ha. destruct (hc_names cfg) as [[|n [|n' l]]|] eqn:Hc; try discriminate.
  destruct (eqb_spec n "AfmoeForCausalLM") as [E1|E1].
  { destruct (experts_of cfg "num_experts") as [e|]; [|discriminate]. cbn [rbind] in Ha. injection Ha as Ha. apply (Hmoe (MAfmoe e) n "afmoe"); [eauto|now symmetry]. }
  destruct (eqb_spec n "Glm4MoeForCausalLM") as [E2|E2].
  { destruct (experts_of cfg "n_routed_experts") as [e|]; [|discriminate]. cbn [rbind] in Ha. injection Ha as Ha. apply (Hmoe (MGlm4 e) n "glm4_moe"); [eauto|now symmetry]. }
  assert (Hh : ~ made_by_hand n) by (intros [H|H]; contradiction).
  destruct (C78_lookup t cfg n (C78_table_clear t Hp) Hc Hh) as (o & Eo & Ho). unfold arch_info_for_config in Eo. rewrite Hc in Eo.
  destruct (eqb_spec n "AfmoeForCausalLM"); [contradiction|]. destruct (eqb_spec n "Glm4MoeForCausalLM"); [contradiction|].
  rewrite Ha in Eo. injection Eo as Eo. symmetry in Eo. apply Ho in Eo as (Hin & _). apply (Permutation_in _ Hp), in_files in Hin as (f & Hf).
  apply (C78_model_names_distinct f a (hc_fields cfg) ws Hf); auto. intros Hr. destruct (repeated_files f a Hf Hr); contradiction.
Qed.

(** A weight that may be stored under the name of another one is optional, each of those names belongs to another weight of the
    model, and the first of them to one that every model has. *)
Lemma files_shared : forallb (fun x => eqb (fst x) "solar" || match json_entries (snd x) with Some l => shared_ok l | None => false end) files = true.
Proof. vm_compute. reflexivity. Qed.
Theorem C78_shared_weights f a c ws w ts : In (f, a) files -> f <> "solar" -> model_weights a c = Ok ws -> In w ws -> wi_tied w = Some ts ->
  wi_optional w = true /\
  (forall s, In s ts -> exists v, In v ws /\ wi_name v <> wi_name w /\ (s = wi_name v \/ exists l, wi_aliases v = Some l /\ In s l)) /\
  (exists s ts' v, ts = s :: ts' /\ In v ws /\ wi_name v <> wi_name w /\ (s = wi_name v \/ exists l, wi_aliases v = Some l /\ In s l) /\ wi_optional v = false).
Proof.
  intros Hin Hf Hm Hw Ht. pose proof files_shared as H. rewrite forallb_forall in H. specialize (H _ Hin). cbn [fst snd] in H.
  apply orb_true_iff in H as [H|H]; [apply eqb_iff in H; contradiction|]. destruct (json_entries a) as [l|] eqn:E; [|discriminate].
  assert (Hl : forall s v, In s (loading_names v) -> s = wi_name v \/ exists l, wi_aliases v = Some l /\ In s l).
  { intros s v Hs. unfold loading_names in Hs. destruct Hs as [<-|Hs]; [now left|]. destruct (wi_aliases v) as [al|]; [right; eauto|destruct Hs]. }
  destruct (shared_sound a l c ws w ts E H Hm Hw Ht) as (H1 & H2 & (s & ts' & v & H3 & H4 & H5 & H6 & H7)). split; [exact H1|]. split.
  - intros s' Hs. destruct (H2 s' Hs) as (v' & Hv & Hne & Hs'). exists v'. auto.
  - exists s, ts', v. auto 10.
Qed.
Definition t5_config : cfgval := CVObj [("num_decoder_layers", CVInt 2); ("num_hidden_layers", CVInt 3)].
Example C78_models_nonvacuous :
  In ("t5", f_t5) files /\ ~ In "t5" repeated /\
  (forall k m n, In (k, m) (ar_modules f_t5) -> ma_num (module_of (me_info m)) t5_config = Ok n -> (0 <= n)%Z) /\
  (exists ws w, model_weights f_t5 t5_config = Ok ws /\ List.length ws = 66 /\ In w ws /\
     wi_tied w = Some ["shared.weight"; "encoder.embed_tokens.weight"; "decoder.embed_tokens.weight"]).
Proof.
  split; [unfold files; cbn [In]; repeat ((left; reflexivity) || right)|]. split; [cbn; intros [H|[H|[]]]; discriminate|]. split.
  - intros k m n [H|[H|[H|[]]]] Hn; injection H as _ <-; vm_compute in Hn; injection Hn as <-; lia.
  - destruct (model_weights f_t5 t5_config) as [ws|] eqn:E; [|vm_compute in E; discriminate].
    exists ws, {| wi_name := "lm_head.weight"; wi_embed := true; wi_optional := true; wi_aliases := None; wi_dtype := None;
                  wi_tied := Some ["shared.weight"; "encoder.embed_tokens.weight"; "decoder.embed_tokens.weight"] |}.
    split; [reflexivity|]. vm_compute in E. apply Ok_inj in E. subst ws. split; [reflexivity|]. split; [|reflexivity]. cbn [In]. repeat ((left; reflexivity) || right).
Qed.

(** ** What is wrong *)
Definition llama : model_config := {| hc_names := Some ["LlamaForCausalLM"]; hc_type := "llama"; hc_fields := CVObj [] |}.
(** With --allow-crimes the definition depends on the order of the set of models, that is on the hash seed of the process. *)
Theorem C78_crimes_order_refuted :
  Permutation [llama; phi "phi"] [phi "phi"; llama] /\
  get_architecture_info table [llama; phi "phi"] true = Ok (Declared f_llama) /\
  get_architecture_info table [phi "phi"; llama] true = Ok (Declared f_phi2) /\ f_llama <> f_phi2.
Proof.
  split; [apply perm_swap|]. split; [vm_compute; reflexivity|]. split; [vm_compute; reflexivity|]. intros H. apply (f_equal ar_names) in H. discriminate.
Qed.
(** GLM-4 models whose layers are dense up to different points count as the same architecture although their weights differ. *)
Definition glm4_dense_until (k : Z) : model_config := glm4 8 [("num_hidden_layers", CVInt 3); ("first_k_dense_replace", CVInt k)].
Theorem C78_dense_layers_refuted : exists a ws ws' w,
  get_architecture_info table [glm4_dense_until 1; glm4_dense_until 2] false = Ok (Declared a) /\
  model_weights a (hc_fields (glm4_dense_until 1)) = Ok ws /\ model_weights a (hc_fields (glm4_dense_until 2)) = Ok ws' /\
  In w ws /\ wi_optional w = false /\ ~ In (wi_name w) (map wi_name ws').
Proof.
  exists (single_module (MGlm4 8) "Glm4MoeForCausalLM" "glm4_moe").
  pose proof (C78_glm4_weights 8 (hc_fields (glm4_dense_until 1)) 3 1 eq_refl eq_refl) as E1.
  pose proof (C78_glm4_weights 8 (hc_fields (glm4_dense_until 2)) 3 2 eq_refl eq_refl) as E2.
  unfold model_weights. cbn [single_module ar_modules rmapM me_info me_prefix snd]. rewrite E1, E2. cbn [rbind concat].
  eexists _, _, {| wi_name := "model.layers.1.mlp.gate.weight"; wi_embed := false; wi_optional := false; wi_aliases := None; wi_dtype := None; wi_tied := None |}.
  split; [exact (proj2 (C78_expert_counts table 8 8 _ _))|]. split; [reflexivity|]. split; [reflexivity|].
  split; [vm_compute; repeat ((left; reflexivity) || right)|]. split; [reflexivity|].
  intros H. apply mem_In in H. vm_compute in H. discriminate.
Qed.
(** The prefix of the Whisper decoder lacks its dot: no weight of the definition has a name that starts as the decoder's weights
    do in a checkpoint, and the ones it has are spelled together. *)
Theorem C78_whisper_refuted c ws : model_weights f_whisper c = Ok ws ->
  (forall w, In w ws -> String.prefix "model.decoder." (wi_name w) = false) /\
  (exists w, In w ws /\ wi_name w = "model.decoderembed_tokens.weight" /\ wi_optional w = false).
Proof.
  intros Hm. destruct (json_entries f_whisper) as [l|] eqn:E; [|vm_compute in E; discriminate]. split.
  - intros w Hw. apply (never_all_sound "model.decoder." f_whisper l c ws w E); auto.
    assert (H : match json_entries f_whisper with Some l => never_all "model.decoder." l | None => false end = true) by (vm_compute; reflexivity). now rewrite E in H.
  - assert (Hx : In (a_whisper_decoder, Some "model.decoder") l) by (injection E as <-; now left).
    destruct (proj2 (weights_by_module f_whisper l c ws E Hm) _ Hx) as (lx & Hlx & Hin). cbn [fst snd] in *.
    destruct (proj2 (weights_by_template _ _ _ Hlx) (w "embed_tokens.weight" true false None None None)) as (x & Hs & Hw); [now left|].
    exists (prefix_weight (Some "model.decoder") x). split; [now apply Hin|]. apply substitute_fields in Hs as (n & E1 & _ & _ & E4).
    rewrite no_brace_subst in E1 by reflexivity. injection E1 as E1. cbn [prefix_weight wi_name wi_optional]. rewrite <- E1, E4. split; reflexivity.
Qed.
Example C78_whisper_refuted_nonvacuous :
  is_ok (model_weights f_whisper (CVObj [("decoder_layers", CVInt 2); ("encoder_layers", CVInt 2)])) = true.
Proof. vm_compute. reflexivity. Qed.
(** The output layer of Solar is declared to be shared with a weight that the model does not have. *)
Theorem C78_solar_refuted c ws : model_weights f_solar c = Ok ws ->
  exists w, In w ws /\ wi_name w = "lm_head.weight" /\ wi_tied w = Some ["model.lm_head.weight"] /\
  forall v, In v ws -> wi_name v <> "model.lm_head.weight" /\ wi_aliases v = None.
Proof.
  intros Hm. destruct (json_entries f_solar) as [l|] eqn:E; [|vm_compute in E; discriminate].
  assert (Hx : In (a_solar_default, None) l) by (injection E as <-; now left).
  destruct (proj2 (weights_by_module f_solar l c ws E Hm) _ Hx) as (lx & Hlx & Hin). cbn [fst snd prefix_weight] in *.
  destruct (proj2 (weights_by_template _ _ _ Hlx) (w "lm_head.weight" true true None None (Some ["model.lm_head.weight"]))) as (x & Hs & Hw).
  { apply in_app_iff. right. cbn. auto. }
  exists x. split; [now apply Hin|]. apply substitute_fields in Hs as (n & E1 & _ & E3 & _).
  rewrite no_brace_subst in E1 by reflexivity. injection E1 as E1. split; [now rewrite <- E1|]. split.
  { unfold subst_names in E3. cbn [Data.w wi_tied] in E3. rewrite no_brace_names in E3 by reflexivity. cbn [rbind] in E3. congruence. }
  intros v Hv. split.
  - intros Hn. assert (Hp : String.prefix "model.lm_head.weight" (wi_name v) = false).
    { apply (never_all_sound "model.lm_head.weight" f_solar l c ws v E); auto.
      assert (H : match json_entries f_solar with Some l => never_all "model.lm_head.weight" l | None => false end = true) by (vm_compute; reflexivity). now rewrite E in H. }
    rewrite Hn in Hp. discriminate.
  - destruct (proj1 (weights_by_module f_solar l c ws E Hm) v Hv) as (y & ly & v0 & Hy & Hly & Hv0 & ->).
    injection E as <-. destruct Hy as [<-|[]]. cbn [fst snd prefix_weight] in *.
    assert (Hal : forallb (fun t => match wi_aliases t with None => true | Some _ => false end) (ja_pre a_solar_default ++ ja_post a_solar_default ++ ja_layer a_solar_default) = true) by (vm_compute; reflexivity).
    rewrite forallb_forall in Hal.
    destruct (proj1 (weights_by_template _ _ _ Hly) v0 Hv0) as [(t & Ht & Hs)|(t & i & Ht & Hs)]; apply substitute_fields in Hs as (n' & _ & E2' & _ & _).
    + assert (Ht' : In t (ja_pre a_solar_default ++ ja_post a_solar_default ++ ja_layer a_solar_default)) by (rewrite app_assoc; apply in_app_iff; now left).
      specialize (Hal t Ht'). destruct (wi_aliases t); [discriminate|]. cbn in E2'. congruence.
    + assert (Ht' : In t (ja_pre a_solar_default ++ ja_post a_solar_default ++ ja_layer a_solar_default)) by (rewrite !in_app_iff; auto).
      specialize (Hal t Ht'). destruct (wi_aliases t); [discriminate|]. cbn in E2'. congruence.
Qed.
Example C78_solar_refuted_nonvacuous : is_ok (model_weights f_solar (CVObj [("num_hidden_layers", CVInt 2)])) = true.
Proof. vm_compute. reflexivity. Qed.

Print Assumptions C78_lookup.
Print Assumptions C78_expert_models.
Print Assumptions C78_table_clear.
Print Assumptions C78_any_directory_order.
Print Assumptions C78_partial_definitions.
Print Assumptions C78_agreement.
Print Assumptions C78_inferred.
Print Assumptions C78_no_models.
Print Assumptions C78_any_model_order.
Print Assumptions C78_crimes.
Print Assumptions C78_expert_counts.
Print Assumptions C78_glm4_weights.
Print Assumptions C78_afmoe_weights.
Print Assumptions C78_expert_names_distinct.
Print Assumptions C78_model_names_distinct.
Print Assumptions C78_chosen_names_distinct.
Print Assumptions C78_shared_weights.
Print Assumptions C78_crimes_order_refuted.
Print Assumptions C78_dense_layers_refuted.
Print Assumptions C78_whisper_refuted.
Print Assumptions C78_solar_refuted.
