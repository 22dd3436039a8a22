(** C65: architectures inferred from tensor names. *)
From Coq Require Import Permutation.
From Verif.Base Require Import Py PyFacts PyStr.
From Verif.Arch Require Import Model Spec Proofs Auto AutoSpec AutoProofs.
From Verif.Methods Require Import LinearProofs.
Local Open Scope string_scope.
Local Open Scope list_scope.

(** The layer number of a name is the first run of digits between two dots. *)
Theorem C65_layer_number s :
  (forall p d r, find_layer s = Some (p, d, r) <-> first_number s p d r) /\ (find_layer s = None <-> no_number s).
Proof. split; [intros; apply find_layer_iff|apply find_layer_none]. Qed.
Example C65_layer_number_nonvacuous : first_number "h.12.mlp.3.w" "h" "12" "mlp.3.w".
Proof. apply find_layer_iff. reflexivity. Qed.

Section C65.
Context {M : Type}.
Variable iter : list string -> list string.
Variable re_search : string -> string -> bool.
Variable can_convert : M -> string -> bool.
Variable stored : list (M * list string).
Variable I : info.

Notation layer_of := (has_layer (named stored I) (is_ignored I)).
Notation stack_of := (stack (named stored I) (is_ignored I)).

(** names without template syntax; no weight outside the layers is called after one of several stacks; no stack is called
    like the default module *)
Definition well_named : Prop :=
  (forall n, named stored I n -> all_chars plain n = true) /\
  (forall n p p', named stored I n -> no_number n -> stack_of p -> stack_of p' -> p' <> p -> p <> "" -> String.prefix p n = false) /\
  ~ stack_of "default".

(** The definition has, once each, every weight outside the layers and every layer weight at every layer up to the last one
    of its stack; in particular every tensor that is not excluded from saving, if its layer number has no leading zeros. *)
Theorem C65_covers E T c : (forall l, Permutation (iter l) l) -> i_embed I = Some E -> i_tied I = Some T -> well_named ->
  (exists n, named stored I n /\ (no_number n \/ ~ is_ignored I n)) ->
  exists a ws, infer iter re_search can_convert stored I = Ok a /\ inferred_weights a c = Ok ws /\
    NoDup (map wi_name ws) /\ (forall n, In n (map wi_name ws) <-> expected (named stored I) (is_ignored I) n).
Proof.
  intros Hiter HE HT (Hplain & Hloose & Hdef) Hsome. eexists; eexists. split; [|split; [|split]].
  - eapply infer_ok; eauto.
  - eapply inferred_eq; eauto.
  - eapply weights_NoDup; eauto.
  - intros n. rewrite in_map_iff. split.
    + intros (w & <- & Hw). eapply weights_In in Hw; eauto. destruct Hw as [(t & H1 & H2 & ->)|(p & r & i & Hr & Hi & ->)]; [now left|right].
      apply count_spec in Hi as (k & Hk & Hik); auto. exists p, r, i, k. auto.
    + intros [[H1 H2]|(p & r & i & k & Hr & Hk & Hik & ->)].
      * eexists. split; [|eapply weights_In; eauto; left; exists n; eauto]. reflexivity.
      * eexists. split; [|eapply weights_In; eauto; right; exists p, r, i; split; [exact Hr|split; [|reflexivity]]]; [reflexivity|].
        apply count_spec; eauto.
Qed.

(** A weight is required exactly when no tied-weight pattern matches it and every model has it, at every layer for a layer
    weight; it counts as an embedding exactly when it is listed or matched. Layer weights are looked up by their generic
    name, the one with [${layer_index}]. *)
Theorem C65_flags E T c a ws w : (forall l, Permutation (iter l) l) -> i_embed I = Some E -> i_tied I = Some T -> well_named ->
  infer iter re_search can_convert stored I = Ok a -> inferred_weights a c = Ok ws -> In w ws ->
  exists t, looked_up (named stored I) (is_ignored I) (wi_name w) t /\
    (wi_optional w = false <->
      available_throughout (named stored I) (is_ignored I) (available can_convert stored I) (wi_name w) /\
      ~ exists p, In p T /\ re_search p t = true) /\
    (wi_embed w = true <-> In t E \/ exists p, In p T /\ re_search p t = true).
Proof.
  intros Hiter HE HT (Hplain & Hloose & Hdef) Ha Hws Hw.
  erewrite infer_eq in Ha by eauto. assert (Ea : a = map (fun kq => (key_of (fst kq), arch_of iter can_convert stored I re_search E T kq)) (kept iter stored I)).
  { destruct (kept iter stored I); [discriminate|]. congruence. }
  rewrite Ea in Hws. erewrite inferred_eq in Hws by eauto. assert (Ews : ws = flat_map (weights_of iter can_convert stored I re_search E T) (kept iter stored I)) by congruence.
  rewrite Ews in Hw. eapply weights_In in Hw; eauto.
  assert (Htied : forall t, tied re_search T t = true <-> exists p, In p T /\ re_search p t = true) by (intros t; unfold tied; apply existsb_exists).
  assert (Hopt : forall (b : bool) t P, (b = true <-> P) -> (negb b || tied re_search T t = false <-> P /\ ~ exists p, In p T /\ re_search p t = true)).
  { intros b t P Hb. rewrite <- Htied. rewrite orb_false_iff, negb_false_iff, Hb. destruct (tied re_search T t); intuition congruence. }
  assert (Hemb : forall t, mem t E || tied re_search T t = true <-> In t E \/ exists p, In p T /\ re_search p t = true).
  { intros t. now rewrite orb_true_iff, mem_In, Htied. }
  destruct Hw as [(t & H1 & H2 & ->)|(p & r & i & Hr & Hi & ->)].
  - exists t. cbn [wi_of wi_name wi_optional wi_embed]. split; [now left|]. split; [|apply Hemb]. rewrite (Hopt _ t (available can_convert stored I t)).
    + unfold available_throughout. split; intros [Hx Hy]; (split; [|exact Hy]); [now left|]. destruct Hx as [[_ Hx]|(p & r & (i & ->) & Hr & _)]; [easy|].
      exfalso. apply find_layer_none in H2. erewrite weight_layer in H2 by eauto. discriminate.
    + now apply present_loose.
  - exists (template_name p r). cbn [wi_of renamed wi_name wi_optional wi_embed]. split; [right; exists p, i, r; auto|]. split; [|apply Hemb].
    eapply Hopt. rewrite present_layer by eauto. split.
    + intros H. right. exists p, r. split; [now exists i|]. split; auto.
    + intros [[Hn _]|(p' & r' & (i' & En) & Hr' & H)].
      * exfalso. apply find_layer_none in Hn. erewrite weight_layer in Hn by eauto. discriminate.
      * eapply layer_name_inj in En as (-> & -> & _); eauto.
Qed.

(** Without any usable tensor name there is no definition. *)
Theorem C65_empty : (forall l, Permutation (iter l) l) -> (forall n, named stored I n -> is_ignored I n /\ ~ no_number n) ->
  infer iter re_search can_convert stored I = Err ValueError.
Proof.
  intros Hiter Hno.
  assert (Hs : forall p, ~ stack_of p) by (intros p (k & m & r & Hm & Hi & _); now apply Hno in Hm as [Hm _]).
  assert (Hf : found_prefixes iter stored I = []).
  { destruct (found_prefixes iter stored I) as [|p l] eqn:F; [reflexivity|]. exfalso. apply (Hs p). eapply found_In; eauto. rewrite F. now left. }
  assert (H1 : forall p, iter [p] = [p]) by (intros p; apply Permutation_length_1_inv; symmetry; apply Hiter).
  assert (Hl : loose_of iter stored I [""] "" = []).
  { unfold loose_of. destruct (flat_map _ _) as [|x l] eqn:F; [reflexivity|]. exfalso.
    match type of F with ?fl = _ => assert (Hx : In x fl) by (rewrite F; now left) end. apply in_flat_map in Hx as (n & Hn & Hx).
    apply iter_In, all_names_In in Hn; auto. destruct (layered n) eqn:Hy; [easy|]. apply layered_none in Hy. now apply Hno in Hn as [_ Hn]. }
  unfold infer, modules. rewrite Hf. change (set_add "" []) with [""]. rewrite H1. cbn [map fst filter]. rewrite Hl.
  cbn [fst snd]. rewrite templates_nil by eauto. reflexivity.
Qed.

(** When the base model cannot be loaded with transformers, "tied/ignored weights will not be detected" says the warning;
    in fact inference always fails. *)
Theorem C65_unknown_model_refuted : (forall l, Permutation (iter l) l) -> i_embed I = None ->
  infer iter re_search can_convert stored I = Err TypeError \/ infer iter re_search can_convert stored I = Err ValueError.
Proof.
  intros Hiter HE. unfold infer. set (ps := map fst (modules iter stored I)).
  match goal with |- context [filter ?f (modules iter stored I)] => set (g := f) end.
  destruct (filter g (modules iter stored I)) as [|[p [n ts]] ms] eqn:F; [now right|]. left.
  assert (Hin : In (p, (n, ts)) (filter g (modules iter stored I))) by (rewrite F; now left). apply filter_In in Hin as [Hin Hg].
  assert (Hwi : forall t o, wi re_search can_convert stored I t o = Err TypeError) by (intros; unfold wi; rewrite HE; reflexivity).
  assert (Hlt : forall o l, l <> [] -> rmapM (fun t => wi re_search can_convert stored I t o) l = Err TypeError).
  { intros o [|t l] Hl; [easy|]. cbn. now rewrite Hwi. }
  assert (Hne : forall l, l <> [] -> iter l <> []).
  { intros l Hl Hi. apply Hl. specialize (Hiter l). rewrite Hi in Hiter. now apply Permutation_nil. }
  rewrite rmapM_cons.
  assert (Hts : ts <> [] \/ loose_of iter stored I ps p <> []).
  { rewrite modules_stacks in Hin. apply in_map_iff in Hin as ([k q] & [= <- <- <-] & Hk). cbn [fst snd] in *.
    unfold g in Hg. cbn [fst snd] in Hg. destruct (eqb_spec k "") as [->|Hk0].
    - cbn [negb orb] in Hg. fold ps in Hg. destruct (loose_of iter stored I ps ""); [|now right].
      destruct (prefix_templates iter stored I q); [discriminate|now left].
    - left. eapply stacks_In in Hk; eauto. destruct Hk as [[?| ->] [(j & m & r & Hm & Hi & Hl)|?]]; try congruence.
      assert (Ht : In (template_name q r) (prefix_templates iter stored I q)) by (apply templates_In; auto; exists r; split; [now exists m, j|reflexivity]).
      now destruct (prefix_templates iter stored I q). }
  destruct (loose_of iter stored I ps p) as [|x l] eqn:El.
  - destruct Hts as [Hts|]; [|easy]. assert (Hnil : iter (dedup []) = []) by (apply Permutation_nil; symmetry; apply Hiter).
    rewrite Hnil. cbn [rmapM rbind]. rewrite Hlt by auto. reflexivity.
  - rewrite Hlt; [reflexivity|]. apply Hne. intros Hd. assert (Hx : In x (dedup (x :: l))) by (apply dedup_In; now left). now rewrite Hd in Hx.
Qed.
End C65.

(** The order in which the sets are iterated does not matter. *)
Theorem C65_order {M} iter iter' re_search (can_convert : M -> string -> bool) stored I E T c a a' ws ws' :
  (forall l, Permutation (iter l) l) -> (forall l, Permutation (iter' l) l) -> i_embed I = Some E -> i_tied I = Some T -> well_named stored I ->
  infer iter re_search can_convert stored I = Ok a -> inferred_weights a c = Ok ws ->
  infer iter' re_search can_convert stored I = Ok a' -> inferred_weights a' c = Ok ws' ->
  Permutation (map wi_name ws) (map wi_name ws').
Proof.
  intros Hi Hi' HE HT Hwell Ha Hws Ha' Hws'.
  assert (Hsome : exists n, named stored I n /\ (no_number n \/ ~ is_ignored I n)).
  { destruct (existsb (fun n => negb (layered n) || negb (ignored I n)) (all_names stored I)) eqn:Hx.
    - apply existsb_exists in Hx as (n & Hn & Hx). exists n. apply all_names_In in Hn. split; [easy|]. apply orb_true_iff in Hx as [Hx|Hx]; apply negb_true_iff in Hx.
      + left. now apply layered_none.
      + right. now apply ignored_nspec.
    - exfalso. rewrite C65_empty in Ha; [discriminate|easy|]. intros n Hn. apply all_names_In in Hn.
      assert (Hb : negb (layered n) || negb (ignored I n) = false).
      { destruct (negb (layered n) || negb (ignored I n)) eqn:Hb; [|reflexivity].
        rewrite <- Hx. symmetry. apply existsb_exists. exists n. now split. }
      apply orb_false_iff in Hb as [H1 H2]. apply negb_false_iff in H1, H2. split; [now apply ignored_spec|]. rewrite <- layered_none. congruence. }
  destruct (C65_covers iter re_search can_convert stored I E T c Hi HE HT Hwell Hsome) as (b & us & Hb & Hus & HN & Hin).
  destruct (C65_covers iter' re_search can_convert stored I E T c Hi' HE HT Hwell Hsome) as (b' & us' & Hb' & Hus' & HN' & Hin').
  assert (b = a) by congruence. assert (b' = a') by congruence. subst. assert (us = ws) by congruence. assert (us' = ws') by congruence. subst.
  apply NoDup_Permutation; auto. intros n. now rewrite Hin, Hin'.
Qed.

(** ** A model with two stacks *)
Definition a_model : list (nat * list string) :=
  [(0, ["lm_head.weight"; "model.layers.0.up.weight"; "model.layers.1.up.weight"; "model.layers.1.down.weight"; "tower.blocks.0.w"]);
   (1, ["lm_head.weight"; "model.layers.0.up.weight"; "model.layers.1.up.weight"; "tower.blocks.0.w"])].
Definition plain_info : info := {| i_ignore := None; i_tied := Some ["lm_head.weight"]; i_embed := Some []; i_names := None |}.

Example C65_nonvacuous : well_named a_model plain_info /\ (exists n, named a_model plain_info n /\ (no_number n \/ ~ is_ignored plain_info n)) /\
  exists a ws, infer (fun l => rev l) (fun p n => eqb p n) (fun _ _ => false) a_model plain_info = Ok a /\ inferred_weights a CVNone = Ok ws /\
    map (fun w => (wi_name w, wi_optional w)) ws =
      [("lm_head.weight", true); ("model.layers.0.up.weight", false); ("model.layers.0.down.weight", true);
       ("model.layers.1.up.weight", false); ("model.layers.1.down.weight", true); ("tower.blocks.0.w", false)].
Proof.
  assert (Hid : forall l : list string, Permutation ((fun l => l) l) l) by (intros; reflexivity).
  assert (Hst : forall p, stack (named a_model plain_info) (is_ignored plain_info) p -> In p ["model.layers"; "tower.blocks"]).
  { intros p Hp. apply (found_In (fun l => l) Hid a_model plain_info p) in Hp. vm_compute in Hp. cbn. intuition. }
  assert (Hnm : forall n, named a_model plain_info n -> In n (all_names a_model plain_info)) by (intros n; apply all_names_In).
  repeat split.
  - intros n Hn. apply Hnm in Hn. vm_compute in Hn. intuition (subst; reflexivity).
  - intros n p p' Hn Hno Hp _ _ _. apply Hst in Hp. apply Hnm in Hn. apply find_layer_none in Hno. vm_compute in Hn.
    repeat (destruct Hn as [<-|Hn]; [cbn in Hno; try discriminate|]); [|easy]. destruct Hp as [<-|[<-|[]]]; reflexivity.
  - intros Hp. apply Hst in Hp. cbn in Hp. intuition discriminate.
  - exists "lm_head.weight". split; [cbn; eexists 0, _; split; [now left|now left]|]. left. now apply find_layer_none.
  - eexists. eexists. split; [reflexivity|]. split; reflexivity.
Qed.

(** ** What is wrong *)
(** A weight called after one of several stacks loses its first characters, for one iteration order and not for another:
    the weight named here is then required from no model and written by none. *)
Definition clashing : list (nat * list string) := [(0, ["h.0.w"; "x.0.w"; "head.weight"])].
Theorem C65_stripped_refuted :
  exists iter iter' : list string -> list string, (forall l, Permutation (iter l) l) /\ (forall l, Permutation (iter' l) l) /\
  (exists a ws, infer iter (fun _ _ => false) (fun _ _ => false) clashing plain_info = Ok a /\ inferred_weights a CVNone = Ok ws /\
    ~ In "head.weight" (map wi_name ws) /\ In ("ead.weight", true) (map (fun w => (wi_name w, wi_optional w)) ws)) /\
  (exists a ws, infer iter' (fun _ _ => false) (fun _ _ => false) clashing plain_info = Ok a /\ inferred_weights a CVNone = Ok ws /\
    In "head.weight" (map wi_name ws)).
Proof.
  exists (fun l => l), (fun l => rev l). split; [reflexivity|]. split; [intros; symmetry; apply Permutation_rev|]. split.
  - eexists. eexists. split; [reflexivity|]. split; [reflexivity|]. split; [cbn; intuition discriminate|cbn; auto].
  - eexists. eexists. split; [reflexivity|]. split; [reflexivity|]. cbn; auto.
Qed.

(** The names excluded from saving are honoured in layers only: elsewhere they are part of the definition, and required. *)
Theorem C65_ignored_refuted :
  exists (stored : list (nat * list string)) a ws,
    infer (fun l => l) (fun _ _ => false) (fun _ _ => false) stored
      {| i_ignore := Some ["lm_head.weight"; "h.0.cache"]; i_tied := Some []; i_embed := Some []; i_names := None |} = Ok a /\
    inferred_weights a CVNone = Ok ws /\
    map (fun w => (wi_name w, wi_optional w)) ws = [("lm_head.weight", false); ("h.0.w", false)].
Proof. exists [(0, ["lm_head.weight"; "h.0.cache"; "h.0.w"])]. eexists. eexists. repeat split. Qed.

(** With a transformers version that does not report tied weights, inference fails unless every weight is an embedding. *)
Theorem C65_tied_unknown_refuted :
  exists (stored : list (nat * list string)),
    infer (fun l => l) (fun _ _ => false) (fun _ _ => false) stored
      {| i_ignore := None; i_tied := None; i_embed := Some ["e.weight"]; i_names := None |} = Err TypeError.
Proof. exists [(0, ["e.weight"; "h.0.w"])]. reflexivity. Qed.

Print Assumptions C65_layer_number.
Print Assumptions C65_covers.
Print Assumptions C65_flags.
Print Assumptions C65_empty.
Print Assumptions C65_order.
Print Assumptions C65_unknown_model_refuted.
Print Assumptions C65_stripped_refuted.
Print Assumptions C65_ignored_refuted.
Print Assumptions C65_tied_unknown_refuted.
