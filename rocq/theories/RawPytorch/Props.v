(** C44: parameters of mergekit-pytorch; C49: the tensors it plans. *)
From Coq Require Import QArith.
From Verif.Base Require Import Py PyFacts.
From Verif.Config Require Import Model.
From Verif.IO Require Import Model Spec Props.
From Verif.RawPytorch Require Import Model Spec Proofs.
Local Open Scope string_scope.
Local Open Scope list_scope.

Section C44.
Variables (c : raw_config) (me : method) (tensor : string).

(** ** C44 *)
(** Global parameters are as documented: the table has exactly the method's parameters, each with the configured value
    when there is one for this tensor (0 and "" included), otherwise with the default. *)
Theorem C44_global g t : NoDup (map pd_name (me_params me)) ->
  construct_param_dicts c me tensor = Ok (g, t) ->
  (forall k, In k (dkeys g) <-> In k (map pd_name (me_params me))) /\
  forall d, In d (me_params me) -> exists v, dget g (pd_name d) = Some v /\
    ((exists x, v = Some x /\ setting (rc_params c) (pd_name d) tensor (Some x)) \/
     ((absent (rc_params c) (pd_name d) \/ setting (rc_params c) (pd_name d) tensor None) /\
      pd_required d = false /\ v = pd_default d)).
Proof.
  intros Hnd E. unfold construct_param_dicts in E. apply rbind_Ok in E as (g' & Eg & E).
  apply rbind_Ok in E as (t' & _ & E). injection E as -> _.
  destruct (global_loop c tensor _ [] g Hnd) with (2 := Eg) as (H1 & _ & H3); [reflexivity|].
  split; [|exact H1]. intros k. rewrite H3. change (In k (dkeys (V:=option pval) [])) with False. tauto.
Qed.

(** They are refused exactly when a required one has no value for this tensor. *)
Theorem C44_global_required : (forall d, In d (me_params me) -> evaluates (rc_params c) (pd_name d) tensor) ->
  NoDup (map pd_name (me_params me)) ->
  (global_params c me tensor = Err RuntimeError <->
   exists d, In d (me_params me) /\ pd_required d = true /\
     (absent (rc_params c) (pd_name d) \/ setting (rc_params c) (pd_name d) tensor None)) /\
  ((exists g, global_params c me tensor = Ok g) \/ global_params c me tensor = Err RuntimeError).
Proof.
  intros He Hnd. unfold global_params. destruct (global_loop_total c tensor (me_params me) [] He) as [[g Eg]|[E Hd]].
  - rewrite Eg. split; [|eauto]. split; [discriminate|]. intros (d & Hd & Hr & Ha).
    destruct (global_loop c tensor _ [] g Hnd) with (2 := Eg) as (H1 & _ & _); [reflexivity|].
    destruct (H1 d Hd) as (v & _ & [(x & -> & ps & s & Ep & Es & Ev)|(_ & Hr' & _)]); [|congruence].
    exfalso. destruct Ha as [Ha|(ps' & s' & Ep' & Es' & Ev')]; [|congruence].
    apply (Ha ps Ep). apply dget_Some_key. eauto.
  - rewrite E. split; [|auto]. split; [intros _; exact Hd|reflexivity].
Qed.

(** A value set for a model, if Python counts it as true, is what the method receives for that model. Missing from
    C44: values counted as false, and models or configurations without a setting (see below). *)
Theorem C44_explicit_partial g t d m x : NoDup (map pd_name (me_tensor_params me)) ->
  construct_param_dicts c me tensor = Ok (g, t) -> In d (me_tensor_params me) -> last_def c m ->
  setting (md_params m) (pd_name d) tensor (Some x) -> ~ falsy x ->
  exists tm, dget t (md_model m) = Some tm /\ dget tm (pd_name d) = Some (Some x).
Proof.
  intros Hnd E Hd Hl (ps & s & Ep & Es & Ev) Hx. unfold construct_param_dicts in E.
  apply rbind_Ok in E as (g' & _ & E). apply rbind_Ok in E as (t' & Et & E). injection E as _ ->.
  destruct (outer_loop c tensor _ [] t Hnd Et) as (H1 & _ & _). destruct (H1 d m Hd Hl) as (v & Hv & He).
  apply tensor_value_Ok in Hv as (e & (ps' & s' & Ep' & Es' & Ev') & Hc).
  assert (e = Some x) by congruence. subst e.
  assert (Ht : truthy_val (Some x) = true).
  { apply not_false_is_true. intros Hf. apply Hx. apply truthy_spec; [exact (eval_scalar _ _ _ _ Ev)|exact Hf]. }
  destruct Hc as [[_ ->]|[Hf _]]; [|congruence]. unfold entry in He. destruct (dget t (md_model m)) as [tm|]; [|discriminate].
  exists tm. auto.
Qed.

(** When the setting of the model does not apply to the tensor, or gives a value counted as false, the method receives
    the global value for the tensor - if that is a value counted as true - and otherwise the default. *)
Theorem C44_fallback_partial g t d m e : NoDup (map pd_name (me_tensor_params me)) ->
  construct_param_dicts c me tensor = Ok (g, t) -> In d (me_tensor_params me) -> last_def c m ->
  setting (md_params m) (pd_name d) tensor e -> (forall x, e = Some x -> falsy x) ->
  exists tm v ge, dget t (md_model m) = Some tm /\ dget tm (pd_name d) = Some v /\
    setting (rc_params c) (pd_name d) tensor ge /\
    ((exists y, ge = Some y /\ ~ falsy y /\ v = Some y) \/
     ((forall y, ge = Some y -> falsy y) /\ pd_required d = false /\ v = pd_default d)).
Proof.
  intros Hnd E Hd Hl (ps & s & Ep & Es & Ev) Hx. unfold construct_param_dicts in E.
  apply rbind_Ok in E as (g' & _ & E). apply rbind_Ok in E as (t' & Et & E). injection E as _ ->.
  destruct (outer_loop c tensor _ [] t Hnd Et) as (H1 & _ & _). destruct (H1 d m Hd Hl) as (v & Hv & He).
  apply tensor_value_Ok in Hv as (e' & (ps' & s' & Ep' & Es' & Ev') & Hc).
  assert (e' = e) by congruence. subst e'.
  assert (Ht : truthy_val e = false).
  { destruct e as [x|]; [|reflexivity]. apply truthy_spec; [exact (eval_scalar _ _ _ _ Ev)|apply Hx; reflexivity]. }
  destruct Hc as [[Hf _]|[_ (ge & Hg & Hc)]]; [congruence|].
  unfold entry in He. destruct (dget t (md_model m)) as [tm|] eqn:Etm; [|discriminate].
  exists tm, v, ge. split; [reflexivity|]. split; [exact He|]. split; [exact Hg|].
  destruct Hg as (gs & s2 & _ & _ & Evg). destruct Hc as [[Hg ->]|(Hg & Hr & ->)].
  - left. destruct ge as [y|]; [|discriminate]. exists y. split; [reflexivity|]. split; [|reflexivity].
    intros Hy. apply truthy_spec in Hy; [congruence|exact (eval_scalar _ _ _ _ Evg)].
  - right. split; [|auto]. intros y ->. apply truthy_spec; [exact (eval_scalar _ _ _ _ Evg)|exact Hg].
Qed.

(** The global value and the default are never reached for a model that sets nothing: when the dictionaries are built
    at all, every listed model has a setting for every per-model parameter of the method. (An absent setting is
    evaluated as the empty gradient, which raises IndexError; an absent [parameters] raises AttributeError.) *)
Theorem C44_unset_raises_refuted g t d m : NoDup (map pd_name (me_tensor_params me)) ->
  construct_param_dicts c me tensor = Ok (g, t) -> In d (me_tensor_params me) -> In m (rc_models c) ->
  ~ absent (md_params m) (pd_name d).
Proof.
  intros Hnd E Hd Hm Ha. unfold construct_param_dicts in E.
  apply rbind_Ok in E as (g' & _ & E). apply rbind_Ok in E as (t' & Et & E).
  destruct (outer_loop c tensor _ [] t' Hnd Et) as (_ & H2 & _). destruct (H2 d m Hd Hm) as (v & Hv).
  apply tensor_value_Ok in Hv as (e & (ps & s & Ep & Es & _) & _). apply (Ha ps Ep). apply dget_Some_key. eauto.
Qed.

(** The same for the default: it is given only where the configuration has a global setting too. *)
Theorem C44_default_needs_global_refuted g t d m e : NoDup (map pd_name (me_tensor_params me)) ->
  construct_param_dicts c me tensor = Ok (g, t) -> In d (me_tensor_params me) -> In m (rc_models c) ->
  setting (md_params m) (pd_name d) tensor e -> (forall x, e = Some x -> falsy x) ->
  ~ absent (rc_params c) (pd_name d).
Proof.
  intros Hnd E Hd Hm (ps & s & Ep & Es & Ev) Hx Ha. unfold construct_param_dicts in E.
  apply rbind_Ok in E as (g' & _ & E). apply rbind_Ok in E as (t' & Et & E).
  destruct (outer_loop c tensor _ [] t' Hnd Et) as (_ & H2 & _). destruct (H2 d m Hd Hm) as (v & Hv).
  apply tensor_value_Ok in Hv as (e' & (ps' & s' & Ep' & Es' & Ev') & Hc). assert (e' = e) by congruence. subst e'.
  destruct Hc as [[Hf _]|[_ (ge & (gs & s2 & Ep2 & Es2 & _) & _)]].
  - destruct e as [x|]; [|discriminate]. pose proof (proj2 (truthy_spec x (eval_scalar _ _ _ _ Ev)) (Hx x eq_refl)). congruence.
  - apply (Ha gs Ep2). apply dget_Some_key. eauto.
Qed.

(** What does work: when the global parameters have values and every model sets every per-model parameter to a value
    counted as true, the dictionaries are built. *)
Theorem C44_all_set gp : global_params c me tensor = Ok gp ->
  (forall d m, In d (me_tensor_params me) -> In m (rc_models c) ->
     exists x, setting (md_params m) (pd_name d) tensor (Some x) /\ ~ falsy x) ->
  exists t, construct_param_dicts c me tensor = Ok (gp, t).
Proof.
  intros Hg Hs. unfold construct_param_dicts. rewrite Hg. cbn [rbind].
  destruct (outer_total c tensor (me_tensor_params me) []) as [t Ht].
  - intros d m Hd Hm. destruct (Hs d m Hd Hm) as (x & (ps & s & Ep & Es & Ev) & Hx). exists (Some x).
    unfold tensor_value. rewrite Ep, Es. unfold eval0. rewrite Ev. cbn [rbind].
    replace (truthy_val (Some x)) with true; [reflexivity|]. symmetry. apply not_false_is_true. intros Hf. apply Hx.
    apply truthy_spec; [exact (eval_scalar _ _ _ _ Ev)|exact Hf].
  - exists t. unfold tensor_params. rewrite Ht. reflexivity.
Qed.
End C44.

(** [weight: 0] for a model, with a global [weight: 1], gives that model the weight 1. *)
Definition weight_def := {| pd_name := "weight"; pd_required := true; pd_default := None |}.
Definition linear := {| me_params := [{| pd_name := "normalize"; pd_required := false; pd_default := Some (PNum 1) |}];
                        me_tensor_params := [weight_def] |}.
Definition zero_weight := {|
  rc_models := [{| md_model := "a"; md_params := Some [("weight", PNum 0)] |};
                {| md_model := "b"; md_params := Some [("weight", PList [PCond (PNum (1#2)) (Some "mlp"); PCond (PNum 3) None])] |}];
  rc_params := Some [("weight", PNum 1); ("normalize", PNum 0)]; rc_base := None |}.
Theorem C44_explicit_replaced_refuted : exists g t,
  construct_param_dicts zero_weight linear "layer.0.mlp" = Ok (g, t) /\
  setting (md_params {| md_model := "a"; md_params := Some [("weight", PNum 0)] |}) "weight" "layer.0.mlp" (Some (PNum 0)) /\
  dget t "a" = Some [("weight", Some (PNum 1))].
Proof. eexists _, _. split; [vm_compute; reflexivity|]. split; [|reflexivity]. eexists _, _. repeat split; reflexivity. Qed.

(** the hypotheses of the theorems above are met by that configuration: a global value 0 is kept, "b" gets its
    conditional value, "a" falls back *)
Example C44_nonvacuous : exists g t, construct_param_dicts zero_weight linear "layer.0.mlp" = Ok (g, t) /\
  NoDup (map pd_name (me_params linear)) /\ NoDup (map pd_name (me_tensor_params linear)) /\
  g = [("normalize", Some (PNum 0))] /\ dget t "b" = Some [("weight", Some (PNum (1#2)))] /\
  last_def zero_weight {| md_model := "b"; md_params := Some [("weight", PList [PCond (PNum (1#2)) (Some "mlp"); PCond (PNum 3) None])] |}.
Proof.
  eexists _, _. split; [vm_compute; reflexivity|]. split; [repeat constructor; intros []|]. split; [repeat constructor; intros []|].
  split; [reflexivity|]. split; [reflexivity|]. eexists [_], []. split; [reflexivity|intros []].
Qed.
Example C44_required_nonvacuous :
  evaluates None "weight" "x" /\
  global_params {| rc_models := []; rc_params := None; rc_base := None |} {| me_params := [weight_def]; me_tensor_params := [] |} "x" = Err RuntimeError.
Proof. split; [left; intros ? [=]|reflexivity]. Qed.
Example C44_all_set_nonvacuous : forall d m, In d [weight_def] ->
  In m [{| md_model := "a"; md_params := Some [("weight", PStr "x")] |}] ->
  exists x, setting (md_params m) (pd_name d) "t" (Some x) /\ ~ falsy x.
Proof.
  intros d m [<-|[]] [<-|[]]. exists (PStr "x"). split; [eexists _, _; repeat split; reflexivity|].
  intros [(q & [=] & _)|[=]].
Qed.

(** ** C49 *)
Section C49.
Variables (c : raw_config) (me : method) (index_of : string -> index) (union inter : bool).

(** the tensors in the checkpoint of model [m] *)
Definition holds (m tensor : string) : Prop := In tensor (dkeys (ix_paths (index_of m))).
(** every input - the listed models and the base model - holds the tensor *)
Definition all_hold (tensor : string) : Prop :=
  forall m, (exists d, In d (rc_models c) /\ md_model d = m) \/ rc_base c = Some m -> holds m tensor.

Lemma all_hold_len tensor :
  (length (filter (fun m => dmem (ix_paths (index_of m)) tensor) (inputs c)) <? length (inputs c))%nat = false <-> all_hold tensor.
Proof.
  rewrite filter_len. unfold all_hold, holds. split.
  - intros H m Hm. apply dmem_In, H, inputs_In. destruct Hm as [(d & Hd & <-)|Hb]; [left; now apply in_map|now right].
  - intros H m Hm. apply dmem_In, H. apply inputs_In in Hm as [Hm|Hb]; [|now right]. left.
    apply in_map_iff in Hm as (d & <- & Hd). eauto.
Qed.

Lemma plan_one_Ok tensor o : plan_one c me index_of union inter tensor = Ok o ->
  (o = None /\ ~ all_hold tensor /\ inter = true) \/
  (exists p g t, o = Some p /\ (all_hold tensor \/ (union = true /\ inter = false)) /\
    construct_param_dicts c me tensor = Ok (g, t) /\
    p = {| pl_tensor := tensor; pl_inputs := inputs c; pl_global := g; pl_tparams := t |}).
Proof.
  unfold plan_one. pose proof (all_hold_len tensor) as Ha.
  match goal with |- context[if ?b then _ else _] => destruct b eqn:El end.
  - destruct inter; [|destruct union; [|discriminate]].
    + intros [= <-]. left. split; [reflexivity|]. split; [|reflexivity]. intros H. apply Ha in H. discriminate.
    + intros E. apply rbind_Ok in E as ([g t] & Ec & E). injection E as <-. right. eexists _, g, t. auto.
  - intros E. apply rbind_Ok in E as ([g t] & Ec & E). injection E as <-. right. eexists _, g, t.
    split; [reflexivity|]. split; [left; now apply Ha|]. auto.
Qed.

Lemma plan_loop_Ok : forall order l, plan_loop c me index_of union inter order = Ok l ->
  (forall x, In x (map pl_tensor l) <-> In x order /\ (all_hold x \/ (union = true /\ inter = false))) /\
  (NoDup order -> NoDup (map pl_tensor l)) /\
  (forall p, In p l -> pl_inputs p = inputs c /\ construct_param_dicts c me (pl_tensor p) = Ok (pl_global p, pl_tparams p)) /\
  (forall x, In x order -> all_hold x \/ union = true \/ inter = true).
Proof.
  induction order as [|x order IH]; intros l E.
  - cbn in E. injection E as <-. split; [intros x; cbn; tauto|]. split; [intros _; constructor|]. split; intros ? [].
  - cbn [plan_loop] in E. apply rbind_Ok in E as (o & Eo & E). apply rbind_Ok in E as (l' & El & E).
    destruct (IH l' El) as (H1 & H2 & H3 & H4). destruct (plan_one_Ok x o Eo) as [(-> & Hna & Hi)|(p & g & t & -> & Hh & Hc & ->)].
    + injection E as <-. split; [|split; [|split]].
      * intros y. rewrite H1. cbn [In]. split; [tauto|]. intros ([<-|Hy] & [Ha|[_ Hb]]); try tauto; congruence.
      * intros Hnd. inversion Hnd; auto.
      * exact H3.
      * intros y [<-|Hy]; auto.
    + injection E as <-. split; [|split; [|split]].
      * intros y. cbn [map In pl_tensor]. rewrite H1. split; [intros [<-|H]; tauto|]. intros ([<-|Hy] & H); tauto.
      * intros Hnd. inversion Hnd as [|? ? Hni Hnd']; subst. cbn [map pl_tensor]. constructor; [|auto].
        intros Hin. apply H1 in Hin as [Hin _]. contradiction.
      * intros p [<-|Hp]; [|auto]. auto.
      * intros y [<-|Hy]; [|auto]. destruct Hh as [?|[? _]]; auto.
Qed.

(** The plan has every tensor found in a listed model exactly once - with [--tensor-intersection] those all inputs hold;
    without either option it exists only if all inputs hold all of them; each output gathers all inputs, each once. *)
Theorem C49_planned order l : tensor_order c index_of order ->
  plan_flat_merge c me index_of union inter order = Ok l ->
  NoDup (map pl_tensor l) /\
  (forall x, In x (map pl_tensor l) <->
     (exists d, In d (rc_models c) /\ holds (md_model d) x) /\ (inter = true -> all_hold x)) /\
  (union = false -> inter = false -> forall x, (exists d, In d (rc_models c) /\ holds (md_model d) x) -> all_hold x) /\
  (forall p, In p l -> NoDup (pl_inputs p) /\
     (forall m, In m (pl_inputs p) <-> (exists d, In d (rc_models c) /\ md_model d = m) \/ rc_base c = Some m) /\
     construct_param_dicts c me (pl_tensor p) = Ok (pl_global p, pl_tparams p)).
Proof.
  intros [Hnd Ho] E. destruct (plan_loop_Ok order l E) as (H1 & H2 & H3 & H4).
  split; [auto|]. split; [|split].
  - intros x. rewrite H1, Ho. unfold holds. split.
    + intros [(m & Hm) [Ha|[_ Hi]]]; (split; [eauto|]); [auto|congruence].
    + intros [(m & Hm) Hi]. split; [eauto|]. destruct (H4 x) as [?|[?|?]]; [apply Ho; eauto|auto| |auto].
      destruct inter; [auto|]. right. auto.
  - intros Hu Hi x (d & Hd & Hx). destruct (H4 x) as [?|[?|?]]; [apply Ho; eauto|assumption|congruence|congruence].
  - intros p Hp. destruct (H3 p Hp) as [-> Hc]. split; [apply inputs_NoDup|]. split; [|exact Hc].
    intros m. rewrite inputs_In, in_map_iff. split; (intros [(d & H)|H]; [left; exists d; tauto|now right]).
Qed.

(** A missing tensor is reported: without the options no plan is made when some input lacks a tensor of a listed model. *)
Theorem C49_missing_raises order x m : tensor_order c index_of order -> union = false -> inter = false ->
  (exists d, In d (rc_models c) /\ holds (md_model d) x) ->
  (exists d, In d (rc_models c) /\ md_model d = m) \/ rc_base c = Some m -> ~ holds m x ->
  exists e, plan_flat_merge c me index_of union inter order = Err e.
Proof.
  intros Ho Hu Hi Hx Hm Hn. destruct (plan_flat_merge c me index_of union inter order) as [l|e] eqn:E; [|eauto].
  destruct (C49_planned order l Ho E) as (_ & _ & H & _). destruct (Hn (H Hu Hi x Hx m Hm)).
Qed.

(** With consistent checkpoints every load of the plan finds its tensor - unless [--tensor-union] is used on models
    that do not all hold it. Missing: that case. *)
Theorem C49_loads_partial {T} (disk : string -> fs T) hist order l p m : tensor_order c index_of order ->
  (forall m, consistent (disk m) (index_of m)) -> union = false \/ inter = true ->
  plan_flat_merge c me index_of union inter order = Ok l -> In p l -> In m (pl_inputs p) ->
  exists v, stored (disk m) (index_of m) (pl_tensor p) = Some v /\ load disk index_of hist m (pl_tensor p) = Ok (Some v).
Proof.
  intros Ho Hc Hui E Hp Hm. destruct (C49_planned order l Ho E) as (_ & H1 & H2 & H3).
  destruct (H3 p Hp) as (_ & Hi & _). apply Hi in Hm.
  assert (Ht : In (pl_tensor p) (map pl_tensor l)) by now apply in_map. apply H1 in Ht as [Hd Hint].
  assert (Hh : holds m (pl_tensor p)).
  { destruct inter; [exact (Hint eq_refl m Hm)|]. destruct Hui as [Hu|]; [|discriminate]. apply (H2 Hu eq_refl _ Hd m Hm). }
  unfold load. rewrite (proj1 (C20_history _ _ hist (pl_tensor p) [] true (Hc m))). unfold expected.
  unfold holds in Hh. apply dmem_In in Hh as Hb. cbn [find]. rewrite Hb.
  apply dget_Some_key in Hh as [file Hf]. destruct (Hc m) as [C1 _]. destruct (C1 _ _ Hf) as (d & Hd' & Hin).
  unfold stored. rewrite Hf, Hd'. apply dget_Some_key in Hin as [v Hv]. exists v. rewrite Hv. auto.
Qed.

(** With [--tensor-union] (alone) a plan over models that do not all hold a tensor contains a load that raises KeyError:
    the option cannot do what it is for. *)
Theorem C49_union_refuted {T} (disk : string -> fs T) hist order l x m : tensor_order c index_of order ->
  (forall m, consistent (disk m) (index_of m)) -> union = true -> inter = false ->
  plan_flat_merge c me index_of union inter order = Ok l ->
  (exists d, In d (rc_models c) /\ holds (md_model d) x) ->
  (exists d, In d (rc_models c) /\ md_model d = m) \/ rc_base c = Some m -> ~ holds m x ->
  exists p, In p l /\ pl_tensor p = x /\ In m (pl_inputs p) /\ load disk index_of hist m x = Err KeyError.
Proof.
  intros Ho Hc Hu Hi E Hx Hm Hn. destruct (C49_planned order l Ho E) as (_ & H1 & _ & H3).
  assert (Ht : In x (map pl_tensor l)) by (apply H1; split; [exact Hx|congruence]).
  apply in_map_iff in Ht as (p & <- & Hp). exists p. split; [exact Hp|]. split; [reflexivity|].
  destruct (H3 p Hp) as (_ & H & _). split; [now apply H|]. unfold load.
  apply (proj2 (C20_missing (disk m) (index_of m) hist (pl_tensor p) [] (Hc m))). intros y [<-|[]]. exact Hn.
Qed.
End C49.

(** A tensor only the base model has is in no plan, whatever the options. *)
Definition idx (m : string) : index :=
  {| ix_paths := if eqb m "base" then [("x", "f"); ("only", "f")] else [("x", "f")] |}.
Definition with_base := {| rc_models := [{| md_model := "a"; md_params := Some [("weight", PNum 1)] |}];
                           rc_params := None; rc_base := Some "base" |}.
Example C49_nonvacuous : tensor_order with_base idx ["x"] /\
  exists p, plan_flat_merge with_base linear idx false false ["x"] = Ok [p] /\ pl_inputs p = ["a"; "base"].
Proof.
  split.
  - split; [repeat constructor; intros []|]. intros x. cbn [In rc_models with_base]. split.
    + intros [<-|[]]. eexists. split; [now left|]. vm_compute. now left.
    + intros (m & [<-|[]] & Hx). exact Hx.
  - eexists. split; [vm_compute; reflexivity|reflexivity].
Qed.
Theorem C49_base_only_refuted : exists c index_of, rc_base c = Some "base" /\ In "only" (dkeys (ix_paths (index_of "base"))) /\
  forall union inter order l, tensor_order c index_of order ->
    plan_flat_merge c linear index_of union inter order = Ok l -> ~ In "only" (map pl_tensor l).
Proof.
  exists with_base, idx. split; [reflexivity|]. split; [right; now left|]. intros u i order l Ho E Hin.
  apply (proj1 (proj2 (C49_planned _ _ _ _ _ _ _ Ho E))) in Hin as [(d & [<-|[]] & [H|[]]) _]. discriminate H.
Qed.
(** the union option on two models of which one lacks "y" *)
Definition idx2 (m : string) : index := {| ix_paths := if eqb m "a" then [("x", "f"); ("y", "f")] else [("x", "f")] |}.
Definition two := {| rc_models := [{| md_model := "a"; md_params := Some [("weight", PNum 1)] |};
                                   {| md_model := "b"; md_params := Some [("weight", PNum 1)] |}];
                     rc_params := None; rc_base := None |}.
Example C49_union_nonvacuous : tensor_order two idx2 ["y"; "x"] /\
  (exists p q, plan_flat_merge two linear idx2 true false ["y"; "x"] = Ok [p; q]) /\
  plan_flat_merge two linear idx2 false false ["y"; "x"] = Err RuntimeError /\
  (exists p, plan_flat_merge two linear idx2 true true ["y"; "x"] = Ok [p] /\ pl_tensor p = "x") /\
  exists disk : string -> fs nat, forall m, consistent (disk m) (idx2 m).
Proof.
  split; [|split; [|split; [|split]]].
  - split; [repeat constructor; cbn; intuition discriminate|]. intros x. cbn [In rc_models two]. split.
    + intros H. eexists. split; [now left|]. change (In x ["x"; "y"]). cbn. tauto.
    + intros (m & [<-|[<-|[]]] & Hx); [change (In x ["x"; "y"]) in Hx|change (In x ["x"]) in Hx]; cbn in Hx; tauto.
  - eexists _, _. vm_compute. reflexivity.
  - reflexivity.
  - eexists. split; [vm_compute; reflexivity|reflexivity].
  - exists (fun m => [("f", FShard false (if eqb m "a" then [("x", 1%nat); ("y", 2%nat)] else [("x", 3%nat)]))]).
    intros m. unfold idx2, consistent. cbn [ix_paths]. destruct (eqb m "a"); split.
    + intros k file H. eexists. split.
      * assert (file = "f") as ->; [|vm_compute; reflexivity].
        revert H. cbn [dget]. destruct (eqb k "x"); [congruence|]. destruct (eqb k "y"); congruence.
      * apply dget_In in H. change (In k ["x"; "y"]). cbn in *. intuition congruence.
    + intros k file d x H Hd Hx. assert (file = "f") as ->.
      { revert H. cbn [dget]. destruct (eqb k "x"); [congruence|]. destruct (eqb k "y"); congruence. }
      vm_compute in Hd. injection Hd as <-. change (In x ["x"; "y"]) in Hx. destruct Hx as [<-|[<-|[]]]; reflexivity.
    + intros k file H. eexists. split.
      * assert (file = "f") as ->; [|vm_compute; reflexivity]. revert H. cbn [dget]. destruct (eqb k "x"); congruence.
      * apply dget_In in H. change (In k ["x"]). cbn in *. intuition congruence.
    + intros k file d x H Hd Hx. assert (file = "f") as ->.
      { revert H. cbn [dget]. destruct (eqb k "x"); congruence. }
      vm_compute in Hd. injection Hd as <-. change (In x ["x"]) in Hx. destruct Hx as [<-|[]]; reflexivity.
Qed.

Print Assumptions C44_global.
Print Assumptions C44_global_required.
Print Assumptions C44_explicit_partial.
Print Assumptions C44_fallback_partial.
Print Assumptions C44_unset_raises_refuted.
Print Assumptions C44_default_needs_global_refuted.
Print Assumptions C44_all_set.
Print Assumptions C44_explicit_replaced_refuted.
Print Assumptions C49_planned.
Print Assumptions C49_missing_raises.
Print Assumptions C49_loads_partial.
Print Assumptions C49_union_refuted.
Print Assumptions C49_base_only_refuted.
