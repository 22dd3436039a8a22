(** Facts about the loops of merge_raw_pytorch.py. *)
From Coq Require Import QArith Lqa Permutation.
From Verif.Base Require Import Py PyFacts.
From Verif.Config Require Import Model Spec Props.
From Verif.IO Require Import Model.
From Verif.RawPytorch Require Import Model Spec.
Local Open Scope list_scope.

Lemma rfold_app {A B} (f : A -> B -> result A) l1 : forall a l2,
  rfold f a (l1 ++ l2) = rbind (rfold f a l1) (fun a => rfold f a l2).
Proof.
  induction l1 as [|x l1 IH]; intros a l2; cbn; [reflexivity|]. destruct (f a x); cbn; [apply IH|reflexivity].
Qed.

(** an invariant kept by the successful rounds holds at the end *)
Lemma rfold_inv {A B} (f : A -> B -> result A) (P : A -> Prop) : forall l a a',
  rfold f a l = Ok a' -> P a -> (forall b x b', In x l -> f b x = Ok b' -> P b -> P b') -> P a'.
Proof.
  induction l as [|x l IH]; intros a a' E HP Hs; cbn in E; [congruence|].
  destruct (f a x) as [b|] eqn:Ef; cbn in E; [|discriminate].
  apply (IH b a' E); [exact (Hs a x b (or_introl eq_refl) Ef HP)|].
  intros b0 y b' Hy. apply Hs. now right.
Qed.


Lemma py_index_In {A} (l : list A) i x : py_index l i = Ok x -> In x l.
Proof.
  unfold py_index, nthE. destruct (0 <=? i)%Z.
  - destruct (nth_error l _) eqn:E; [|discriminate]. intros [= <-]. exact (nth_error_In _ _ E).
  - destruct (_ <=? _)%Z; [|discriminate]. destruct (nth_error l _) eqn:E; [|discriminate]. intros [= <-]. exact (nth_error_In _ _ E).
Qed.

(** what [evaluate_setting] returns is a number or a string *)
Lemma eval_scalar name t : forall s v, evaluate_setting name t s = Ok (Some v) -> scalar v.
Proof.
  fix IH 1. intros [q|st|v0 f|l] v E.
  - cbn in E. injection E as <-. left. eauto.
  - cbn in E. injection E as <-. right. eauto.
  - discriminate E.
  - cbn [evaluate_setting] in E. destruct (forallb is_num l) eqn:En.
    + match type of E with context[py_index l ?i] => destruct (py_index l i) end; cbn [rbind] in E; [|discriminate].
      match type of E with context[py_index l ?i] => destruct (py_index l i) end; cbn [rbind] in E; [|discriminate].
      injection E as <-. left. eauto.
    + destruct (forallb is_scalar l) eqn:Es.
      * match type of E with context[py_index l ?i] => destruct (py_index l i) as [w|] eqn:Ei end; cbn [rbind] in E; [|discriminate].
        injection E as <-. apply py_index_In in Ei. rewrite forallb_forall in Es. specialize (Es _ Ei).
        destruct w; try discriminate; [left|right]; eauto.
      * clear En Es. revert E. induction l as [|x l IHl]; intros E; [discriminate|].
        destruct x as [| |v1 f1|]; try discriminate E. destruct (filter_matches name f1); [|exact (IHl E)].
        exact (IH v1 v E).
Qed.

Lemma truthy_spec v : scalar v -> truthy_val (Some v) = false <-> falsy v.
Proof.
  intros [[q ->]|[s ->]]; cbn [truthy_val]; rewrite negb_false_iff.
  - rewrite Qeq_bool_iff. split; [intros E; left; eauto|]. intros [(q' & [= <-] & E)|[=]]. exact E.
  - rewrite eqb_iff. split; [intros ->; now right|]. intros [(q' & [=] & _)|[= ->]]. reflexivity.
Qed.

Lemma eval0_nil tensor : eval0 tensor (PList []) = Err IndexError.
Proof. unfold eval0. apply C08_empty_gradient_raises. lra. Qed.

(** ** global parameters *)
Section G.
Variables (c : raw_config) (tensor : string).

Lemma rbind_Ok {A B} (r : result A) (k : A -> result B) b : rbind r k = Ok b -> exists a, r = Ok a /\ k a = Ok b.
Proof. destruct r; cbn; [eauto|discriminate]. Qed.

Definition gvalue (d : param_def) (v : option pval) : Prop :=
  (exists x, v = Some x /\ setting (rc_params c) (pd_name d) tensor (Some x)) \/
  ((absent (rc_params c) (pd_name d) \/ setting (rc_params c) (pd_name d) tensor None) /\
   pd_required d = false /\ v = pd_default d).

Lemma absent_or_setting (ps : params) name : evaluates ps name tensor \/
  exists d s e, ps = Some d /\ dget d name = Some s /\ evaluate_setting (Some tensor) 0 s = Err e.
Proof.
  destruct ps as [d|]; [|left; left; intros ? [=]].
  destruct (dget d name) as [s|] eqn:E; [|left; left; intros ? [= <-]; now apply dget_None].
  destruct (evaluate_setting (Some tensor) 0 s) as [v|e] eqn:Ev; [left; right; exists v, d, s; auto|].
  right. exists d, s, e. auto.
Qed.

Lemma global_step_fresh acc d acc' : dget acc (pd_name d) = None -> global_step c tensor acc d = Ok acc' ->
  exists v, acc' = dset acc (pd_name d) v /\ gvalue d v.
Proof.
  intros Hf E. unfold global_step in E. apply rbind_Ok in E as (acc1 & E1 & E2).
  assert (Hno : dmem acc (pd_name d) = false) by (apply dmem_nIn, dget_None; exact Hf).
  assert (Hsame : absent (rc_params c) (pd_name d) \/ setting (rc_params c) (pd_name d) tensor None -> acc1 = acc ->
    exists v, acc' = dset acc (pd_name d) v /\ gvalue d v).
  { intros Ha ->. rewrite Hno in E2. destruct (pd_required d) eqn:Er; [discriminate|]. injection E2 as <-.
    exists (pd_default d). split; [reflexivity|]. right. auto. }
  destruct (rc_params c) as [ps|] eqn:Ep.
  - destruct (dget ps (pd_name d)) as [s|] eqn:Es.
    + apply rbind_Ok in E1 as (v & Ev & E1). injection E1 as <-. destruct v as [v|].
      * assert (Hm : dmem (dset acc (pd_name d) (Some v)) (pd_name d) = true) by (apply dmem_In, dkeys_dset_In; now left).
        rewrite Hm in E2. injection E2 as <-. exists (Some v). split; [reflexivity|]. left. exists v. split; [reflexivity|].
        rewrite Ep. exists ps, s. auto.
      * apply Hsame; [|reflexivity]. right. exists ps, s. auto.
    + injection E1 as <-. apply Hsame; [|reflexivity]. left. intros ? [= <-]. now apply dget_None.
  - injection E1 as <-. apply Hsame; [|reflexivity]. left. intros ? [=].
Qed.

Lemma global_loop : forall ds acc g,
  NoDup (map pd_name ds) -> (forall d, In d ds -> dget acc (pd_name d) = None) ->
  rfold (global_step c tensor) acc ds = Ok g ->
  (forall d, In d ds -> exists v, dget g (pd_name d) = Some v /\ gvalue d v) /\
  (forall k, (forall d, In d ds -> pd_name d <> k) -> dget g k = dget acc k) /\
  (forall k, In k (dkeys g) <-> In k (dkeys acc) \/ In k (map pd_name ds)).
Proof.
  induction ds as [|d ds IH]; intros acc g Hnd Hf E.
  - cbn in E. injection E as <-. split; [intros ? []|]. split; [reflexivity|]. intros k. cbn. tauto.
  - cbn [rfold] in E. apply rbind_Ok in E as (acc1 & E1 & E2). cbn [map] in Hnd. inversion Hnd as [|? ? Hni Hnd']; subst.
    apply global_step_fresh in E1 as (v & -> & Hv); [|apply Hf; now left].
    assert (Hf' : forall d', In d' ds -> dget (dset acc (pd_name d) v) (pd_name d') = None).
    { intros d' Hd'. rewrite dget_dset_neq; [apply Hf; now right|]. intros Heq. apply Hni. first [rewrite Heq; now apply in_map | rewrite <- Heq; now apply in_map]. }
    destruct (IH _ _ Hnd' Hf' E2) as (H1 & H2 & H3).
    split; [|split].
    + intros d' [<-|Hd']; [|auto]. exists v. split; [|exact Hv]. rewrite H2, dget_dset_eq; [reflexivity|].
      intros d' Hd' Heq. apply Hni. rewrite <- Heq. now apply in_map.
    + intros k Hk. rewrite H2; [|intros d' Hd'; apply Hk; now right]. apply dget_dset_neq. apply not_eq_sym, Hk. now left.
    + intros k. rewrite H3, dkeys_dset_In. cbn [map In]. intuition congruence.
Qed.

(** the loop raises RuntimeError exactly when a required parameter has no value *)
Lemma global_step_total acc d : evaluates (rc_params c) (pd_name d) tensor ->
  (exists acc', global_step c tensor acc d = Ok acc') \/
  (global_step c tensor acc d = Err RuntimeError /\ pd_required d = true /\
   (absent (rc_params c) (pd_name d) \/ setting (rc_params c) (pd_name d) tensor None)).
Proof.
  intros He. unfold global_step. assert (Hs : forall acc1 : dict string (option pval), (exists acc',
     (if dmem acc1 (pd_name d) then Ok acc1 else if pd_required d then Err RuntimeError else Ok (dset acc1 (pd_name d) (pd_default d))) = Ok acc')
    \/ (if dmem acc1 (pd_name d) then Ok acc1 else if pd_required d then Err RuntimeError else Ok (dset acc1 (pd_name d) (pd_default d))) = Err RuntimeError
       /\ pd_required d = true).
  { intros acc1. destruct (dmem acc1 (pd_name d)); [eauto|]. destruct (pd_required d); eauto. }
  destruct He as [Ha|(v & ps & s & Ep & Es & Ev)].
  - destruct (rc_params c) as [ps|] eqn:Ep.
    + destruct (dget ps (pd_name d)) as [s|] eqn:Es.
      * exfalso. apply (Ha ps eq_refl). now apply (dget_Some_key ps (pd_name d)); exists s.
      * cbn [rbind]. destruct (Hs acc) as [?|[? ?]]; auto.
    + cbn [rbind]. destruct (Hs acc) as [?|[? ?]]; auto.
  - rewrite Ep, Es. unfold eval0. rewrite Ev. cbn [rbind]. destruct v as [v|].
    + assert (Hm : dmem (dset acc (pd_name d) (Some v)) (pd_name d) = true) by (apply dmem_In, dkeys_dset_In; now left).
      rewrite Hm. eauto.
    + destruct (Hs acc) as [?|[? ?]]; [auto|]. right. split; [assumption|]. split; [assumption|]. right. exists ps, s. auto.
Qed.
End G.

Lemma global_loop_total c tensor : forall ds acc,
  (forall d, In d ds -> evaluates (rc_params c) (pd_name d) tensor) ->
  (exists g, rfold (global_step c tensor) acc ds = Ok g) \/
  (rfold (global_step c tensor) acc ds = Err RuntimeError /\ exists d, In d ds /\ pd_required d = true /\
   (absent (rc_params c) (pd_name d) \/ setting (rc_params c) (pd_name d) tensor None)).
Proof.
  induction ds as [|d ds IH]; intros acc He; cbn [rfold]; [eauto|].
  destruct (global_step_total c tensor acc d (He d (or_introl eq_refl))) as [[acc' ->]|(-> & Hr & Ha)]; cbn [rbind].
  - destruct (IH acc' (fun d' H => He d' (or_intror H))) as [?|(E & d' & Hd' & H)]; [auto|]. right. split; [exact E|].
    exists d'. split; [now right|exact H].
  - right. split; [reflexivity|]. exists d. split; [now left|auto].
Qed.

(** ** per-model parameters *)
Section T.
Variables (c : raw_config) (tensor : string).

Lemma tensor_value_Ok d m v : tensor_value c tensor d m = Ok v ->
  exists e, setting (md_params m) (pd_name d) tensor e /\
    ((truthy_val e = true /\ v = e) \/
     (truthy_val e = false /\ exists ge, setting (rc_params c) (pd_name d) tensor ge /\
        ((truthy_val ge = true /\ v = ge) \/
         (truthy_val ge = false /\ pd_required d = false /\ v = pd_default d)))).
Proof.
  unfold tensor_value. destruct (md_params m) as [ps|] eqn:Em; [|discriminate]. intros E.
  apply rbind_Ok in E as (e & Ee & E). destruct (dget ps (pd_name d)) as [s|] eqn:Es.
  2: { rewrite eval0_nil in Ee. discriminate. }
  exists e. split; [exists ps, s; auto|]. destruct (truthy_val e) eqn:Et.
  { injection E as <-. left. auto. }
  right. split; [reflexivity|]. apply rbind_Ok in E as (ge & Eg & E). exists ge.
  destruct (rc_params c) as [[|x gs]|] eqn:Ep; try (rewrite eval0_nil in Eg; discriminate).
  destruct (dget (x :: gs) (pd_name d)) as [s'|] eqn:Es'; [|rewrite eval0_nil in Eg; discriminate].
  split; [exists (x :: gs), s'; auto|]. destruct (truthy_val ge) eqn:Etg.
  - injection E as <-. left. auto.
  - destruct (pd_required d) eqn:Er; [discriminate|]. injection E as <-. right. auto.
Qed.

Definition entry (t : tparams) (m name : string) : option (option pval) :=
  match dget t m with Some tm => dget tm name | None => None end.

Lemma tensor_step_entry d acc m acc' : tensor_step c tensor d acc m = Ok acc' ->
  exists v, tensor_value c tensor d m = Ok v /\
    entry acc' (md_model m) (pd_name d) = Some v /\
    (forall k n, k <> md_model m \/ n <> pd_name d -> entry acc' k n = entry acc k n) /\
    (forall k, In k (dkeys acc') <-> k = md_model m \/ In k (dkeys acc)).
Proof.
  unfold tensor_step. intros E. apply rbind_Ok in E as (v & Ev & E). injection E as <-. exists v. split; [exact Ev|].
  split; [|split].
  - unfold entry. rewrite dget_dset_eq. apply dget_dset_eq.
  - intros k n Hkn. unfold entry. rewrite dget_dset. destruct (eqb_spec k (md_model m)) as [->|Hk]; [|reflexivity].
    destruct Hkn as [[]|Hn]; [reflexivity|]. rewrite dget_dset_neq by congruence. destruct (dget acc (md_model m)); reflexivity.
  - intros k. apply dkeys_dset_In.
Qed.

(** one pass over the models *)
Lemma inner_loop d : forall ms acc acc', rfold (tensor_step c tensor d) acc ms = Ok acc' ->
  (forall pre m post, ms = pre ++ m :: post -> ~ In (md_model m) (map md_model post) ->
     exists v, tensor_value c tensor d m = Ok v /\ entry acc' (md_model m) (pd_name d) = Some v) /\
  (forall m, In m ms -> exists v, tensor_value c tensor d m = Ok v) /\
  (forall k n, n <> pd_name d \/ ~ In k (map md_model ms) -> entry acc' k n = entry acc k n) /\
  (forall k, In k (dkeys acc') <-> In k (map md_model ms) \/ In k (dkeys acc)).
Proof.
  induction ms as [|m0 ms IH]; intros acc acc' E.
  - cbn in E. injection E as <-. split; [intros [|? ?] ? ? [=]|]. split; [intros ? []|]. split; [reflexivity|]. intros k. cbn. tauto.
  - cbn [rfold] in E. apply rbind_Ok in E as (a1 & E1 & E2).
    destruct (tensor_step_entry d acc m0 a1 E1) as (v & Ev & He & Ho & Hk). destruct (IH a1 acc' E2) as (H1 & H2 & H3 & H4).
    split; [|split; [|split]].
    + intros [|p pre] m post Heq Hni; injection Heq as <- Heq.
      * subst post. exists v. split; [exact Ev|]. rewrite H3; [exact He|now right].
      * subst ms. apply (H1 pre m post eq_refl Hni).
    + intros m [<-|Hm]; eauto.
    + intros k n Hkn. cbn [map] in Hkn. rewrite H3, Ho; [reflexivity| |]; cbn [In] in Hkn.
      * destruct Hkn; [now right|left]. intros ->. apply H. now left.
      * destruct Hkn; [now left|right]. intros ?. apply H. now right.
    + intros k. rewrite H4, Hk. cbn [map In]. intuition congruence.
Qed.

Lemma outer_loop : forall ds acc acc', NoDup (map pd_name ds) ->
  rfold (fun acc d => rfold (tensor_step c tensor d) acc (rc_models c)) acc ds = Ok acc' ->
  (forall d m, In d ds -> last_def c m ->
     exists v, tensor_value c tensor d m = Ok v /\ entry acc' (md_model m) (pd_name d) = Some v) /\
  (forall d m, In d ds -> In m (rc_models c) -> exists v, tensor_value c tensor d m = Ok v) /\
  (forall k n, ~ In n (map pd_name ds) -> entry acc' k n = entry acc k n).
Proof.
  induction ds as [|d ds IH]; intros acc acc' Hnd E.
  - cbn in E. injection E as <-. split; [intros ? ? []|]. split; [intros ? ? []|reflexivity].
  - cbn [rfold] in E. apply rbind_Ok in E as (a1 & E1 & E2). cbn [map] in Hnd. inversion Hnd as [|? ? Hni Hnd']; subst.
    destruct (inner_loop d _ _ _ E1) as (I1 & I2 & I3 & _). destruct (IH _ _ Hnd' E2) as (H1 & H2 & H3).
    split; [|split].
    + intros d' m [<-|Hd'] Hl; [|auto]. destruct Hl as (pre & post & Heq & Hl). destruct (I1 _ _ _ Heq Hl) as (v & Ev & He).
      exists v. split; [exact Ev|]. rewrite H3 by exact Hni. exact He.
    + intros d' m [<-|Hd'] Hm; eauto.
    + intros k n Hn. cbn [map In] in Hn. rewrite H3 by tauto. apply I3. left. intros ->. tauto.
Qed.

Lemma inner_total d : forall ms acc, (forall m, In m ms -> exists v, tensor_value c tensor d m = Ok v) ->
  exists acc', rfold (tensor_step c tensor d) acc ms = Ok acc'.
Proof.
  induction ms as [|m ms IH]; intros acc H; cbn [rfold]; [eauto|]. destruct (H m (or_introl eq_refl)) as [v Hv].
  unfold tensor_step at 1. rewrite Hv. cbn [rbind]. apply IH. intros m' Hm'. apply H. now right.
Qed.
Lemma outer_total : forall ds acc,
  (forall d m, In d ds -> In m (rc_models c) -> exists v, tensor_value c tensor d m = Ok v) ->
  exists acc', rfold (fun acc d => rfold (tensor_step c tensor d) acc (rc_models c)) acc ds = Ok acc'.
Proof.
  induction ds as [|d ds IH]; intros acc H; cbn [rfold]; [eauto|].
  destruct (inner_total d (rc_models c) acc) as [a Ha]; [intros; apply H; [now left|assumption]|].
  rewrite Ha. cbn [rbind]. apply IH. intros d' m Hd'. apply H. now right.
Qed.
End T.

(** ** the plan *)
Lemma inputs_NoDup c : NoDup (inputs c).
Proof.
  unfold inputs. pose proof (dedup_NoDup (map md_model (rc_models c))) as Hn. destruct (rc_base c) as [b|]; [|exact Hn].
  destruct (mem b _) eqn:E; [exact Hn|]. apply mem_nIn in E. apply (Permutation_NoDup (Permutation_app_comm [b] _)). constructor; [exact E|exact Hn].
Qed.
Lemma inputs_In c x : In x (inputs c) <-> In x (map md_model (rc_models c)) \/ rc_base c = Some x.
Proof.
  unfold inputs. destruct (rc_base c) as [b|].
  - destruct (mem b _) eqn:E.
    + apply mem_In in E. rewrite dedup_In in *. split; [auto|]. intros [H|[= ->]]; auto.
    + rewrite in_app_iff, dedup_In. cbn [In]. split; [intros [H|[->|[]]]; auto|]. intros [H|[= ->]]; auto.
  - rewrite dedup_In. split; [auto|]. intros [H|[=]]. exact H.
Qed.

Lemma filter_len {A} (p : A -> bool) (l : list A) :
  (length (filter p l) <? length l)%nat = false <-> forall x, In x l -> p x = true.
Proof.
  rewrite Nat.ltb_ge. induction l as [|x l IH]; cbn [filter length]; [split; [intros _ ? []|lia]|].
  assert (Hle : (length (filter p l) <= length l)%nat) by (clear; induction l; cbn; [lia|destruct (p a); cbn; lia]).
  destruct (p x) eqn:E; cbn [length].
  - rewrite <- Nat.succ_le_mono, IH. split; [intros H y [<-|Hy]; auto|intros H y Hy; apply H; now right].
  - split; [lia|]. intros H. specialize (H x (or_introl eq_refl)). congruence.
Qed.
