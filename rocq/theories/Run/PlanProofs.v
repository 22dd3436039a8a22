(** Facts about every task the planner makes. *)
From Coq Require Import QArith Lia.
From Verif.Base Require Import Py PyFacts.
From Verif.Config Require Import Model.
From Verif.Arch Require Import Model.
From Verif.Plan Require Import Model.
Local Open Scope list_scope.

Section Planned.
Context {M : Type} `{Eqb M}.
Variable W : world M.

(** the task is for the weight it is listed with, its sources are a dict, and it is permuted only with a tokenizer *)
Definition fine (wt : weight_info * merge_task M) : Prop :=
  mt_weight (snd wt) = fst wt /\ NoDup (dkeys (mt_gather (snd wt))) /\ (mt_permuted (snd wt) = true -> w_tokenizer W = true).

Lemma rmapM_In_inv {A B} (f : A -> result B) l out y : rmapM f l = Ok out -> In y out -> exists x, In x l /\ f x = Ok y.
Proof.
  intros Hr. apply rmapM_Ok_Forall2 in Hr. induction Hr as [|a b l out Hab _ IH]; cbn; [tauto|]. intros [->|Hy]; [eauto|].
  destruct (IH Hy) as (x & ? & ?). eauto.
Qed.

Lemma plan_tensor_fine w ins models r o : plan_tensor W w ins models r = Ok o -> Forall fine (appended w o).
Proof.
  unfold plan_tensor. destruct (if wi_optional w then _ else _) as [p|]; cbn [rbind]; [|discriminate].
  destruct (negb p); [intros [= <-]; constructor|].
  destruct (read_params _ _ _ _) as [gp|]; cbn [rbind]; [|discriminate].
  destruct (rmapM _ _) as [tp|]; cbn [rbind]; [|discriminate].
  intros [= <-]. constructor; [|constructor]. split; [reflexivity|]. cbn. split; [apply dict_of_NoDup|].
  intros E. now apply andb_true_iff in E.
Qed.

Lemma concat_fine {A} (f : A -> result (list (weight_info * merge_task M))) l ts :
  (forall x t, In x l -> f x = Ok t -> Forall fine t) -> rmapM f l = Ok ts -> Forall fine (concat ts).
Proof.
  intros Hf Hr. apply Forall_concat, Forall_forall. intros t Ht.
  destruct (rmapM_In_inv _ _ _ _ Hr Ht) as (x & Hx & E). eauto.
Qed.

Lemma plan_layer_fine out_cfg mdef srcs off t r k ts : plan_layer W out_cfg mdef srcs off t r k = Ok ts -> Forall fine ts.
Proof.
  unfold plan_layer. destruct (c_layer _ _ _) as [wo|]; cbn [rbind]; [|discriminate].
  destruct (rmapM _ srcs) as [wi|]; cbn [rbind]; [|discriminate].
  destruct (rmapM _ (enum wo)) as [l|] eqn:E; cbn [rbind]; [|discriminate]. intros [= <-].
  eapply concat_fine; [|exact E]. intros [i w] x _. cbv beta. destruct (rmapM _ wi) as [ins|]; cbn [rbind]; [|discriminate].
  destruct (plan_tensor _ _ _ _ _) as [o|] eqn:Ep; cbn [rbind]; [|discriminate]. intros [= <-]. eapply plan_tensor_fine; eauto.
Qed.
Lemma plan_layers_fine out_cfg mdef sl r num : forall idxs cur p, plan_layers W out_cfg mdef sl r num idxs cur = Ok p -> Forall fine (fst p).
Proof.
  induction idxs as [|i idxs IH]; cbn; intros cur p; [intros [= <-]; constructor|].
  destruct (plan_layer _ _ _ _ _ _ _ _) as [a|] eqn:Ea; cbn [rbind]; [|discriminate].
  destruct (plan_layers _ _ _ _ _ _ _ _) as [b|] eqn:Eb; cbn [rbind]; [|discriminate]. intros [= <-]. cbn.
  apply Forall_app. split; [eapply plan_layer_fine; eauto|eauto].
Qed.
Lemma plan_slices_fine c out_cfg mdef def : forall sls cur p, plan_slices W c out_cfg mdef def sls cur = Ok p -> Forall fine (fst p).
Proof.
  induction sls as [|sl sls IH]; cbn; intros cur p; [intros [= <-]; constructor|].
  destruct (plan_slice _ _ _ _ _ _ _) as [a|] eqn:Ea; cbn [rbind]; [|discriminate].
  destruct (plan_slices _ _ _ _ _ _ _) as [b|] eqn:Eb; cbn [rbind]; [|discriminate]. intros [= <-]. cbn.
  apply Forall_app. split; [|eauto]. unfold plan_slice in Ea. destruct (map slice_len (os_sources sl)); [discriminate|].
  destruct (forallb _ _); [|discriminate]. eapply plan_layers_fine; eauto.
Qed.
Lemma plan_outer_fine c def n sl ws ts : plan_outer W c def n sl ws = Ok ts -> Forall fine ts.
Proof.
  unfold plan_outer. destruct (rmapM _ _) as [l|] eqn:E; cbn [rbind]; [|discriminate]. intros [= <-].
  eapply concat_fine; [|exact E]. intros w x _. cbv beta.
  destruct (plan_tensor _ _ _ _ _) as [o|] eqn:Ep; cbn [rbind]; [|discriminate]. intros [= <-]. eapply plan_tensor_fine; eauto.
Qed.
Lemma plan_module_fine c out_cfg name def p : plan_module W c out_cfg name def = Ok p -> Forall fine (fst p).
Proof.
  unfold plan_module. destruct (dgetE _ _) as [mdef|]; cbn [rbind]; [|discriminate].
  destruct (c_pre _ _) as [pre|]; cbn [rbind]; [|discriminate].
  match goal with |- (let! _ := ?a in _) = _ -> _ => destruct a as [fst'|]; cbn [rbind]; [|discriminate] end.
  match goal with |- (let! _ := ?a in _) = _ -> _ => destruct a as [a'|] eqn:Ea; cbn [rbind]; [|discriminate] end.
  destruct (plan_slices _ _ _ _ _ _ _) as [b|] eqn:Eb; cbn [rbind]; [|discriminate].
  destruct (c_post _ _) as [post|]; cbn [rbind]; [|discriminate].
  match goal with |- (let! _ := ?a in _) = _ -> _ => destruct a as [d'|] eqn:Ed; cbn [rbind]; [|discriminate] end.
  intros [= <-]. cbn. rewrite !Forall_app. split; [|split].
  - destruct fst'; [eapply plan_outer_fine; eauto|injection Ea as <-; constructor].
  - eapply plan_slices_fine; eauto.
  - destruct fst'; [eapply plan_outer_fine; eauto|]. destruct post; [injection Ed as <-; constructor|discriminate].
Qed.
Lemma plan_fine c0 out_cfg ts : plan W c0 out_cfg = Ok ts -> Forall fine ts.
Proof.
  unfold plan. destruct (normalize_config W c0) as [c|]; cbn [rbind]; [|discriminate].
  destruct (rmapM _ _) as [l|] eqn:E; cbn [rbind]; [|discriminate]. intros [= <-].
  eapply concat_fine; [|exact E]. intros kv x _. cbv beta.
  destruct (plan_module _ _ _ _ _) as [p|] eqn:Ep; cbn [rbind]; [|discriminate]. intros [= <-]. eapply plan_module_fine; eauto.
Qed.
Lemma plan_to_disk_fine c0 out_cfg saves s : plan_to_disk W c0 out_cfg = Ok saves -> In s saves ->
  NoDup (dkeys (mt_gather (sv_task s))) /\ sv_name s = wi_name (mt_weight (sv_task s)) /\
  sv_optional s = wi_optional (mt_weight (sv_task s)) /\
  (mt_permuted (sv_task s) = true -> w_tokenizer W = true).
Proof.
  unfold plan_to_disk. destruct (plan W c0 out_cfg) as [ts|] eqn:E; cbn [rbind]; [|discriminate]. intros [= <-] Hin.
  apply plan_fine in E. rewrite Forall_forall in E. apply in_map_iff in Hin as (wt & <- & Hw).
  destruct (E wt Hw) as (E1 & E2 & E3). cbn. rewrite E1. auto.
Qed.
End Planned.
