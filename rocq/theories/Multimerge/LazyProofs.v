(** Interrupted merges and the lazy check. *)
From Verif.Base Require Import Py PyFacts PyStr.
From Verif.IO Require Import Model Spec WriterProofs FsProofs DirProofs LoaderProofs RunProofs.
From Verif.Multimerge Require Import Model Spec.
Local Open Scope string_scope.
Local Open Scope list_scope.

Section L.
Context {T : Type} (nbytes : T -> nat).
Implicit Types (f : fs T).

Definition touches (o : op T) : list string := match o with OWrite n _ | OTouch n => [n] | ORename a b => [a; b] end.
Lemma dget_ddel_other (f : fs T) a x : x <> a -> dget (ddel f a) x = dget f x.
Proof.
  intros H. induction f as [|[k v] f IH]; [reflexivity|]. cbn [ddel]. destruct (eqb_spec a k) as [->|Hk].
  - rewrite IH. cbn [dget]. rewrite (proj2 (eqb_neq x k) H). reflexivity.
  - cbn [dget]. destruct (eqb x k); [reflexivity | exact IH].
Qed.
Lemma apply_other o f f' x : apply o f = Ok f' -> ~ In x (touches o) -> dget f' x = dget f x.
Proof.
  destruct o as [n c|n|a b]; cbn.
  - intros [= <-] H. apply dget_dset_neq. intuition.
  - intros [= <-] H. apply dget_dset_neq. intuition.
  - destruct (dget f a); [|discriminate]. intros [= <-] H. rewrite dget_dset_neq by intuition. apply dget_ddel_other. intuition.
Qed.
Lemma apply_all_other p : forall f f' x, apply_all p f = Ok f' -> (forall o, In o p -> ~ In x (touches o)) -> dget f' x = dget f x.
Proof.
  induction p as [|o p IH]; intros f f' x E H; cbn in E; [congruence|].
  destruct (apply o f) as [f1|] eqn:E1; [|discriminate]. cbn [rbind] in E.
  rewrite (IH _ _ _ E (fun o' Ho => H o' (or_intror Ho))). apply (apply_other _ _ _ _ E1). apply H. left; reflexivity.
Qed.

Lemma prefix_app_str a b : String.prefix a (a ++ b)%string = true.
Proof. induction a as [|x a IH]; [destruct b; reflexivity|]. cbn. destruct (Ascii.ascii_dec x x); [exact IH | congruence]. Qed.

Variables (safe : bool) (max : Z) (saves : list (string * T)) (w : writer T) (jobs : list (string * content T)).
Variables (card : bool) (extra : list string).
Hypothesis Hsaves : saves <> [].
Hypothesis Hfine : safe = true \/ ~ In "state_dict" (map fst saves).
Hypothesis Hrun : save_all nbytes (new_writer safe None max) saves = (w, jobs).
Hypothesis Hextra : forall n, In n extra -> model_like n = false.

Definition after_names : list string := "config.json" :: (if card then ["README.md"; "mergekit_config.yml"] else []) ++ extra.
Lemma after_touches o : In o (after_ops (T := T) card extra) -> exists n, touches o = [n] /\ In n after_names.
Proof.
  unfold after_ops, after_names. intros H. apply in_app_or in H as [H|H].
  - destruct H as [<-|[<-|[]]]; exists "config.json"; cbn; auto.
  - apply in_app_or in H as [H|H].
    + destruct card; [|destruct H]. destruct H as [<-|[<-|[<-|[<-|[]]]]]; cbn; eexists; split; try reflexivity; auto.
    + apply in_flat_map in H as (n & Hn & [<-|[<-|[]]]); exists n; split; try reflexivity; right; apply in_or_app; auto.
Qed.
Lemma after_not_model n : In n after_names -> model_like n = false.
Proof.
  intros [<-|H]; [reflexivity|]. apply in_app_or in H as [H|H]; [|apply Hextra, H].
  destruct card; [|destruct H]. destruct H as [<-|[<-|[]]]; reflexivity.
Qed.

Definition wname (G : list (list (string * T))) (x : string) : Prop :=
  In x (map (tmp_name w) (seq 0 (length G))) \/ In x (map (dest w (length G)) (seq 0 (length G))) \/
  (1 < length G /\ x = index_name w).
Lemma prefix_model s : model_like (prefix_of w ++ s)%string = true.
Proof.
  unfold model_like. destruct (pack nbytes _ _ _ _ _ Hrun) as [G Hp]. unfold prefix_of. rewrite (pk_base _ _ _ _ _ _ _ Hp).
  destruct (w_safe w); rewrite prefix_app_str, ?orb_true_r; reflexivity.
Qed.
Lemma wname_model G x : wname G x -> model_like x = true.
Proof.
  intros [H|[H|[_ ->]]].
  - apply in_map_iff in H as (i & <- & _). apply prefix_model.
  - apply in_map_iff in H as (i & <- & _). unfold dest. destruct (Nat.eqb _ 1); apply prefix_model.
  - apply prefix_model.
Qed.

Lemma first_touches G q o x : packed nbytes safe max saves w jobs G ->
  merged (map (fun j => write_file (fst j) (snd j)) jobs) q -> In o (q ++ finalize_ops w) -> In x (touches o) -> wname G x.
Proof.
  intros Hp Hm Ho Hx. apply in_app_or in Ho as [Ho|Ho].
  - destruct (write_ops jobs q o Hm Ho) as [Hw Ht]. left. rewrite <- jobs_names, <- (pk_jobs _ _ _ _ _ _ _ Hp).
    destruct o; [| |destruct Hw]; destruct Hx as [<-|[]]; exact Ht.
  - rewrite finalize_eq, (pk_written _ _ _ _ _ _ _ Hp) in Ho. apply in_app_or in Ho as [Ho|Ho].
    + apply in_map_iff in Ho as ([a b] & <- & Hab). destruct Hx as [<-|[<-|[]]].
      * left. rewrite <- moves_fst. apply (in_map fst) in Hab. exact Hab.
      * right; left. rewrite <- moves_snd. apply (in_map snd) in Hab. exact Hab.
    + unfold index_ops in Ho. rewrite (pk_written _ _ _ _ _ _ _ Hp) in Ho. destruct (Nat.ltb_spec 1 (length G)) as [Hl|Hl]; [|destruct Ho].
      destruct Ho as [<-|[<-|[]]]; destruct Hx as [<-|[]]; right; right; auto.
Qed.

Definition found f : Prop := existsb (fun n => dmem f n) check_files = true.
Record Inv G f : Prop := {
  i_names : forall x, dget f x <> None -> wname G x \/ In x after_names;
  i_config : dget f "config.json" <> None -> loads f saves /\ found f
}.

Lemma dmem_get f n : dget f n <> None -> dmem f n = true.
Proof. intros H. unfold dmem. destruct (dget f n); congruence. Qed.
Lemma loads_found f : loads f saves -> found f.
Proof.
  intros (ix & E & _). unfold found, check_files. cbn [existsb]. unfold from_disk, find_model in E.
  change (@dmem string _ _ f) with (exists_ f). unfold exists_ in *.
  destruct (dmem f "model.safetensors"), (dmem f "pytorch_model.bin"), (dmem f "model.safetensors.index.json"), (dmem f "pytorch_model.bin.index.json"); cbn in *; try reflexivity; discriminate.
Qed.

Lemma inv_out_of_the_way G f : packed nbytes safe max saves w jobs G -> Inv G f -> out_of_the_way w G f.
Proof.
  intros Hp I. pose proof (pk_base _ _ _ _ _ _ _ Hp) as Hb. split.
  - intros Hl. destruct (dget f (index_name w)) eqn:E; [|reflexivity]. exfalso.
    destruct (i_names _ _ I (index_name w)) as [[H|[H|[H _]]]|H]; [congruence| | | lia|].
    + apply in_map_iff in H as (i & Ei & _). exact (tmp_index w i Ei).
    + apply in_map_iff in H as (i & Ei & _). exact (dest_index w _ i Ei).
    + apply after_not_model in H. unfold index_name in H. rewrite prefix_model in H. discriminate.
  - intros Hs. split.
    + destruct (dget f st_name) eqn:E; [|reflexivity]. exfalso.
      destruct (other_names w (length G) st_name Hb Hs (or_introl eq_refl)) as (A1 & A2 & A3).
      destruct (i_names _ _ I st_name) as [[H|[H|[_ H]]]|H]; [congruence|contradiction|contradiction|contradiction|]. apply after_not_model in H. discriminate.
    + destruct (dget f (st_name ++ ".index.json")%string) eqn:E; [|reflexivity]. exfalso.
      destruct (other_names w (length G) _ Hb Hs (or_intror eq_refl)) as (A1 & A2 & A3).
      destruct (i_names _ _ I (st_name ++ ".index.json")%string) as [[H|[H|[_ H]]]|H]; [congruence|contradiction|contradiction|contradiction|].
      apply after_not_model in H. discriminate.
Qed.

(** a run over [f] that got past the tensors *)
Lemma past_tensors G f f1 f' p' r : packed nbytes safe max saves w jobs G -> Inv G f -> dget f "config.json" = None ->
  written w G f f1 -> after_ops card extra = p' ++ r -> apply_all p' f1 = Ok f' -> loads f' saves.
Proof.
  intros Hp I Hc W E Ea. rewrite <- (pk_concat _ _ _ _ _ _ _ Hp).
  assert (Hp' : forall o, In o p' -> exists n, touches o = [n] /\ In n after_names).
  { intros o Ho. apply after_touches. rewrite E. apply in_or_app; auto. }
  assert (Hsame : forall x, model_like x = true -> dget f' x = dget f1 x).
  { intros x Hx. apply (apply_all_other _ _ _ _ Ea). intros o Ho Hin. destruct (Hp' o Ho) as (n & En & Hn). rewrite En in Hin.
    destruct Hin as [<-|[]]. apply after_not_model in Hn. congruence. }
  pose proof (pk_base _ _ _ _ _ _ _ Hp) as Hb.
  set (f0 := filter (fun kv => negb (model_like (fst kv))) f' ++ filter (fun kv => model_like (fst kv)) f : fs T).
  assert (Hf0 : forall x, dget f0 x = if model_like x then dget f x else dget f' x).
  { intros x. unfold f0. clear. 
    assert (H1 : forall g : fs T, dget (filter (fun kv => negb (model_like (fst kv))) g ++ filter (fun kv => model_like (fst kv)) f) x =
      if model_like x then dget f x else match dget g x with Some c => Some c | None => None end).
    { intros g. induction g as [|[k v] g IH]; cbn [filter app fst].
      - cbn [dget]. induction f as [|[k v] f IH]; cbn [filter fst dget]; [destruct (model_like x); reflexivity|].
        destruct (model_like k) eqn:Ek; cbn [dget].
        + destruct (eqb_spec x k) as [->|Hk]; [rewrite Ek; reflexivity | exact IH].
        + destruct (eqb_spec x k) as [->|Hk]; [rewrite IH, Ek; reflexivity | exact IH].
      - destruct (model_like k) eqn:Ek; cbn [negb app dget].
        + rewrite IH. destruct (eqb_spec x k) as [->|Hk]; [rewrite Ek|]; reflexivity.
        + rewrite IH. destruct (eqb_spec x k) as [->|Hk]; [rewrite Ek|]; reflexivity. }
    rewrite H1. destruct (model_like x); [reflexivity|]. destruct (dget f' x); reflexivity. }
  apply (written_loads w G f0 f'); try apply Hp.
  - intros ->. apply Hsaves. rewrite <- (pk_concat _ _ _ _ _ _ _ Hp). reflexivity.
  - rewrite (pk_safe _ _ _ _ _ _ _ Hp), (pk_concat _ _ _ _ _ _ _ Hp). exact Hfine.
  - destruct (inv_out_of_the_way G f Hp I) as [O1 O2]. split.
    + intros Hl. rewrite Hf0. unfold index_name at 1. rewrite prefix_model. auto.
    + intros Hs. rewrite !Hf0. cbn. apply O2, Hs.
  - constructor.
    + intros i g Hg. rewrite Hsame; [apply W, Hg|]. unfold dest. destruct (Nat.eqb _ 1); apply prefix_model.
    + intros i Hi. rewrite Hsame; [apply W, Hi | apply prefix_model].
    + intros Hl. rewrite Hsame; [apply W, Hl | apply prefix_model].
    + intros x H1 H2 H3. rewrite Hf0. destruct (model_like x) eqn:Ex; [|reflexivity]. rewrite Hsame by exact Ex. apply W; assumption.
Qed.

Lemma left_behind_inv G f : packed nbytes safe max saves w jobs G -> left_behind w jobs card extra f -> Inv G f.
Proof.
  intros Hp. induction 1 as [|f q p r f' Hl I Ha Hm E Ep].
  - constructor; cbn; congruence.
  - assert (Hc : dget f "config.json" = None).
    { destruct (dget f "config.json") eqn:Ec; [|reflexivity]. exfalso.
      destruct (i_config _ _ I) as [_ Hf]; [congruence|]. unfold already_there in Ha. rewrite dmem_get in Ha by congruence.
      unfold found in Hf. rewrite Hf in Ha. discriminate. }
    assert (Htouch : forall o x, In o p -> In x (touches o) -> wname G x \/ In x after_names).
    { intros o x Ho Hx. assert (Hin : In o ((q ++ finalize_ops w) ++ after_ops card extra)) by (rewrite E; apply in_or_app; auto).
      apply in_app_or in Hin as [Hin|Hin]; [left; eapply first_touches; eassumption|]. right.
      destruct (after_touches o Hin) as (n & En & Hn). rewrite En in Hx. destruct Hx as [<-|[]]; exact Hn. }
    constructor.
    + intros x Hx. destruct (in_dec string_dec x (flat_map touches p)) as [Hin|Hin].
      * apply in_flat_map in Hin as (o & Ho & Hox). eapply Htouch; eassumption.
      * apply (i_names _ _ I). rewrite <- (apply_all_other p f f' x Ep); [exact Hx|].
        intros o Ho Hox. apply Hin, in_flat_map. eauto.
    + intros Hcf. destruct (prefix_app _ _ _ _ E) as [[r' E']|(p' & E1 & E2)].
      * exfalso. apply Hcf. rewrite (apply_all_other p f f' _ Ep); [exact Hc|].
        intros o Ho Hox. assert (Hw : wname G "config.json").
        { eapply first_touches; try eassumption. rewrite E'. apply in_or_app; auto. }
        apply wname_model in Hw. discriminate.
      * subst p. rewrite apply_all_app in Ep.
        pose proof Hm as Hm'. rewrite (pk_jobs _ _ _ _ _ _ _ Hp) in Hm'.
        destruct (run_done w G q f Hm' (pk_written _ _ _ _ _ _ _ Hp)) as (f1 & E1 & W). rewrite E1 in Ep. cbn [rbind] in Ep.
        assert (loads f' saves) by (eapply past_tensors; eassumption). split; [assumption | apply loads_found; assumption].
Qed.

Lemma lazy_skip_loads f : left_behind w jobs card extra f -> already_there f = true -> loads f saves.
Proof.
  intros Hl Ha. destruct (pack nbytes _ _ _ _ _ Hrun) as [G Hp]. apply (i_config G f (left_behind_inv G f Hp Hl)).
  unfold already_there in Ha. apply andb_true_iff in Ha as [Ha _]. unfold dmem in Ha. destruct (dget f "config.json"); congruence.
Qed.

(** a finished run is recognised *)
Lemma lazy_done f q f' : left_behind w jobs card extra f -> already_there f = false ->
  merged (map (fun j => write_file (fst j) (snd j)) jobs) q ->
  apply_all ((q ++ finalize_ops w) ++ after_ops card extra) f = Ok f' ->
  already_there f' = true /\ (forall n, In n after_names -> dget f' n = Some FOther) /\ loads f' saves.
Proof.
  intros Hl Ha Hm Ep. destruct (pack nbytes _ _ _ _ _ Hrun) as [G Hp].
  assert (Hl' : left_behind w jobs card extra f') by (apply (lb_run w jobs card extra f q ((q ++ finalize_ops w) ++ after_ops card extra) [] f' Hl Ha Hm); [symmetry; apply app_nil_r | exact Ep]).
  pose proof (left_behind_inv G f' Hp Hl') as I'.
  assert (Hn : forall n, In n after_names -> dget f' n = Some FOther).
  { intros n Hn. rewrite apply_all_app in Ep. destruct (apply_all (q ++ finalize_ops w) f) as [f1|]; [|discriminate]. cbn [rbind] in Ep.
    assert (Hops : after_ops (T := T) card extra = flat_map (fun n => write_file n FOther) after_names).
    { unfold after_ops, after_names. destruct card; reflexivity. }
    rewrite Hops in Ep. clear -Ep Hn. revert f1 Ep. induction after_names as [|m l IH]; [destruct Hn|]. intros f1 Ep.
    cbn [flat_map write_file app] in Ep. cbn [apply_all apply rbind] in Ep.
    destruct (in_dec string_dec n l) as [Hl|Hl]; [apply (IH Hl _ Ep)|]. destruct Hn as [->|Hn]; [|contradiction].
    rewrite (apply_all_other _ _ _ n Ep); [apply dget_dset_eq|].
    intros o Ho Hin. apply in_flat_map in Ho as (k & Hk & [<-|[<-|[]]]); destruct Hin as [<-|[]]; contradiction. }
  destruct (i_config _ _ I') as [L F]; [rewrite Hn by (left; reflexivity); discriminate|].
  split; [|split; assumption]. unfold already_there. rewrite dmem_get; [exact F|]. rewrite Hn by (left; reflexivity). discriminate.
Qed.
End L.
