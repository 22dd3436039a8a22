(** The depth-first construction of the merge tasks. *)
From Coq Require Import Relations.
From Verif.Base Require Import Py PyFacts.
From Verif.Graph Require Import Model Spec UniverseProofs ExecProofs Proofs.
From Verif.Multimerge Require Import Model Spec.

Lemma trans_refl_trans {A} (R : relation A) x y : clos_trans A R x y -> clos_refl_trans A R x y.
Proof. induction 1; [apply rt_step; assumption | eapply rt_trans; eassumption]. Qed.
Lemma refl_trans_trans {A} (R : relation A) x y z : clos_refl_trans A R x y -> clos_trans A R y z -> clos_trans A R x z.
Proof. intros H. induction H; intros Hz; [eapply t_trans; [apply t_step; eassumption | exact Hz] | exact Hz | auto]. Qed.
Lemma trans_refl_trans_r {A} (R : relation A) x y z : clos_trans A R x y -> clos_refl_trans A R y z -> clos_trans A R x z.
Proof. intros Hxy H. revert x Hxy. induction H; intros w Hw; [eapply t_trans; [exact Hw | apply t_step; assumption] | exact Hw | auto]. Qed.
Lemma trans_first {A} (R : relation A) x z : clos_trans A R x z -> exists y, R x y /\ clos_refl_trans A R y z.
Proof.
  induction 1 as [x y H|x y z H1 IH1 H2 IH2]; [exists y; split; [exact H | apply rt_refl]|].
  destruct IH1 as (w & Hw & Hwy). exists w. split; [exact Hw|]. eapply rt_trans; [exact Hwy | apply trans_refl_trans, H2].
Qed.

Section Dfs.
Variables (configs : list mname) (deps : dict mname (list string)).
Hypothesis closed : forall n, In n configs ->
  exists ds, dget deps n = Some ds /\ NoDup ds /\ forall d, In d ds -> In (Some d) configs.

Lemma tree_fun n t : tree_of deps n t -> forall t', tree_of deps n t' -> t = t'.
Proof.
  induction 1 as [n ds args Hd Hm Ht IH]. intros t' H'. inversion H' as [n' ds' args' Hd' Hm' Ht' E1 E2]; subst n' t'.
  f_equal. rewrite Hd in Hd'. injection Hd' as <-. rewrite <- Hm in Hm'.
  clear Hd Hm H'. revert args' Hm' Ht'. induction args as [|[d t] args IHa]; intros [|[d' t'] args'] Hm' Ht'; try discriminate Hm'; [reflexivity|].
  injection Hm' as -> Hm'. f_equal.
  - f_equal. eapply IH; [left; reflexivity|]. apply Ht'. left; reflexivity.
  - apply IHa; auto.
    + intros; eapply Ht; right; eassumption.
    + intros d1 t1 Hin. apply IH. right; exact Hin.
    + intros; eapply Ht'; right; eassumption.
Qed.
Lemma tree_edge n t m : tree_of deps n t -> edge deps n m -> exists t' d, m = Some d /\ In (d, t') (targs t) /\ tree_of deps m t'.
Proof.
  intros H (ds & d & Hd & Hin & ->). inversion H as [n' ds' args Hd' Hm Ht]; subst. rewrite Hd in Hd'. injection Hd' as ->.
  apply in_map_iff in Hin as ([d' t'] & E & Hin). cbn in E. subst d'. exists t', d. split; [reflexivity|]. split; [exact Hin | apply Ht, Hin].
Qed.
Lemma tree_reaches n m : reaches deps n m -> forall t, tree_of deps n t -> exists t', tree_of deps m t'.
Proof.
  intros H. induction H as [x y H|x|x y z H1 IH1 H2 IH2]; intros t Ht.
  - destruct (tree_edge _ _ _ Ht H) as (t' & d & _ & _ & Ht'). eauto.
  - eauto.
  - destruct (IH1 t Ht) as [t' Ht']. eauto.
Qed.
Lemma tree_acyclic n t : tree_of deps n t -> ~ clos_trans mname (edge deps) n n.
Proof.
  induction 1 as [n ds args Hd Hm Ht IH]. intros Hc. apply trans_first in Hc as (y & (ds' & d & Hd' & Hin & ->) & Hr).
  rewrite Hd in Hd'. injection Hd' as ->. subst ds'. apply in_map_iff in Hin as ([d' t'] & E & Hin'). cbn in E. subst d'.
  eapply IH; [exact Hin'|]. eapply refl_trans_trans; [exact Hr|]. apply t_step. exists (map fst args), d.
  split; [exact Hd|]. split; [apply (in_map fst) in Hin'; exact Hin' | reflexivity].
Qed.

Record inv (stack touched : list mname) (tasks : dict mname mtask) : Prop := {
  i_nodup : NoDup touched;
  i_in : forall x, In x touched <-> In x stack \/ In x (dkeys tasks);
  i_sub : forall x, In x touched -> In x configs;
  i_tree : forall n t, dget tasks n = Some t -> tree_of deps n t;
  i_disj : forall x, In x stack -> ~ In x (dkeys tasks)
}.

Definition post (stack : list mname) (name : mname) (st : dfs_state) (r : result (mtask * dfs_state)) : Prop :=
  match r with
  | Err e => e = ValueError /\ exists x, reaches deps name x /\ clos_trans mname (edge deps) x x
  | Ok (t, st') =>
      tree_of deps name t /\ inv stack (fst st') (snd st') /\
      (forall n t0, dget (snd st) n = Some t0 -> dget (snd st') n = Some t0) /\
      dget (snd st') name = Some t /\ length (fst st) <= length (fst st')
  end.

Lemma make_task_spec fuel : forall name stack st, inv stack (fst st) (snd st) -> In name configs ->
  (forall s, In s stack -> clos_trans mname (edge deps) s name) -> length configs < fuel + length (fst st) ->
  post stack name st (make_task configs deps fuel name st).
Proof.
  induction fuel as [|fuel IH]; intros name stack [touched tasks] I Hname Hstack Hfuel; cbn [fst snd] in *; cbn [make_task fst snd].
  - destruct (dget tasks name) as [t|] eqn:Et; [cbn; repeat split; auto; try apply I; exact Et|].
    destruct (mem name touched) eqn:Em.
    + cbn. split; [reflexivity|]. exists name. split; [apply rt_refl|]. apply Hstack. apply mem_In in Em.
      apply (i_in _ _ _ I) in Em as [Hs|Hk]; [exact Hs|]. apply dget_None in Et. contradiction.
    + exfalso. apply mem_nIn in Em.
      assert (length (name :: touched) <= length configs).
      { apply NoDup_incl_length; [constructor; [exact Em | apply I]|]. intros x [<-|Hx]; [exact Hname | eapply i_sub; eassumption]. }
      cbn in *. lia.
  - destruct (dget tasks name) as [t|] eqn:Et; [cbn; split; [apply I, Et|]; split; [exact I|]; auto|].
    destruct (mem name touched) eqn:Em.
    + cbn. split; [reflexivity|]. exists name. split; [apply rt_refl|]. apply Hstack. apply mem_In in Em.
      apply (i_in _ _ _ I) in Em as [Hs|Hk]; [exact Hs|]. apply dget_None in Et. contradiction.
    + apply mem_nIn in Em. rewrite (proj2 (mem_In name configs) Hname). cbn [negb].
      destruct (closed name Hname) as (ds & Hds & Hnd & Hsub). unfold dgetE. rewrite Hds. cbn [rbind].
      assert (I1 : inv (name :: stack) (name :: touched) tasks).
      { constructor.
        - constructor; [exact Em | apply I].
        - intros x. cbn. rewrite (i_in _ _ _ I). tauto.
        - intros x [<-|Hx]; [exact Hname | eapply i_sub; eassumption].
        - apply I.
        - intros x [<-|Hx]; [apply dget_None, Et | eapply i_disj; eassumption]. }
      match goal with |- context[rbind (?g ds _) _] => set (go := g) end.
      assert (Hgo : forall l st0, (forall d, In d l -> In d ds) -> inv (name :: stack) (fst st0) (snd st0) ->
        length configs < fuel + length (fst st0) ->
        match go l st0 with
        | Err e => e = ValueError /\ exists x, reaches deps name x /\ clos_trans mname (edge deps) x x
        | Ok (args, st') => map fst args = l /\ (forall d t, In (d, t) args -> tree_of deps (Some d) t) /\
            inv (name :: stack) (fst st') (snd st') /\ (forall n t0, dget (snd st0) n = Some t0 -> dget (snd st') n = Some t0) /\
            length (fst st0) <= length (fst st')
        end).
      { induction l as [|d l IHl]; intros st0 Hl I0 Hf0; cbn.
        - split; [reflexivity|]. split; [intros ? ? []|]. split; [exact I0|]. split; auto.
        - assert (Hedge : edge deps name (Some d)) by (exists ds, d; split; [exact Hds|]; split; [apply Hl; left; reflexivity | reflexivity]).
          assert (Hd : post (name :: stack) (Some d) st0 (make_task configs deps fuel (Some d) st0)).
          { apply IH; auto.
            - apply Hsub, Hl. left; reflexivity.
            - intros s [<-|Hs]; [apply t_step, Hedge|]. eapply t_trans; [apply Hstack, Hs | apply t_step, Hedge]. }
          destruct (make_task configs deps fuel (Some d) st0) as [[t st1]|e]; cbn [rbind] in *.
          + destruct Hd as (Htree & I2 & Hext & _ & Hlen).
            specialize (IHl st1 (fun d' Hd' => Hl d' (or_intror Hd')) I2 ltac:(lia)).
            destruct (go l st1) as [[args st2]|e]; cbn.
            * destruct IHl as (Hm & Ht & I3 & Hext2 & Hlen2). cbn. split; [f_equal; exact Hm|].
              split; [intros d' t' [[= <- <-]|Hin]; auto|]. split; [exact I3|]. split; [auto|lia].
            * exact IHl.
          + destruct Hd as (-> & x & Hx & Hc). split; [reflexivity|]. exists x. split; [|exact Hc].
            eapply rt_trans; [apply rt_step, Hedge | exact Hx]. }
      specialize (Hgo ds (name :: touched, tasks) (fun d Hd => Hd) I1 ltac:(cbn; lia)).
      destruct (go ds (name :: touched, tasks)) as [[args [touched2 tasks2]]|e]; cbn [rbind fst snd] in *; [|exact Hgo].
      destruct Hgo as (Hm & Ht & I3 & Hext & Hlen). cbn in Hlen. unfold post. cbn [fst snd].
      assert (Htree : tree_of deps name (Node name args)) by (econstructor; eassumption).
      assert (Hns : ~ In name stack) by (intros Hs; apply Em; apply (i_in _ _ _ I); left; exact Hs).
      split; [exact Htree|]. split; [|split; [|split; [apply dget_dset_eq | lia]]].
      * constructor.
        { apply I3. }
        { intros x. rewrite (i_in _ _ _ I3), dkeys_dset_In. cbn. intuition congruence. }
        { apply I3. }
        { intros n t. rewrite dget_dset. destruct (eqb_spec n name) as [->|_]; [intros [= <-]; exact Htree | apply I3]. }
        { intros x Hx Hk. apply dkeys_dset_In in Hk as [->|Hk]; [contradiction|]. eapply (i_disj _ _ _ I3); [right; exact Hx | exact Hk]. }
      * intros n t0 Hn. rewrite dget_dset. destruct (eqb_spec n name) as [->|_]; [congruence | apply Hext, Hn].
Qed.

Lemma make_all_spec requested : forall st, inv [] (fst st) (snd st) -> (forall n, In n requested -> In n configs) ->
  match make_all configs deps requested st with
  | Err e => e = ValueError /\ circular deps requested
  | Ok ts => Forall2 (tree_of deps) requested ts
  end.
Proof.
  induction requested as [|n l IH]; intros st I Hsub; cbn [make_all]; [constructor|].
  pose proof (make_task_spec (S (length configs)) n [] st I (Hsub n (or_introl eq_refl)) ltac:(intros s []) ltac:(lia)) as Hp.
  destruct (make_task configs deps (S (length configs)) n st) as [[t st']|e]; cbn [rbind] in *.
  - destruct Hp as (Ht & I' & _). specialize (IH st' I' (fun x Hx => Hsub x (or_intror Hx))).
    destruct (make_all configs deps l st') as [ts|e]; cbn [rbind].
    + constructor; assumption.
    + destruct IH as (-> & r & x & Hr & Hx). split; [reflexivity|]. exists r, x. split; [right; exact Hr | exact Hx].
  - destruct Hp as (-> & x & Hx). split; [reflexivity|]. exists n, x. split; [left; reflexivity | exact Hx].
Qed.

Lemma tree_not_circular requested ts : Forall2 (tree_of deps) requested ts -> ~ circular deps requested.
Proof.
  intros HF (r & x & Hr & Hx & Hc).
  assert (exists t, tree_of deps r t) as [t Ht].
  { clear -HF Hr. induction HF as [|n t l l' Ht _ IH]; [destruct Hr|]. destruct Hr as [->|Hr]; [eauto | auto]. }
  destruct (tree_reaches _ _ Hx t Ht) as [t' Ht']. exact (tree_acyclic _ _ Ht' Hc).
Qed.

Lemma tree_label n t : tree_of deps n t -> label t = n.
Proof. destruct 1; reflexivity. Qed.
Lemma tree_wf n t : In n configs -> tree_of deps n t -> wf_task t.
Proof.
  intros Hin H. revert Hin. induction H as [n ds args Hd Hm Ht IH]. intros Hin.
  destruct (closed n Hin) as (ds' & Hd' & Hnd & Hsub). rewrite Hd in Hd'. injection Hd' as <-.
  subst ds; constructor; [exact Hnd|]. intros d t Hdt. eapply IH; [exact Hdt|]. apply Hsub. apply (in_map fst) in Hdt. exact Hdt.
Qed.
Lemma tree_needs (C : mtask -> Prop) n t t' : In n configs -> tree_of deps n t -> needs C t t' ->
  exists m, reaches deps n m /\ In m configs /\ tree_of deps m t'.
Proof.
  intros Hin Ht H. revert n Hin Ht. induction H as [t _|t k a t' _ Hka _ IH]; intros n Hin Ht.
  - exists n. split; [apply rt_refl | auto].
  - inversion Ht as [n' ds args Hd Hm Hargs]; subst. cbn in Hka.
    destruct (closed n Hin) as (ds' & Hd' & _ & Hsub). rewrite Hd in Hd'. injection Hd' as <-.
    assert (Hk : In k (map fst args)) by (apply (in_map fst) in Hka; exact Hka).
    destruct (IH (Some k) (Hsub k Hk) (Hargs _ _ Hka)) as (m & Hm & Hmc & Htm). exists m. split; [|auto].
    eapply rt_trans; [|exact Hm]. apply rt_step. exists (map fst args), k. auto.
Qed.
End Dfs.
