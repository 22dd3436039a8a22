(** C06: the partition computed by MultiGPUExecutor.__init__. *)
From Verif.Base Require Import Py PyFacts.
From Verif.Graph Require Import Model Spec UniverseProofs ScheduleProofs Proofs.
From Verif.MultiGPU Require Import Model Spec.
Local Open Scope list_scope.

Lemma pop_spec (ch : list nat -> nat) s :
  match set_pop ch s with
  | None => s = []
  | Some (x, r) => length s = Datatypes.S (length r) /\ forall y, In y s <-> y = x \/ In y r
  end.
Proof. exact (set_pop_spec [] (fun _ _ => 0) ch s). Qed.
Lemma adds_In (l s : list nat) y : In y (fold_left (fun s d => set_add d s) l s) <-> In y l \/ In y s.
Proof. exact (fold_set_add_In [] (fun _ _ => 0) l s y). Qed.

Section P.
Context {L : Type} `{Eqb L} (A : attrs L) (u : universe L) (targets : list nat).
Hypothesis Hwf : wf_u u.
Hypothesis Hcov : covers u targets.

Notation lt_u h := (h < length (u_tasks u)).

Lemma cov_targets h : In h targets -> lt_u h.
Proof. intros Hin. destruct (proj1 Hcov h Hin) as [t Ht]. eapply names_lt; eauto. Qed.

Lemma mto_iff h : mto A u h = true <-> main_only A u h.
Proof.
  unfold mto, task_attr, main_only, names. destruct (nth_error (u_tasks u) h) as [t|]; split.
  - intros E. exists t. auto.
  - intros (t' & [= <-] & E). exact E.
  - discriminate.
  - intros (t' & E & _). discriminate.
Qed.
Lemma per_gpu_iff h : per_gpu A u h = true <-> duplicated A u h.
Proof.
  unfold per_gpu, task_attr, duplicated, names. destruct (nth_error (u_tasks u) h) as [t|]; split.
  - intros E. exists t. auto.
  - intros (t' & [= <-] & E). exact E.
  - discriminate.
  - intros (t' & E & _). discriminate.
Qed.

(** ** The serial schedule *)
Definition good_sched (s : list nat) : Prop :=
  NoDup s /\ (forall h, In h s <-> lt_u h) /\
  (forall l1 h l2, s = l1 ++ h :: l2 -> forall d, depends u h d -> In d l1).

Lemma schedule_good ch : exists s, build_schedule A ch u targets [] = Ok s /\ good_sched (s_tasks s).
Proof.
  destruct (build_schedule_ok A u targets [] ch Hwf cov_targets) as (s & Es & [Hnd Hin Hord _] & _).
  exists s. split; [exact Es|].
  assert (Hall : forall h, In h (s_tasks s) <-> lt_u h).
  { intros h. rewrite Hin. split.
    - intros [Hr _]. eapply reachh_lt; eauto. apply cov_targets.
    - intros Hlt. destruct (lt_names u h Hlt) as [t Ht].
      pose proof (needs_reach u targets ([] : dict nat unit) (@no_env L unit) h t Hwf) as HR.
      apply HR; auto.
      + intros ? ? ?. reflexivity.
      + apply cov_targets.
      + destruct (proj2 Hcov h t Ht) as (ht & tt & H1 & H2 & H3). exists ht, tt. split; [|split]; auto.
        clear -H3. induction H3; [constructor|econstructor 2]; eauto; unfold env_cached, no_env; congruence. }
  split; [exact Hnd|]. split; [exact Hall|].
  intros l1 h l2 E d Hd. destruct (Hord l1 h l2 E d) as [[]|?]; auto.
  apply deps_depends; auto. apply Hall. rewrite E. apply in_elt.
Qed.

Lemma deps_iff h d : lt_u h -> (In d (deps u h) <-> depends u h d).
Proof. apply deps_depends, Hwf. Qed.
Lemma depends_lt h d : depends u h d -> lt_u h /\ lt_u d.
Proof. intros (t & k & a & H1 & H2 & H3). split; eapply names_lt; eauto. Qed.

(** ** Leading tasks *)
Lemma find_leading_ok s : good_sched s -> forall h, In h (find_leading A u s) <-> In h s /\ leading A u h.
Proof.
  intros (Hnd & Hall & Hord). unfold find_leading.
  assert (Hgen : forall rest done lead, s = done ++ rest ->
            (forall h, In h lead <-> In h done /\ leading A u h) ->
            forall h, In h (fold_left (fun lead h => if negb (mto A u h) then lead
                           else if existsb (fun d => negb (mem d lead)) (deps u h) then lead
                           else set_add h lead) rest lead) <-> In h s /\ leading A u h).
  { induction rest as [|x rest IH]; intros done lead Es Hl; cbn [fold_left].
    - rewrite app_nil_r in Es. subst. exact Hl.
    - apply (IH (done ++ [x])); [rewrite <- app_assoc; exact Es|]. intros h.
      assert (Hx : lt_u x) by (apply Hall; rewrite Es; apply in_elt).
      assert (Hlx : In x (set_add x lead) /\ leading A u x \/ ~ leading A u x -> True) by auto. clear Hlx.
      assert (Hstep : leading A u x <-> mto A u x = true /\ existsb (fun d => negb (mem d lead)) (deps u x) = false).
      { split.
        - intros HL. inversion HL as [? Hm Hd]; subst. split; [now apply mto_iff|].
          apply not_true_is_false. intros E. apply existsb_exists in E as (d & Hin & E).
          apply negb_true_iff, mem_nIn in E. apply E. apply deps_iff in Hin; auto. apply Hl. split; auto.
          eapply Hord; eauto.
        - intros [Hm He]. constructor; [now apply mto_iff|]. intros d Hd. apply deps_iff in Hd; auto.
          assert (E : negb (mem d lead) = false).
          { apply not_true_is_false. intros E. rewrite <- not_true_iff_false in He. apply He.
            apply existsb_exists. eauto. }
          apply negb_false_iff, mem_In, Hl in E. tauto. }
      rewrite in_app_iff. cbn [In].
      destruct (mto A u x); cbn [negb].
      + destruct (existsb _ _).
        * rewrite Hl. split; [tauto|]. intros [[Hd|[<-|[]]] HL]; [tauto|]. apply Hstep in HL. destruct HL. discriminate.
        * rewrite set_add_In, Hl. split; [|intros [[Hd|[<-|[]]] HL]; auto].
          intros [-> | ?]; [|tauto]. split; [tauto|]. apply Hstep. auto.
      + rewrite Hl. split; [tauto|]. intros [[Hd|[<-|[]]] HL]; [tauto|]. apply Hstep in HL. destruct HL. discriminate. }
  apply (Hgen s [] []); [reflexivity|]. cbn. tauto.
Qed.

(** ** Trailing tasks *)
Lemma dependants_iff h x : In x (dependants u h) <-> depends u x h.
Proof.
  unfold dependants. rewrite in_map_iff. split.
  - intros ([k d] & <- & Hin). apply filter_In in Hin as [Hin Hm]. cbn in *. apply mem_In in Hm.
    assert (Hk : lt_u k). { apply (inv_akeys _ _ Hwf). apply in_map_iff. exists (k, d). auto. }
    apply deps_iff; auto. unfold deps, args_of.
    rewrite (dget_In_NoDup _ _ _ (inv_andup _ _ Hwf) Hin). exact Hm.
  - intros Hd. destruct (depends_lt _ _ Hd) as [Hx _]. apply deps_iff in Hd; auto.
    unfold deps, args_of in Hd. destruct (dget (u_args u) x) as [d|] eqn:E; [|destruct Hd].
    exists (x, d). split; [reflexivity|]. apply filter_In. split; [now apply dget_In|]. cbn. now apply mem_In.
Qed.

Lemma sum_app l1 l2 : sum (l1 ++ l2) = sum l1 + sum l2.
Proof. unfold sum. induction l1; cbn; lia. Qed.

Lemma set_pop_size (ch : list nat -> nat) s x r (f : nat -> nat) :
  set_pop ch s = Some (x, r) -> sum (map f s) = f x + sum (map f r).
Proof.
  destruct s as [|x0 s]; [discriminate|]. unfold set_pop. set (s' := x0 :: s). set (i := ch s' mod length s').
  intros E. assert (Ex : nth i s' x0 = x /\ firstn i s' ++ skipn (Datatypes.S i) s' = r).
  { injection E as E1 E2. split; [exact E1|exact E2]. } clear E. destruct Ex as [<- <-].
  assert (Hi : i < length s') by (apply Nat.mod_upper_bound; cbn; lia).
  rewrite <- (firstn_skipn i s') at 1. rewrite !map_app, !sum_app.
  assert (Hs : skipn i s' = nth i s' x0 :: skipn (Datatypes.S i) s').
  { clearbody s' i. revert s' Hi. induction i as [|i IH]; intros [|y s'] Hi; cbn in *; try lia; [reflexivity|]. apply IH. lia. }
  rewrite Hs at 1. cbn [map]. unfold sum at 2. cbn [fold_right]. fold (sum (map f (skipn (Datatypes.S i) s'))). lia.
Qed.

Lemma fold_set_add_size (l s : list nat) (f : nat -> nat) :
  sum (map f (fold_left (fun s d => set_add d s) l s)) <= sum (map f l) + sum (map f s).
Proof.
  revert s; induction l as [|x l IH]; intros s; cbn [fold_left map]; [cbn; lia|].
  etransitivity; [apply IH|]. unfold sum at 3. cbn [fold_right]. fold (sum (map f l)).
  unfold set_add. destruct (mem x s); [lia|]. rewrite map_app, sum_app. cbn. lia.
Qed.

Lemma deps_size h : lt_u h -> sum (map (handle_size u) (deps u h)) < handle_size u h.
Proof.
  intros Hh. destruct (lt_names u h Hh) as [t Ht]. destruct (wf_args u h t Hwf Ht) as (d & _ & Ed & Hargs).
  unfold deps. rewrite Ed. unfold handle_size at 2. rewrite Ht. destruct t as [l args]. cbn [tree_size targs] in *.
  apply le_n_S. clear -Hargs. induction Hargs as [|[k t] [k' j] args d [_ Hn] _ IH]; cbn; [lia|].
  unfold names in Hn. cbn [snd] in Hn. assert (E : handle_size u j = tree_size t) by (unfold handle_size; now rewrite Hn).
  unfold sum in IH. lia.
Qed.

Lemma trailing_loop_ok ch : forall fuel T X,
  sum (map (handle_size u) X) < fuel ->
  (forall h, In h X -> lt_u h) ->
  (forall h, In h T -> trailing A u h) ->
  (forall h, lt_u h -> mto A u h = true -> (forall d, In d (dependants u h) -> In d T) -> In h T \/ In h X) ->
  exists T', trailing_loop A u ch fuel T X = Ok T' /\ forall h, In h T' <-> trailing A u h.
Proof.
  induction fuel as [|fuel IH]; intros T X Hf HX HT Hinv; [lia|]. cbn [trailing_loop].
  pose proof (pop_spec (ch fuel) X) as HP. destruct (set_pop (ch fuel) X) as [[h rest]|] eqn:Ep.
  - destruct HP as [_ HP]. pose proof (set_pop_size _ _ _ _ (handle_size u) Ep) as Hsz.
    assert (Hh : lt_u h) by (apply HX, HP; auto).
    assert (Hpos : 0 < handle_size u h).
    { unfold handle_size. destruct (nth_error _ _) as [[l a]|]; cbn; lia. }
    destruct (mto A u h) eqn:Em; cbn [negb].
    + destruct (forallb _ _) eqn:Ea.
      * rewrite forallb_forall in Ea. apply IH.
        -- pose proof (fold_set_add_size (deps u h) rest (handle_size u)). pose proof (deps_size h Hh). lia.
        -- intros y Hy. apply adds_In in Hy as [Hy|Hy]; [eapply deps_lt; eauto|apply HX, HP; auto].
        -- intros y Hy. apply set_add_In in Hy as [-> | Hy]; auto. constructor; [now apply mto_iff|].
           intros x Hx. apply HT. apply mem_In, Ea. now apply dependants_iff.
        -- intros y Hy Hm Hd. destruct (Nat.eq_dec y h) as [-> | Hne]; [left; apply set_add_In; auto|].
           destruct (in_dec Nat.eq_dec h (dependants u y)) as [Hin|Hnin].
           ++ right. apply adds_In. left. apply dependants_iff in Hin. now apply deps_iff.
           ++ destruct (Hinv y Hy Hm) as [Hy'|Hy'].
              ** intros d Hd'. specialize (Hd d Hd'). apply set_add_In in Hd as [-> | ?]; [contradiction|auto].
              ** left. apply set_add_In. auto.
              ** right. apply adds_In. right. apply HP in Hy' as [?|?]; [congruence|auto].
      * apply IH; auto; try lia.
        -- intros y Hy. apply HX, HP. auto.
        -- intros y Hy Hm Hd. destruct (Hinv y Hy Hm Hd) as [?|Hy']; auto. right. apply HP in Hy' as [-> | ?]; auto.
           exfalso. rewrite <- not_true_iff_false in Ea. apply Ea, forallb_forall. intros d Hd'. apply mem_In; auto.
    + apply IH; auto; try lia.
      * intros y Hy. apply HX, HP. auto.
      * intros y Hy Hm Hd. destruct (Hinv y Hy Hm Hd) as [?|Hy']; auto. right. apply HP in Hy' as [-> | ?]; auto. congruence.
  - subst X. exists T. split; [reflexivity|]. intros h. split; [apply HT|].
    intros Htr. induction Htr as [h Hm _ IHd].
    assert (Hh : lt_u h). { destruct Hm as (t & Hn & _). eapply names_lt; eauto. }
    destruct (Hinv h Hh) as [?|[]]; auto; [now apply mto_iff|]. intros d Hd. apply IHd. now apply dependants_iff.
Qed.

Lemma find_trailing_ok ch s : good_sched s ->
  exists T, find_trailing A u ch s = Ok T /\ forall h, In h T <-> trailing A u h.
Proof.
  intros (Hnd & Hall & Hord). unfold find_trailing. apply trailing_loop_ok.
  - lia.
  - intros h Hh. rewrite dedup_In in Hh. apply filter_In in Hh as [Hh _]. now apply Hall.
  - intros h [].
  - intros h Hh Hm Hd. right. rewrite dedup_In. apply filter_In. split; [now apply Hall|].
    destruct (dependants u h) as [|d l]; [reflexivity|]. destruct (Hd d (or_introl eq_refl)).
Qed.

(** ** Islands *)
Section Islands.
Variable par : list nat.
Hypothesis Hpar : forall h, In h par -> lt_u h.
Let es := island_edges u par.

Lemma island_edges_iff d h : In (d, h) es <-> In h par /\ In d par /\ depends u h d.
Proof.
  unfold es, island_edges. rewrite in_flat_map. split.
  - intros (x & Hx & Hin). apply in_map_iff in Hin as (y & [= <- <-] & Hy). apply filter_In in Hy as [Hy Hm].
    apply mem_In in Hm. split; [|split]; auto. apply deps_iff in Hy; auto.
  - intros (Hh & Hd & Hdep). exists h. split; auto. apply in_map_iff. exists d. split; auto.
    apply filter_In. split; [apply deps_iff; auto|now apply mem_In].
Qed.

Lemma neighbours_iff x y : In y (neighbours es x) <-> In x par /\ In y par /\ (depends u x y \/ depends u y x).
Proof.
  unfold neighbours. rewrite in_flat_map. split.
  - intros ([a b] & He & Hin). apply island_edges_iff in He as (Hb & Ha & Hd). cbn in Hin.
    apply in_app_or in Hin as [Hin|Hin].
    + destruct (Nat.eqb_spec a x) as [->|]; [|destruct Hin]. destruct Hin as [<- | []]. auto.
    + destruct (Nat.eqb_spec b x) as [->|]; [|destruct Hin]. destruct Hin as [<- | []]. auto.
  - intros (Hx & Hy & [Hd|Hd]).
    + exists (y, x). split; [apply island_edges_iff; auto|]. cbn. apply in_or_app. right. rewrite Nat.eqb_refl. now left.
    + exists (x, y). split; [apply island_edges_iff; auto|]. cbn. apply in_or_app. left. rewrite Nat.eqb_refl. now left.
Qed.

Lemma connected_In x y : connected u par x y -> In x par /\ In y par.
Proof. induction 1; tauto. Qed.
Lemma connected_step x y z : connected u par x y -> In z (neighbours es y) -> connected u par x z.
Proof. intros Hc Hz. apply neighbours_iff in Hz as (Hy & Hz & Hd). eapply conn_dep; eauto. Qed.
Lemma connected_trans x y z : connected u par x y -> connected u par y z -> connected u par x z.
Proof. intros Ha Hb. revert Ha. induction Hb as [y Hy|y y' z Hb IH Hz Hd]; intros Ha; auto. exact (conn_dep _ _ _ _ _ (IH Ha) Hz Hd). Qed.
Lemma connected_sym x y : connected u par x y -> connected u par y x.
Proof.
  induction 1 as [x Hx|x y z Hc IH Hz Hd]; [now constructor|].
  apply connected_trans with y; auto. destruct (connected_In _ _ Hc) as [_ Hy].
  eapply conn_dep; [constructor; exact Hz|exact Hy|tauto].
Qed.

Lemma bfs_ok v : forall fuel seen level,
  NoDup seen -> (forall x, In x seen -> connected u par v x) -> (forall x, In x level -> In x seen) ->
  (forall x, In x seen -> ~ In x level -> forall y, In y (neighbours es x) -> In y seen) ->
  In v seen -> length par < fuel + length seen \/ level = [] ->
  let c := bfs es fuel seen level in
  NoDup c /\ forall x, In x c <-> connected u par v x.
Proof.
  induction fuel as [|fuel IH]; intros seen level Hnd Hcon Hlev Hclo Hv Hfuel; cbn zeta.
  - assert (E : bfs es 0 seen level = seen) by reflexivity. rewrite E.
    assert (Hlev0 : level = []).
    { destruct Hfuel as [Hf|]; auto. exfalso. cbn in Hf.
      assert (length seen <= length par). { apply NoDup_incl_length; auto. intros x Hx. now apply Hcon, connected_In in Hx. }
      lia. }
    subst level. split; auto. intros x. split; auto.
    intros Hc. induction Hc as [x Hx|x y z Hc IHc Hz Hd]; auto. apply (Hclo y); auto.
    apply neighbours_iff. split; [|split]; auto. now apply connected_In in Hc.
  - cbn [bfs]. destruct level as [|l0 level'] eqn:El.
    + split; auto. intros x. split; auto.
      intros Hc. induction Hc as [x Hx|x y z Hc IHc Hz Hd]; auto. apply (Hclo y); auto.
      apply neighbours_iff. split; [|split]; auto. now apply connected_In in Hc.
    + rewrite <- El in *. clear El l0 level'.
      set (next := dedup (filter (fun x => negb (mem x seen)) (flat_map (neighbours es) level))).
      assert (Hnext : forall x, In x next <-> ~ In x seen /\ exists y, In y level /\ In x (neighbours es y)).
      { intros x. unfold next. rewrite dedup_In, filter_In, in_flat_map, negb_true_iff, mem_nIn. tauto. }
      apply IH.
      * apply NoDup_app_intro; auto; [apply dedup_NoDup|]. intros x Hx Hx'. apply Hnext in Hx'. tauto.
      * intros x Hx. apply in_app_or in Hx as [Hx|Hx]; auto. apply Hnext in Hx as (_ & y & Hy & Hx).
        apply connected_step with y; auto.
      * intros x Hx. apply in_or_app. auto.
      * intros x Hx Hn y Hy. apply in_or_app.
        apply in_app_or in Hx as [Hx|Hx]; [|contradiction].
        destruct (in_dec Nat.eq_dec y seen); auto. right. apply Hnext. split; auto.
        destruct (in_dec Nat.eq_dec x level) as [Hl|Hl]; [eauto|]. exfalso. eauto.
      * apply in_or_app. auto.
      * destruct next as [|n0 nx] eqn:En; [now right|]. left. rewrite app_length. cbn.
        destruct Hfuel as [?| ->]; [lia|]. exfalso. destruct (proj1 (Hnext n0) (or_introl eq_refl)) as (_ & y & [] & _).
Qed.

Lemma bfs_component v : In v par ->
  NoDup (bfs es (length par) [v] [v]) /\ forall x, In x (bfs es (length par) [v] [v]) <-> connected u par v x.
Proof.
  intros Hv. apply bfs_ok; auto.
  - repeat constructor. intros [].
  - intros x [<- | []]. now constructor.
  - intros x Hx Hn. contradiction.
  - now left.
  - left. cbn. lia.
Qed.

(** the components partition the tasks *)
Lemma components_ok : forall nodes seen, NoDup nodes -> incl nodes par ->
  (forall x y, In x seen -> connected u par x y -> In y seen) ->
  Forall (fun c => c <> [] /\ NoDup c /\ (exists v, In v par /\ ~ In v seen /\ forall x, In x c <-> connected u par v x))
         (components es (length par) seen nodes) /\
  NoDup (concat (components es (length par) seen nodes)) /\
  (forall x, In x nodes -> In x seen \/ In x (concat (components es (length par) seen nodes))) /\
  (forall x, In x (concat (components es (length par) seen nodes)) -> ~ In x seen).
Proof.
  induction nodes as [|v nodes IH]; intros seen Hnd Hincl Hclo; cbn [components].
  - repeat split; [constructor|constructor|intros x []|intros x []].
  - inversion Hnd as [|? ? Hv Hnd']; subst. assert (Hvp : In v par) by (apply Hincl; now left).
    assert (Hincl' : incl nodes par) by (intros x Hx; apply Hincl; now right).
    destruct (mem_spec v seen) as [Hs|Hs].
    + destruct (IH seen Hnd' Hincl' Hclo) as (I1 & I2 & I3 & I4). repeat split; auto.
      intros x [<- | Hx]; auto.
    + destruct (bfs_component v Hvp) as [Hc1 Hc2]. set (c := bfs es (length par) [v] [v]) in *. clearbody c.
      assert (Hclo' : forall x y, In x (seen ++ c) -> connected u par x y -> In y (seen ++ c)).
      { intros x y Hx Hxy. apply in_or_app. apply in_app_or in Hx as [Hx|Hx]; [left; eauto|right].
        apply Hc2. apply Hc2 in Hx. eapply connected_trans; eauto. }
      destruct (IH (seen ++ c) Hnd' Hincl' Hclo') as (I1 & I2 & I3 & I4).
      assert (Hcs : forall x, In x c -> ~ In x seen).
      { intros x Hx Hx'. apply Hs. apply (Hclo x v); auto. apply connected_sym. now apply Hc2. }
      split; [constructor|].
      * split; [|split]; auto.
        -- intros ->. assert (In v []) by (apply Hc2; now constructor). auto.
        -- exists v. auto.
      * eapply Forall_impl; [|exact I1]. intros c' (H1 & H2 & v' & H3 & H4 & H5). split; [|split]; auto.
        exists v'. split; [|split]; auto. intros Hx. apply H4, in_or_app. auto.
      * cbn [concat]. split; [|split].
        -- apply NoDup_app_intro; auto. intros x Hx Hx'. apply (I4 x Hx'). apply in_or_app. auto.
        -- intros x [<- | Hx].
           ++ right. apply in_or_app. left. apply Hc2. now constructor.
           ++ destruct (I3 x Hx) as [Hx'|Hx']; [apply in_app_or in Hx' as [?|?]; auto|]; right; apply in_or_app; auto.
        -- intros x Hx Hs'. apply in_app_or in Hx as [Hx|Hx]; [now apply (Hcs x)|]. apply (I4 x Hx), in_or_app. auto.
Qed.

Lemma islands_ok : NoDup par ->
  NoDup (concat (islands u par)) /\ (forall x, In x (concat (islands u par)) <-> In x par) /\
  (forall c, In c (islands u par) -> c <> [] /\ forall x y, In x c -> (In y c <-> connected u par x y)).
Proof.
  intros Hnd. unfold islands. fold es.
  destruct (components_ok (dedup par) [] (dedup_NoDup par)) as (H1 & H2 & H3 & H4).
  - intros x Hx. rewrite dedup_In in Hx. exact Hx.
  - intros x y [].
  - rewrite Forall_forall in H1. split; [exact H2|]. split.
    + intros x. split.
      * intros Hx. apply in_concat in Hx as (c & Hc & Hx). destruct (H1 c Hc) as (_ & _ & v & _ & _ & Hv).
        apply Hv in Hx. now apply connected_In in Hx.
      * intros Hx. destruct (H3 x) as [[]|]; auto. now rewrite dedup_In.
    + intros c Hc. destruct (H1 c Hc) as (Hne & _ & v & Hvp & _ & Hv). split; auto.
      intros x y Hx. apply Hv in Hx. rewrite Hv. split.
      * intros Hy. eapply connected_trans; [apply connected_sym|]; eauto.
      * intros Hy. eapply connected_trans; eauto.
Qed.
End Islands.

(** ** Assignment *)
Lemma argmin_ok f n : 0 < n -> exists i, argmin f n = Ok i /\ i < n /\ forall j, j < n -> f i <= f j.
Proof.
  intros Hn. unfold argmin. destruct n as [|n]; [lia|]. cbn [seq].
  assert (Hgen : forall is b, In (fold_left (fun best j => if f j <? f best then j else best) is b) (b :: is) /\
            forall j, In j (b :: is) -> f (fold_left (fun best j => if f j <? f best then j else best) is b) <= f j).
  { clear. induction is as [|x is IH]; intros b; cbn [fold_left].
    - split; [now left|]. intros j [<- | []]. lia.
    - destruct (IH (if f x <? f b then x else b)) as [I1 I2]. split.
      + destruct I1 as [<- | I1]; [|now right; right]. destruct (f x <? f b); cbn; auto.
      + intros j Hj. pose proof (I2 _ (or_introl eq_refl)) as I0.
        assert (Hb : f (if f x <? f b then x else b) <= f x /\ f (if f x <? f b then x else b) <= f b).
        { destruct (Nat.ltb_spec (f x) (f b)); lia. }
        destruct Hj as [<- | [<- | Hj]]; try lia. apply I2. now right. }
  destruct (Hgen (seq 1 n) 0) as [H1 H2]. eexists. split; [reflexivity|]. split.
  - destruct H1 as [<- | H1]; [lia|]. apply in_seq in H1. lia.
  - intros j Hj. apply H2. destruct j; [now left|right]. apply in_seq. lia.
Qed.

Lemma assign_ok num : forall isl a,
  0 < num \/ isl = [] ->
  (forall c, In c isl -> c <> []) ->
  exists a', assign num isl a = Ok a' /\
    forall i, exists cs, assigned a' i = assigned a i ++ concat cs /\ (forall c, In c cs -> In c isl).
Proof.
  induction isl as [|c isl IH]; intros a Hn Hne; cbn [assign].
  - exists a. split; [reflexivity|]. intros i. exists []. rewrite app_nil_r. split; auto.
  - destruct Hn as [Hn|]; [|discriminate]. destruct c as [|c0 c']; [now destruct (Hne [] (or_introl eq_refl))|].
    set (c := c0 :: c') in *.
    destruct (argmin_ok (fun i => length (assigned a i)) num Hn) as (i & Ei & Hi & _). rewrite Ei. cbn [rbind].
    destruct (IH (dset a i (assigned a i ++ c)) (or_introl Hn)) as (a' & Ea & Ha); [intros; apply Hne; now right|].
    exists a'. split; [exact Ea|]. intros j. destruct (Ha j) as (cs & E & Hcs). rewrite E.
    unfold assigned at 1. rewrite dget_dset. destruct (eqb_spec j i) as [-> | Hj].
    + exists (c :: cs). cbn [concat]. rewrite app_assoc. split; auto. intros x [<- | Hx]; [now left|right; auto].
    + exists cs. split; auto. intros x Hx. right. auto.
Qed.

(** every island goes to exactly one device, as a whole *)
Lemma assign_places num : forall isl a, 0 < num ->
  (forall c, In c isl -> c <> []) ->
  NoDup (concat isl) ->
  (forall i x, In x (assigned a i) -> ~ In x (concat isl)) ->
  (forall i j x, In x (assigned a i) -> In x (assigned a j) -> i = j) ->
  (forall i, NoDup (assigned a i)) -> (forall i, In i (dkeys a) -> i < num /\ assigned a i <> []) -> NoDup (dkeys a) ->
  exists a', assign num isl a = Ok a' /\
    (forall i x, In x (assigned a i) -> In x (assigned a' i)) /\
    (forall c, In c isl -> exists i, i < num /\ forall x, In x c -> In x (assigned a' i)) /\
    (forall i x, In x (assigned a' i) -> In x (assigned a i) \/ In x (concat isl)) /\
    (forall i j x, In x (assigned a' i) -> In x (assigned a' j) -> i = j) /\
    (forall i, NoDup (assigned a' i)) /\ (forall i, In i (dkeys a') -> i < num /\ assigned a' i <> []) /\ NoDup (dkeys a').
Proof.
  induction isl as [|c isl IH]; intros a Hn Hne Hnd Hdis Huniq Hnda Hk Hkn; cbn [assign].
  - exists a. repeat split; auto; intros; try contradiction; try (now apply Hk).
  - destruct c as [|c0 c'] eqn:Ec; [now destruct (Hne [] (or_introl eq_refl))|]. rewrite <- Ec in *.
    assert (Hcne : c <> []) by congruence. clear Ec c0 c'.
    destruct (argmin_ok (fun i => length (assigned a i)) num Hn) as (i & Ei & Hi & _). rewrite Ei. cbn [rbind].
    cbn [concat] in Hnd, Hdis. destruct (NoDup_app_inv _ _ Hnd) as (Hc1 & Hc2 & Hc3).
    assert (Hget : forall j, assigned (dset a i (assigned a i ++ c)) j = if eqb j i then assigned a i ++ c else assigned a j).
    { intros j. unfold assigned at 1. rewrite dget_dset. destruct (eqb j i); reflexivity. }
    assert (Hin : forall j x, In x (assigned (dset a i (assigned a i ++ c)) j) <-> In x (assigned a j) \/ (j = i /\ In x c)).
    { intros j x. rewrite Hget. destruct (eqb_spec j i) as [-> | Hj]; [rewrite in_app_iff|]; intuition. }
    destruct (IH (dset a i (assigned a i ++ c)) Hn) as (a' & Ea & I1 & I2 & I3 & I4 & I5 & I6 & I7).
    + intros; apply Hne; now right.
    + exact Hc2.
    + intros j x Hx Hx'. apply Hin in Hx as [Hx|[-> Hx]].
      * apply (Hdis j x Hx), in_or_app. auto.
      * apply (Hc3 x); auto.
    + intros j k x Hj Hk'. apply Hin in Hj as [Hj|[-> Hj]]; apply Hin in Hk' as [Hk'|[-> Hk']]; eauto.
      * exfalso. apply (Hdis j x Hj), in_or_app. auto.
      * exfalso. apply (Hdis k x Hk'), in_or_app. auto.
    + intros j. rewrite Hget. destruct (eqb_spec j i) as [-> | Hj]; auto. apply NoDup_app_intro; auto.
      intros x Hx Hx'. apply (Hdis i x Hx), in_or_app. auto.
    + intros j Hj. apply dkeys_dset_In in Hj. rewrite Hget. destruct (eqb_spec j i) as [-> | Hne'].
      * split; auto. intros E. apply app_eq_nil in E. tauto.
      * destruct Hj as [?|Hj]; [congruence|]. now apply Hk.
    + now apply dkeys_dset_NoDup.
    + exists a'. split; [exact Ea|]. split; [|split; [|split; [|split; [|split; [|split]]]]]; auto.
      * intros j x Hx. apply I1, Hin. auto.
      * intros c' [<- | Hc']; [|now apply I2]. exists i. split; auto. intros x Hx. apply I1, Hin. auto.
      * intros j x Hx. cbn [concat]. rewrite in_app_iff. apply I3 in Hx as [Hx|Hx]; auto. apply Hin in Hx as [?|[_ ?]]; auto.
Qed.

(** ** The whole construction *)
Record sound (p : partition) (num : nat) : Prop := {
  sd_sched : good_sched (p_schedule p);
  sd_lead : forall h, In h (p_leading p) <-> leading A u h;
  sd_trail : forall h, In h (p_trailing p) <-> trailing A u h;
  sd_dup : forall h, In h (p_per_gpu p) <-> duplicated A u h;
  sd_par : forall h, In h (p_parallel p) <-> lt_u h /\ ~ leading A u h /\ ~ trailing A u h /\ ~ duplicated A u h;
  sd_tdeps : forall d, In d (p_trailing_deps p) <-> exists h, trailing A u h /\ depends u h d;
  sd_nomain : forall h, In h (p_parallel p) \/ In h (p_per_gpu p) -> ~ main_only A u h;
  sd_given : forall i h, In h (assigned (p_assign p) i) -> In h (p_parallel p);
  sd_place : forall h, In h (p_parallel p) -> exists i, i < num /\ In h (assigned (p_assign p) i);
  sd_unique : forall i j h, In h (assigned (p_assign p) i) -> In h (assigned (p_assign p) j) -> i = j;
  sd_together : forall i x y, In x (assigned (p_assign p) i) -> connected u (p_parallel p) x y -> In y (assigned (p_assign p) i);
  sd_nodup : forall i, NoDup (assigned (p_assign p) i);
  sd_keys : forall i, In i (dkeys (p_assign p)) -> i < num /\ assigned (p_assign p) i <> [];
  sd_knodup : NoDup (dkeys (p_assign p))
}.

Lemma leading_lt h : leading A u h -> lt_u h.
Proof. intros Hl. inversion Hl as [? (t & Hn & _) _]; subst. eapply names_lt; eauto. Qed.
Lemma trailing_lt h : trailing A u h -> lt_u h.
Proof. intros Hl. inversion Hl as [? (t & Hn & _) _]; subst. eapply names_lt; eauto. Qed.
Lemma duplicated_lt h : duplicated A u h -> lt_u h.
Proof. intros (t & Hn & _). eapply names_lt; eauto. Qed.

Definition bad_parallel : Prop :=
  exists h, lt_u h /\ main_only A u h /\ (duplicated A u h \/ (~ leading A u h /\ ~ trailing A u h)).

Lemma construct_ok ch ct num : 0 < num ->
  (exists p, construct A u ch ct targets num = Ok p /\ sound p num /\ ~ bad_parallel) \/
  (construct A u ch ct targets num = Err RuntimeError /\ bad_parallel).
Proof.
  intros Hn. unfold construct. destruct (schedule_good ch) as (s & -> & Hs). cbn [rbind].
  destruct (find_trailing_ok ct _ Hs) as (T & -> & HT). cbn [rbind].
  set (ordered := s_tasks s) in *. clearbody ordered.
  pose proof (find_leading_ok _ Hs) as HL. set (lead := find_leading A u ordered) in *. clearbody lead.
  assert (Hall : forall h, In h ordered <-> lt_u h) by apply Hs.
  set (pg := filter (per_gpu A u) ordered).
  assert (Hpg : forall h, In h pg <-> duplicated A u h).
  { intros h. unfold pg. rewrite filter_In, per_gpu_iff, Hall. split; [tauto|]. intros Hd. split; auto. now apply duplicated_lt. }
  assert (HL' : forall h, In h lead <-> leading A u h).
  { intros h. rewrite HL, Hall. split; [tauto|]. intros Hd. split; auto. now apply leading_lt. }
  set (par := filter (fun t => negb (mem t T) && negb (mem t lead) && negb (mem t pg)) ordered).
  assert (Hpar : forall h, In h par <-> lt_u h /\ ~ leading A u h /\ ~ trailing A u h /\ ~ duplicated A u h).
  { intros h. unfold par. rewrite filter_In, !andb_true_iff, !negb_true_iff, !mem_nIn, Hall, HT, HL', Hpg. tauto. }
  clearbody pg.
  destruct (existsb (mto A u) par) eqn:E1.
  { right. split; [reflexivity|]. apply existsb_exists in E1 as (h & Hh & Hm). apply Hpar in Hh. apply mto_iff in Hm.
    exists h. tauto. }
  destruct (existsb (mto A u) pg) eqn:E2.
  { right. split; [reflexivity|]. apply existsb_exists in E2 as (h & Hh & Hm). apply Hpg in Hh. apply mto_iff in Hm.
    exists h. split; [now apply duplicated_lt|]. tauto. }
  left.
  assert (Hnpar : NoDup par) by (apply NoDup_filter, Hs).
  assert (Hplt : forall h, In h par -> lt_u h) by (intros h Hh; now apply Hpar in Hh).
  destruct (islands_ok par Hplt Hnpar) as (I1 & I2 & I3).
  destruct (assign_places num (islands u par) [] Hn) as (a & Ea & _ & P2 & P3 & P4 & P5 & P6 & P7); auto.
  { intros c Hc. now apply I3. }
  { intros i j x Hx. destruct Hx. }
  { intros i. constructor. }
  { intros i Hx. destruct Hx. }
  { constructor. }
  rewrite Ea. cbn [rbind]. eexists. split; [reflexivity|]. split.
  - split; cbn [p_schedule p_per_gpu p_leading p_trailing p_trailing_deps p_parallel p_assign]; auto.
    + intros h. rewrite filter_In, mem_In, HL', Hall. split; [tauto|]. intros Hd. split; auto. now apply leading_lt.
    + intros h. rewrite filter_In, mem_In, HT, Hall. split; [tauto|]. intros Hd. split; auto. now apply trailing_lt.
    + intros d. rewrite dedup_In, in_flat_map. split.
      * intros (h & Hh & Hd). apply filter_In in Hh as [Ho Hm]. apply Hall in Ho. apply mem_In, HT in Hm. exists h. split; auto.
        now apply deps_iff.
      * intros (h & Hh & Hd). exists h. pose proof (trailing_lt _ Hh) as Hlt. split.
        -- apply filter_In. split; [now apply Hall|]. now apply mem_In, HT.
        -- now apply deps_iff.
    + intros h [Hh|Hh] Hm; apply mto_iff in Hm.
      * rewrite <- not_true_iff_false in E1. apply E1, existsb_exists. eauto.
      * rewrite <- not_true_iff_false in E2. apply E2, existsb_exists. eauto.
    + intros i h Hh. apply P3 in Hh as [[]|Hh]. now apply I2.
    + intros h Hh. apply I2 in Hh. apply in_concat in Hh as (c & Hc & Hh). destruct (P2 c Hc) as (i & Hi & Hx). eauto.
    + intros i x y Hx Hxy.
      assert (Hxp : In x (concat (islands u par))). { apply I2. now apply connected_In in Hxy. }
      apply in_concat in Hxp as (c & Hc & Hxc). destruct (P2 c Hc) as (j & _ & Hj).
      assert (j = i) by (apply (P4 j i x); auto). subst j. apply Hj. now apply (proj2 (I3 c Hc) x y Hxc).
  - intros (h & Hlt & Hm & [Hd|[H1 H2]]).
    + rewrite <- not_true_iff_false in E2. apply E2, existsb_exists. exists h. split; [now apply Hpg|now apply mto_iff].
    + destruct (per_gpu A u h) eqn:Ed.
      * apply per_gpu_iff in Ed. rewrite <- not_true_iff_false in E2. apply E2, existsb_exists. exists h. split; [now apply Hpg|now apply mto_iff].
      * rewrite <- not_true_iff_false in E1. apply E1, existsb_exists. exists h. split; [|now apply mto_iff].
        apply Hpar. split; [|split; [|split]]; auto. rewrite <- per_gpu_iff. congruence.
Qed.
End P.
