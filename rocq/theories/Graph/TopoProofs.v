(** networkx' lexicographical topological sort, as modelled, is correct and greedy. *)
From Verif.Base Require Import Py PyFacts.
From Verif.Graph Require Import Model Spec.

Lemma min_by_In {A} (lt : A -> A -> bool) l : forall m, min_by lt m l = m \/ In (min_by lt m l) l.
Proof.
  induction l as [|x xs IH]; cbn; intros m; auto.
  destruct (IH (if lt x m then x else m)) as [E|]; auto.
  rewrite E. destruct (lt x m); auto.
Qed.

Lemma min_by_least {A} (lt : A -> A -> bool) l :
  (forall x y z, lt x y = false -> lt y z = false -> lt x z = false) ->
  (forall x y, lt x y = true -> lt y x = false) ->
  forall m, (forall y, y = m \/ In y l -> lt y (min_by lt m l) = false).
Proof.
  intros Htr Has. induction l as [|x xs IH]; cbn; intros m y.
  - intros [->|[]]. destruct (lt m m) eqn:E; auto. now rewrite (Has _ _ E) in E.
  - intros Hy. assert (Hcur : lt (if lt x m then x else m) (min_by lt (if lt x m then x else m) xs) = false).
    { apply IH. auto. }
    destruct Hy as [->|[->|Hin]].
    + eapply Htr; [|exact Hcur]. destruct (lt x m) eqn:E; auto.
      destruct (lt m m) eqn:E'; auto. now rewrite (Has _ _ E') in E'.
    + eapply Htr; [|exact Hcur]. destruct (lt y m) eqn:E; auto.
      destruct (lt y y) eqn:E'; auto. now rewrite (Has _ _ E') in E'.
    + apply IH. auto.
Qed.

Section RF.
Context {A} `{Eqb A}.
Lemma remove_first_perm (x : A) l : In x l -> exists l1 l2, l = l1 ++ x :: l2 /\ remove_first x l = l1 ++ l2.
Proof.
  induction l as [|y ys IH]; cbn; [tauto|]. destruct (eqb_spec x y) as [->|Hn].
  - intros _. exists [], ys. auto.
  - intros [->|Hin]; [congruence|]. destruct (IH Hin) as (l1 & l2 & -> & ->).
    exists (y :: l1), l2. auto.
Qed.
Lemma remove_first_In (x y : A) l : NoDup l -> In x l -> (In y (remove_first x l) <-> In y l /\ y <> x).
Proof.
  intros HN Hin. destruct (remove_first_perm x l Hin) as (l1 & l2 & -> & ->).
  apply NoDup_remove_2 in HN. rewrite !in_app_iff in *. cbn in *.
  split.
  - intros [?|?]; (split; [tauto|intros ->; tauto]).
  - intuition congruence.
Qed.
Lemma remove_first_NoDup (x : A) l : NoDup l -> NoDup (remove_first x l).
Proof.
  intros HN. destruct (In_dec_eqb x l) as [Hin|Hn].
  - destruct (remove_first_perm x l Hin) as (l1 & l2 & -> & ->). eapply NoDup_remove_1; eauto.
  - replace (remove_first x l) with l; auto. clear HN.
    induction l as [|y ys IH]; cbn; auto. destruct (eqb_spec x y) as [->|]; [exfalso; apply Hn; now left|].
    rewrite <- IH; auto. intros ?; apply Hn; now right.
Qed.
Lemma index_of_inj (x y : A) l : In x l -> In y l -> index_of x l = index_of y l -> x = y.
Proof.
  induction l as [|z zs IH]; cbn; [tauto|].
  destruct (eqb_spec x z), (eqb_spec y z); subst; auto; try discriminate.
  intros [?|?] [?|?] [=]; subst; try congruence; auto.
Qed.
End RF.

(** ** the order on keys *)
Lemma ascii_compare_trans x y z c : Ascii.compare x y = c -> Ascii.compare y z = c -> Ascii.compare x z = c.
Proof.
  unfold Ascii.compare. intros H1 H2.
  destruct c.
  - apply N.compare_eq_iff in H1, H2. apply N.compare_eq_iff. congruence.
  - apply N.compare_lt_iff in H1, H2. apply N.compare_lt_iff. eapply N.lt_trans; eauto.
  - apply N.compare_gt_iff in H1, H2. apply N.compare_gt_iff. eapply N.lt_trans; eauto.
Qed.

Lemma ascii_compare_refl x : Ascii.compare x x = Eq.
Proof. unfold Ascii.compare. apply N.compare_refl. Qed.

Lemma string_compare_trans s1 : forall s2 s3 c, String.compare s1 s2 = c -> String.compare s2 s3 = c ->
  String.compare s1 s3 = c.
Proof.
  induction s1 as [|a s1 IH]; intros [|b s2] [|d s3] c; cbn; try congruence.
  destruct (Ascii.compare a b) eqn:E1, (Ascii.compare b d) eqn:E2; intros; subst; try discriminate;
  repeat match goal with
  | H : Ascii.compare ?x ?y = Eq |- _ => apply Ascii.compare_eq_iff in H; subst
  end;
  repeat match goal with
  | |- context [Ascii.compare ?x ?x] => rewrite ascii_compare_refl
  | H : Ascii.compare ?x ?y = ?c |- context [Ascii.compare ?x ?y] => rewrite H
  end; auto; try (erewrite ascii_compare_trans by eauto; congruence).
  all: eapply IH; eauto.
Qed.

Lemma string_compare_refl s : String.compare s s = Eq.
Proof. induction s as [|a s IH]; cbn; auto. now rewrite ascii_compare_refl. Qed.

Lemma key_lt_asym a b : key_lt a b = true -> key_lt b a = false.
Proof.
  destruct a as [[s1 z1] n1], b as [[s2 z2] n2]. unfold key_lt.
  rewrite (String.compare_antisym s1 s2), (Z.compare_antisym z1 z2).
  destruct (String.compare s2 s1) eqn:E; cbn [CompOpp]; try congruence.
  destruct (z1 ?= z2)%Z; cbn [CompOpp]; try congruence.
  rewrite Nat.ltb_lt, Nat.ltb_ge. lia.
Qed.

(** key_lt as a proposition *)
Lemma key_lt_false a b : key_lt a b = false <->
  let '(s1, z1, n1) := a in let '(s2, z2, n2) := b in
  String.compare s1 s2 = Gt \/ (s1 = s2 /\ (z2 < z1)%Z) \/ (s1 = s2 /\ z1 = z2 /\ n2 <= n1).
Proof.
  destruct a as [[s1 z1] n1], b as [[s2 z2] n2]. unfold key_lt.
  destruct (String.compare s1 s2) eqn:E.
  - apply String.compare_eq_iff in E. subst.
    destruct (z1 ?= z2)%Z eqn:Ez.
    + apply Z.compare_eq_iff in Ez. subst. rewrite Nat.ltb_ge. intuition (try lia; try congruence).
    + change (z1 < z2)%Z in Ez. split; [discriminate|].
      intros [?|[[_ ?]|[_ [? ?]]]]; [discriminate|exfalso; lia|exfalso; lia].
    + apply Z.compare_gt_iff in Ez. split; auto.
  - split; [discriminate|]. intros [?|[[-> ?]|[-> ?]]]; try congruence; rewrite string_compare_refl in E; discriminate.
  - split; auto.
Qed.

Lemma key_lt_false_trans a b c : key_lt a b = false -> key_lt b c = false -> key_lt a c = false.
Proof.
  rewrite !key_lt_false. destruct a as [[s1 z1] n1], b as [[s2 z2] n2], c as [[s3 z3] n3].
  intros [H1|[[-> H1]|[-> [-> H1]]]] [H2|[[-> H2]|[-> [-> H2]]]]; auto.
  - left. eapply string_compare_trans; eauto.
  - right. left. split; auto. lia.
  - right. right. repeat split; auto. lia.
Qed.

(** ** the sort *)
Section Topo.
Variable lt : node -> node -> bool.
Hypothesis lt_trans : forall x y z, lt x y = false -> lt y z = false -> lt x z = false.
Hypothesis lt_asym : forall x y, lt x y = true -> lt y x = false.
Variable es : list (node * node).
Variable nodes : list node.
Hypothesis es_nodup : NoDup es.
Hypothesis nodes_nodup : NoDup nodes.
Hypothesis es_nodes : forall a b, In (a, b) es -> In a nodes /\ In b nodes.
Variable rk : node -> nat.
Hypothesis acyclic : forall a b, In (a, b) es -> rk a < rk b.

Definition remaining (out : list node) (n : node) : nat :=
  length (filter (fun e => eqb (snd e) n && negb (mem (fst e) out)) es).

Lemma remaining_zero out n : remaining out n = 0 <-> forall p, In (p, n) es -> In p out.
Proof.
  unfold remaining. rewrite length_zero_iff_nil. split.
  - intros E p Hin. destruct (mem_spec p out) as [|Hn]; auto. exfalso.
    assert (Hf : In (p, n) []) by (rewrite <- E; apply filter_In; split; auto; cbn;
      rewrite eqb_refl; apply mem_nIn in Hn; now rewrite Hn). destruct Hf.
  - intros Hp. destruct (filter _ es) as [|[p m] r] eqn:E; auto. exfalso.
    assert (Hf : In (p, m) (filter (fun e => eqb (snd e) n && negb (mem (fst e) out)) es)) by (rewrite E; now left).
    apply filter_In in Hf as [Hin Hb]. cbn in Hb. apply andb_true_iff in Hb as [H1 H2].
    apply eqb_iff in H1. subst m. apply Hp, mem_In in Hin. now rewrite Hin in H2.
Qed.

Lemma mem_app_node (x : node) l1 l2 : mem x (l1 ++ l2) = mem x l1 || mem x l2.
Proof.
  destruct (mem_spec x (l1 ++ l2)) as [Hi|Hi]; rewrite in_app_iff in Hi;
  destruct (mem_spec x l1), (mem_spec x l2); cbn; tauto.
Qed.

Lemma remaining_snoc out m c : ~ In m out ->
  remaining out c = remaining (out ++ [m]) c + if mem (m, c) es then 1 else 0.
Proof.
  intros Hm. unfold remaining. clear es_nodes acyclic.
  induction es as [|[p q] r IH]; [reflexivity|].
  inversion es_nodup as [|? ? Hni HN]; subst. specialize (IH HN).
  cbn [filter fst snd mem]. rewrite mem_app_node.
  cbn [mem]. destruct (eqb_spec q c) as [->|Hqc]; cbn [andb].
  - destruct (eqb_spec p m) as [->|Hpm].
    + assert (E1 : eqb (m, c) (m, c) = true) by apply eqb_refl. rewrite E1.
      assert (E2 : mem m out = false) by now apply mem_nIn. rewrite E2. cbn [negb orb length].
      apply mem_nIn in Hni. rewrite Hni in IH. lia.
    + assert (E1 : eqb (m, c) (p, c) = false) by (apply eqb_neq; congruence). rewrite E1.
      rewrite orb_false_r. destruct (mem p out); cbn [negb length]; lia.
  - assert (E1 : eqb (m, c) (p, q) = false) by (apply eqb_neq; congruence). rewrite E1. lia.
Qed.

Lemma succs_In n c : In c (succs es n) <-> In (n, c) es.
Proof.
  unfold succs. rewrite in_map_iff. split.
  - intros ([a b] & <- & Hf). apply filter_In in Hf as [Hin Hb]. cbn in *. apply eqb_iff in Hb. now subst.
  - intros Hin. exists (n, c). split; auto. apply filter_In. split; auto. cbn [fst]. apply eqb_refl.
Qed.
Lemma succs_NoDup n : NoDup (succs es n).
Proof.
  unfold succs. clear es_nodes acyclic. induction es as [|[a b] r IH]; cbn [filter map]; [constructor|].
  inversion es_nodup; subst. cbn [fst]. destruct (eqb_spec a n) as [->|]; auto.
  cbn [map snd]. constructor; auto. intros Hin. apply in_map_iff in Hin as ([a' b'] & E & Hf).
  apply filter_In in Hf as [Hin Hb]. cbn in *. apply eqb_iff in Hb. subst. auto.
Qed.

(** effect of relaxing a list of distinct children *)
Lemma relax_fold cs : forall ind heap,
  NoDup cs -> NoDup (dkeys ind) ->
  (forall c, In c cs -> exists d, dget ind c = Some d /\ 0 < d) ->
  exists ind' new,
    fold_left relax cs (Ok (ind, heap)) = Ok (ind', heap ++ new) /\
    NoDup (dkeys ind') /\ NoDup new /\
    (forall c, In c new <-> In c cs /\ dget ind c = Some 1) /\
    (forall c, dget ind' c = if mem c cs then
                               match dget ind c with Some (S (S d)) => Some (S d) | _ => None end
                             else dget ind c).
Proof.
  induction cs as [|c cs IH]; intros ind heap HN HI Hc.
  - exists ind, []. cbn. rewrite app_nil_r. split; [auto|]. split; [auto|]. split; [constructor|]. split; [tauto|auto].
  - inversion HN as [|? ? Hni HN']; subst.
    destruct (Hc c) as (d & Ed & Hd); [now left|].
    cbn [fold_left relax rbind]. rewrite Ed.
    assert (Hcs : forall c', In c' cs -> c' <> c) by (intros c' Hi ->; auto).
    destruct (Nat.eqb_spec (d - 1) 0) as [E0|E0].
    + assert (d = 1) by lia. subst d.
      destruct (IH (ddel ind c) (heap ++ [c])) as (ind' & new & Ef & HI' & HNn & Hnew & Hind); auto.
      * now apply ddel_NoDup.
      * intros c' Hin. rewrite dget_ddel. destruct (eqb_spec c' c); [exfalso; eapply Hcs; eauto|].
        apply Hc. now right.
      * exists ind', (c :: new). rewrite Ef. rewrite <- app_assoc. repeat split; auto.
        -- constructor; auto. rewrite Hnew. intros [Hi _]. auto.
        -- destruct H as [<-|Hi]; [now left|]. apply Hnew in Hi as [? _]. now right.
        -- destruct H as [<-|Hi]; auto. apply Hnew in Hi as [Hi E]. rewrite dget_ddel in E.
           destruct (eqb_spec c0 c); [discriminate|auto].
        -- intros [[<-|Hi] E]; [now left|]. right. apply Hnew. split; auto.
           rewrite dget_ddel. destruct (eqb_spec c0 c); [exfalso; eapply Hcs; eauto|auto].
        -- intros c'. rewrite Hind, dget_ddel. cbn [mem]. destruct (eqb_spec c' c) as [->|Hne].
           ++ rewrite Ed. destruct (mem c cs); auto.
           ++ destruct (mem c' cs); auto.
    + destruct (IH (dset ind c (d - 1)) heap) as (ind' & new & Ef & HI' & HNn & Hnew & Hind); auto.
      * now apply dkeys_dset_NoDup.
      * intros c' Hin. rewrite dget_dset_neq by auto. apply Hc. now right.
      * exists ind', new. rewrite Ef. repeat split; auto.
        -- apply Hnew in H as [? _]. now right.
        -- apply Hnew in H as [Hi E]. rewrite dget_dset_neq in E; auto.
        -- intros [[<-|Hi] E]; [rewrite E in Ed; injection Ed as <-; cbn in E0; lia|].
           apply Hnew. split; auto. rewrite dget_dset_neq; auto.
        -- intros c'. rewrite Hind, dget_dset. cbn [mem]. destruct (eqb_spec c' c) as [->|Hne].
           ++ rewrite Ed. apply mem_nIn in Hni. rewrite Hni. destruct d as [|[|d]]; try lia. cbn. do 2 f_equal; lia.
           ++ reflexivity.
Qed.

(** chosen nodes were least among the ready ones *)
Definition greedy (out : list node) : Prop :=
  forall l1 x l2, out = l1 ++ x :: l2 ->
  forall y, In y nodes -> ~ In y l1 -> (forall p, In (p, y) es -> In p l1) -> lt y x = false.

Definition topo (out : list node) : Prop :=
  forall l1 x l2, out = l1 ++ x :: l2 -> forall p, In (p, x) es -> In p l1.

Record TInv (ind : dict node nat) (heap out : list node) : Prop := {
  ti_nodup : NoDup (out ++ heap ++ dkeys ind);
  ti_nodes : forall n, In n nodes <-> In n out \/ In n heap \/ In n (dkeys ind);
  ti_ind : forall n d, dget ind n = Some d -> d = remaining out n /\ 0 < d;
  ti_heap : forall n, In n heap -> remaining out n = 0;
  ti_topo : topo out;
  ti_greedy : greedy out
}.

Lemma snoc_split {A} (out : list A) n l1 x l2 : out ++ [n] = l1 ++ x :: l2 ->
  (l1 = out /\ x = n /\ l2 = []) \/ exists l2', out = l1 ++ x :: l2' /\ l2 = l2' ++ [n].
Proof.
  intros E. destruct l2 as [|y l2] using rev_ind.
  - left. apply app_inj_tail in E as [-> ->]. auto.
  - right. clear IHl2. exists l2. rewrite app_comm_cons, app_assoc in E. apply app_inj_tail in E as [-> ->]. auto.
Qed.

Lemma heap_pop_spec heap n heap' : heap_pop lt heap = Some (n, heap') ->
  NoDup heap -> In n heap /\ heap' = remove_first n heap /\ forall y, In y heap -> lt y n = false.
Proof.
  destruct heap as [|x xs]; [discriminate|]. unfold heap_pop. intros [= <- <-] HN.
  split; [|split; auto].
  - destruct (min_by_In lt xs x) as [->|]; [now left|now right].
  - intros y Hy. apply min_by_least; auto. cbn in Hy. destruct Hy; auto.
Qed.

Lemma TInv_step ind heap out n heap' :
  TInv ind heap out -> heap_pop lt heap = Some (n, heap') ->
  exists ind' heap'', fold_left relax (succs es n) (Ok (ind, heap')) = Ok (ind', heap'') /\
    TInv ind' heap'' (out ++ [n]).
Proof.
  intros [HN Hnodes Hind Hheap Htopo Hgreedy] Hp.
  assert (HNh : NoDup heap).
  { apply NoDup_app_remove_l in HN. now apply NoDup_app_remove_r in HN. }
  assert (HNi : NoDup (dkeys ind)).
  { apply NoDup_app_remove_l in HN. now apply NoDup_app_remove_l in HN. }
  destruct (heap_pop_spec _ _ _ Hp HNh) as (Hin & -> & Hleast).
  assert (Hdisj : forall x, In x out -> ~ In x heap /\ ~ In x (dkeys ind)).
  { intros x Hx. clear -HN Hx. induction out as [|y ys IH]; [destruct Hx|].
    cbn in HN. inversion HN as [|? ? Hni HN']; subst. rewrite !in_app_iff in Hni.
    destruct Hx as [->|Hx]; [tauto|]. auto. }
  assert (Hdisj2 : forall x, In x heap -> ~ In x (dkeys ind)).
  { apply NoDup_app_remove_l in HN. intros x Hx. clear -HN Hx. induction heap as [|y ys IH]; [destruct Hx|].
    cbn in HN. inversion HN as [|? ? Hni HN']; subst. rewrite !in_app_iff in Hni.
    destruct Hx as [->|Hx]; [tauto|]. auto. }
  assert (Hnout : ~ In n out) by (intros Hx; apply Hdisj in Hx; tauto).
  assert (Hready : forall p, In (p, n) es -> In p out) by (apply remaining_zero; auto).
  assert (Hchild : forall c, In (n, c) es -> exists d, dget ind c = Some d /\ 0 < d).
  { intros c Hc. destruct (es_nodes _ _ Hc) as [_ Hcn]. apply Hnodes in Hcn as [Ho|[Hh|Hi]].
    - exfalso. apply In_split in Ho as (l1 & l2 & E). pose proof (Htopo _ _ _ E _ Hc) as Hn1.
      apply Hnout. rewrite E, in_app_iff. auto.
    - exfalso. apply Hheap in Hh. rewrite remaining_zero in Hh. apply Hh in Hc. auto.
    - apply dget_Some_key in Hi as [d Ed]. exists d. split; auto. now apply (Hind _ _ Ed). }
  destruct (relax_fold (succs es n) ind (remove_first n heap)) as (ind' & new & Ef & HNi' & HNnew & Hnew & Hind');
    auto using succs_NoDup.
  { intros c Hc. apply Hchild. now apply succs_In. }
  exists ind', (remove_first n heap ++ new). split; [exact Ef|].
  assert (Hkey' : forall c, In c (dkeys ind') <-> In c (dkeys ind) /\ ~ In c new).
  { intros c. rewrite !dget_Some_key, Hind', Hnew.
    destruct (mem_spec c (succs es n)) as [Hs|Hs].
    - destruct (Hchild c) as (d & Ed & Hd); [now apply succs_In|]. rewrite Ed.
      destruct d as [|[|d]]; [lia| |].
      + split; [intros [? [=]]|]. intros [_ Hx]. exfalso. auto.
      + split; [|eauto]. intros _. split; eauto. intros [_ [=]].
    - split; [|intros [? _]; auto]. intros Hx. split; auto. tauto. }
  assert (Hnewind : forall c, In c new -> In c (dkeys ind)).
  { intros c Hc. apply Hnew in Hc as [_ E]. apply dget_Some_key. eauto. }
  assert (Hrf : forall y, In y (remove_first n heap) <-> In y heap /\ y <> n)
    by (intros; now apply remove_first_In).
  split.
  - (* NoDup *)
    rewrite <- app_assoc. cbn [app]. apply NoDup_app_intro.
    + apply NoDup_app_remove_r in HN. auto.
    + constructor.
      * rewrite !in_app_iff, Hrf, Hkey'. intros [[[_ ?]|Hx]|[Hx _]]; [congruence| |].
        -- apply Hnewind in Hx. eapply Hdisj2; eauto.
        -- eapply Hdisj2; eauto.
      * apply NoDup_app_intro; [apply NoDup_app_intro| auto |]; auto.
        -- now apply remove_first_NoDup.
        -- intros a Ha Hb. apply Hrf in Ha as [Ha _]. apply Hnewind in Hb. eapply Hdisj2; eauto.
        -- intros a Ha Hb. apply Hkey' in Hb as [Hb1 Hb2]. apply in_app_iff in Ha as [Ha|Ha]; [|auto].
           apply Hrf in Ha as [Ha _]. eapply Hdisj2; eauto.
    + intros a Ha [<-|Hb]; auto. destruct (Hdisj a Ha) as [H1 H2].
      apply in_app_iff in Hb as [Hb|Hb]; [apply in_app_iff in Hb as [Hb|Hb]|].
      * apply Hrf in Hb as [Hb _]. auto.
      * apply Hnewind in Hb. auto.
      * apply Hkey' in Hb as [Hb _]. auto.
  - intros x. rewrite Hnodes, !in_app_iff, Hrf, Hkey'. cbn.
    destruct (Eqb_dec x n) as [->|Hne]; [tauto|].
    destruct (In_dec_eqb x new) as [Hnx|Hnx].
    + pose proof (Hnewind _ Hnx). tauto.
    + intuition congruence.
  - intros c d Ed. rewrite Hind' in Ed.
    pose proof (remaining_snoc out n c Hnout) as HR.
    destruct (mem_spec c (succs es n)) as [Hs|Hs]; rewrite succs_In in Hs.
    + destruct (Hchild c Hs) as (d0 & E0 & Hd0). rewrite E0 in Ed.
      apply mem_In in Hs. rewrite Hs in HR.
      apply Hind in E0 as [E0 _].
      destruct d0 as [|[|d0]]; try discriminate. injection Ed as <-. split; lia.
    + apply mem_nIn in Hs. rewrite Hs in HR. apply Hind in Ed as [? ?]. split; lia.
  - intros c Hc. pose proof (remaining_snoc out n c Hnout) as HR.
    apply in_app_iff in Hc as [Hc|Hc].
    + apply Hrf in Hc as [Hc _]. apply Hheap in Hc. lia.
    + apply Hnew in Hc as [Hs E]. apply succs_In, mem_In in Hs. rewrite Hs in HR.
      apply Hind in E as [E _]. lia.
  - intros l1 x l2 E p Hpx. apply snoc_split in E as [(-> & -> & ->)|(l2' & -> & ->)]; auto.
    eapply Htopo; eauto.
  - intros l1 x l2 E y Hy Hny Hpy. apply snoc_split in E as [(-> & -> & ->)|(l2' & -> & ->)]; auto.
    + apply Hleast. apply Hnodes in Hy as [|[|Hi]]; auto; [contradiction|].
      exfalso. apply dget_Some_key in Hi as [d Ed]. apply Hind in Ed as [-> Hd].
      apply remaining_zero in Hpy. lia.
    + eapply Hgreedy; eauto.
Qed.

Lemma topo_loop_ok : forall fuel ind heap out,
  TInv ind heap out -> length out + fuel = length nodes ->
  exists res, topo_loop lt es fuel ind heap out = Ok res /\
    NoDup res /\ (forall n, In n res <-> In n nodes) /\ topo res /\ greedy res.
Proof.
  induction fuel as [|fuel IH]; intros ind heap out HI Hf.
  - cbn. destruct (heap_pop lt heap) as [[n heap']|] eqn:Ep.
    + exfalso. destruct HI as [HN Hnodes _ _ _ _].
      assert (HNh : NoDup heap).
      { apply NoDup_app_remove_l in HN. now apply NoDup_app_remove_r in HN. }
      destruct (heap_pop_spec _ _ _ Ep HNh) as (Hin & _ & _).
      assert (length (out ++ heap ++ dkeys ind) <= length nodes).
      { apply NoDup_incl_length; auto. intros x Hx. apply Hnodes. rewrite !in_app_iff in Hx. tauto. }
      rewrite app_length in *. destruct heap; [destruct Hin|]. cbn in *. lia.
    + destruct heap; [|discriminate].
      assert (Hind0 : ind = []).
      { destruct HI as [HN Hnodes Hind _ _ _]. destruct ind as [|[n d] r]; auto. exfalso.
        assert (length (out ++ [] ++ dkeys ((n, d) :: r)) <= length nodes).
        { apply NoDup_incl_length; auto. intros x Hx. apply Hnodes. rewrite !in_app_iff in Hx. tauto. }
        rewrite app_length, dkeys_cons in *. cbn in *. lia. }
      subst. exists out. destruct HI as [HN Hnodes _ _ Ht Hg]. repeat split; auto.
      * cbn in HN. now rewrite app_nil_r in HN.
      * intros Hx. apply Hnodes. auto.
      * intros Hx. apply Hnodes in Hx as [|[[]|[]]]; auto.
  - cbn [topo_loop]. destruct (heap_pop lt heap) as [[n heap']|] eqn:Ep.
    + destruct (TInv_step _ _ _ _ _ HI Ep) as (ind' & heap'' & -> & HI'). cbn [rbind].
      apply IH; auto. rewrite app_length. cbn. lia.
    + destruct heap; [|discriminate].
      assert (Hno : forall k n, rk n < k -> ~ In n (dkeys ind)).
      { destruct HI as [HN Hnodes Hind _ _ _].
        induction k as [|k IHk]; intros n Hk Hn; [lia|].
        pose proof Hn as Hn'. apply dget_Some_key in Hn' as [d Ed]. apply Hind in Ed as [-> Hd].
        destruct (Nat.eq_dec (remaining out n) 0) as [E|E]; [lia|].
        assert (exists p, In (p, n) es /\ ~ In p out) as (p & Hp & Hpo).
        { unfold remaining in E. destruct (filter _ es) as [|[p m] q] eqn:Ef; [cbn in E; lia|].
          assert (Hf' : In (p, m) (filter (fun e => eqb (snd e) n && negb (mem (fst e) out)) es)) by (rewrite Ef; now left).
          apply filter_In in Hf' as [Hi Hb]. cbn [fst snd] in Hb. apply andb_true_iff in Hb as [H1 H2].
          apply eqb_iff in H1. subst m. exists p. split; auto. intros Hx. apply mem_In in Hx. now rewrite Hx in H2. }
        pose proof (acyclic _ _ Hp) as Hr. apply (IHk p); [lia|].
        destruct (es_nodes _ _ Hp) as [Hpn _]. apply Hnodes in Hpn as [|[[]|]]; tauto. }
      destruct ind as [|[n d] r].
      * exists out. destruct HI as [HN Hnodes _ _ Ht Hg]. repeat split; auto.
        -- cbn in HN. now rewrite app_nil_r in HN.
        -- intros Hx. apply Hnodes. auto.
        -- intros Hx. apply Hnodes in Hx as [|[[]|[]]]; auto.
      * exfalso. apply (Hno (S (rk n)) n); [lia|now left].
Qed.
End Topo.
