(** [build_schedule]: what it schedules, in which order, and the last-use table. *)
From Verif.Base Require Import Py PyFacts.
From Verif.Graph Require Import Model Spec UniverseProofs TopoProofs.

Inductive reachh {L} (u : universe L) (targets cached : list nat) : nat -> Prop :=
| reach_target h : In h targets -> reachh u targets cached h
| reach_dep h d : reachh u targets cached h -> ~ In h cached -> In d (deps u h) -> reachh u targets cached d.

Section Explore.
Context {L : Type} (u : universe L).
Hypothesis args_nodup : NoDup (dkeys (u_args u)).
Variables (targets cached : list nat) (choose : nat -> list nat -> nat).

Definition weight (E : list nat) : nat :=
  length (flat_map (fun kv => if mem (fst kv) E then [] else dvals (snd kv)) (u_args u)).

Lemma weight_cons_ge E t : weight (t :: E) <= weight E.
Proof.
  unfold weight. clear args_nodup. cbn [mem].
  induction (u_args u) as [|[k d] r IH]; cbn [flat_map fst snd]; [lia|].
  rewrite !app_length. destruct (eqb k t); [|destruct (mem k E)]; cbn [length]; lia.
Qed.

Lemma weight_cons E t : ~ In t E -> weight E >= weight (t :: E) + length (deps u t).
Proof.
  intros Hn. unfold deps, args_of. destruct (dget (u_args u) t) as [dd|] eqn:Ed.
  2:{ cbn. pose proof (weight_cons_ge E t). lia. }
  unfold weight. rewrite map_length. clear choose targets. cbn [mem].
  induction (u_args u) as [|[k d] r IH]; cbn in Ed; [discriminate|].
  rewrite dkeys_cons in args_nodup. inversion args_nodup as [|? ? Hk HN]; subst.
  cbn [flat_map fst snd mem]. rewrite !app_length.
  destruct (eqb_spec t k) as [<-|Hne].
  - injection Ed as <-. rewrite eqb_refl. apply mem_nIn in Hn. rewrite Hn.
    cbn [length]. unfold dvals. rewrite map_length.
    assert (length (flat_map (fun kv : nat * dict string nat => if if eqb (fst kv) t then true else mem (fst kv) E then [] else dvals (snd kv)) r)
            <= length (flat_map (fun kv => if mem (fst kv) E then [] else dvals (snd kv)) r)).
    { clear. induction r as [|[k d] r IH]; cbn [flat_map fst snd]; [lia|].
      rewrite !app_length. destruct (eqb k t); [|destruct (mem k E)]; cbn [length]; lia. }
    unfold dvals in *. lia.
  - destruct (eqb_spec k t); [congruence|]. specialize (IH HN Ed).
    destruct (mem k E); cbn [length] in *; lia.
Qed.

Lemma set_pop_spec (ch : list nat -> nat) s : 
  match set_pop ch s with
  | None => s = []
  | Some (x, r) => length s = S (length r) /\ forall y, In y s <-> y = x \/ In y r
  end.
Proof.
  destruct s as [|x0 s0]; [reflexivity|]. unfold set_pop. set (s := x0 :: s0).
  set (i := ch s mod length s).
  assert (Hi : i < length s) by (apply Nat.mod_upper_bound; discriminate).
  clearbody i. clearbody s.
  assert (E : s = firstn i s ++ nth i s x0 :: skipn (S i) s).
  { rewrite <- (firstn_skipn i s) at 1. f_equal.
    clear -Hi. revert i Hi. induction s as [|a s IH]; intros i Hi; cbn [length] in *; [lia|].
    destruct i; [reflexivity|]. cbn [nth skipn]. rewrite IH by lia. reflexivity. }
  split.
  - rewrite E at 1. rewrite !app_length. cbn. lia.
  - intros y. rewrite E at 1. rewrite !in_app_iff. cbn. intuition congruence.
Qed.

Lemma fold_set_add_In (l s : list nat) y : In y (fold_left (fun s d => set_add d s) l s) <-> In y l \/ In y s.
Proof.
  revert s. induction l as [|x l IH]; cbn; intros s; [tauto|].
  rewrite IH, set_add_In. intuition (subst; auto).
Qed.
Lemma fold_set_add_len (l s : list nat) : length (fold_left (fun s d => set_add d s) l s) <= length l + length s.
Proof.
  revert s. induction l as [|x l IH]; cbn; intros s; [lia|].
  eapply Nat.le_trans; [apply IH|]. unfold set_add. destruct (mem x s); [lia|rewrite app_length; cbn; lia].
Qed.

Definition edges_of (E : list nat) (G : list (node * node)) : Prop :=
  forall e, In e G <-> exists t d, In t E /\ ~ In t cached /\ In d (deps u t) /\ e = (Some d, Some t).

Lemma explore_ok : forall fuel E T G,
  length T + weight E < fuel ->
  (forall h, In h T -> reachh u targets cached h) ->
  (forall h, In h E -> reachh u targets cached h) ->
  (forall h, In h targets -> In h E \/ In h T) ->
  (forall h d, In h E -> ~ In h cached -> In d (deps u h) -> In d E \/ In d T) ->
  edges_of E G ->
  exists E' G', explore choose u (fun h => mem h cached) fuel E T G = Ok (E', G') /\
    (forall h, In h E' <-> reachh u targets cached h) /\ edges_of E' G'.
Proof.
  induction fuel as [|fuel IH]; intros E T G Hf HT HE Htg Hcl HG; [lia|].
  cbn [explore]. pose proof (set_pop_spec (choose fuel) T) as HP.
  destruct (set_pop (choose fuel) T) as [[t rest]|].
  - destruct HP as [Hlen HIn].
    assert (Hrt : reachh u targets cached t) by (apply HT, HIn; auto).
    destruct (mem_spec t E) as [Ht|Ht].
    + apply IH; auto.
      * lia.
      * intros h Hh. apply HT, HIn. auto.
      * intros h Hh. apply Htg in Hh as [|Hh]; auto. apply HIn in Hh as [->|]; auto.
      * intros h d Hh Hc Hd. destruct (Hcl h d Hh Hc Hd) as [|Hx]; auto. apply HIn in Hx as [->|]; auto.
    + pose proof (weight_cons E t Ht) as Hw.
      destruct (mem_spec t cached) as [Hc|Hc].
      * apply IH.
        -- lia.
        -- intros h Hh. apply HT, HIn. auto.
        -- intros h [<-|Hh]; auto.
        -- intros h Hh. apply Htg in Hh as [|Hh]; [left; now right|]. apply HIn in Hh as [->|]; [left; now left|auto].
        -- intros h d [<-|Hh] Hc' Hd; [contradiction|].
           destruct (Hcl h d Hh Hc' Hd) as [|Hx]; [left; now right|]. apply HIn in Hx as [->|]; [left; now left|auto].
        -- intros e. rewrite (HG e). split.
           ++ intros (t0 & d0 & ? & ?). exists t0, d0. split; [now right|auto].
           ++ intros (t0 & d0 & [<-|?] & ? & ?); [contradiction|]. exists t0, d0. auto.
      * apply IH.
        -- pose proof (fold_set_add_len (deps u t) rest). lia.
        -- intros h Hh. apply fold_set_add_In in Hh as [Hh|Hh].
           ++ eapply reach_dep; eauto.
           ++ apply HT, HIn. auto.
        -- intros h [<-|Hh]; auto.
        -- intros h Hh. rewrite fold_set_add_In. apply Htg in Hh as [|Hh]; [left; now right|].
           apply HIn in Hh as [->|]; [left; now left|auto].
        -- intros h d [<-|Hh] Hc' Hd; rewrite fold_set_add_In; auto.
           destruct (Hcl h d Hh Hc' Hd) as [|Hx]; [left; now right|]. apply HIn in Hx as [->|]; [left; now left|auto].
        -- intros e. rewrite in_app_iff, (HG e), in_map_iff. split.
           ++ intros [(t0 & d0 & ? & ?)|(d0 & <- & Hd)].
              ** exists t0, d0. split; [now right|auto].
              ** exists t, d0. split; [now left|auto].
           ++ intros (t0 & d0 & [<-|?] & ? & ? & ->).
              ** right. eauto.
              ** left. exists t0, d0. auto.
  - subst T. exists E, G. split; [auto|]. split; [|auto]. intros h. split; auto.
    induction 1 as [h Hh|h d _ IHr Hc Hd].
    + apply Htg in Hh as [|[]]; auto.
    + destruct (Hcl h d IHr Hc Hd) as [|[]]; auto.
Qed.
End Explore.

(** ** the sort of an acyclic edge list *)
Section Sort.
Variables (key : node -> string * Z) (edges : list (node * node)) (rk : node -> nat).
Hypothesis acyclic : forall a b, In (a, b) edges -> rk a < rk b.

Let es := dedup edges.
Let nodes := dedup (flat_map (fun e => [fst e; snd e]) edges).
Let lt a b := key_lt (key a, index_of a nodes) (key b, index_of b nodes).

Lemma remaining_nil n : remaining es [] n = indegree es n.
Proof. unfold remaining, indegree. f_equal. apply filter_ext. intros e. cbn. apply andb_true_r. Qed.

Lemma filter_keys f : dkeys (map (fun n => (n, indegree es n)) (filter f nodes)) = filter f nodes.
Proof. unfold dkeys. rewrite map_map. cbn. apply map_id. Qed.

Lemma topo_sort_ok : exists out, topo_sort key edges = Ok out /\ NoDup out /\
  (forall n, In n out <-> In n nodes) /\ topo es out /\ greedy lt es nodes out.
Proof.
  unfold topo_sort. fold es. fold nodes.
  apply (topo_loop_ok lt) with (rk := rk).
  - intros x y z. unfold lt. apply key_lt_false_trans.
  - intros x y. unfold lt. apply key_lt_asym.
  - apply dedup_NoDup.
  - intros a b Hab. unfold es, nodes in *. rewrite !dedup_In, !in_flat_map in *.
    split; exists (a, b); cbn; auto.
  - intros a b Hab. apply acyclic. unfold es in Hab. rewrite dedup_In in Hab. exact Hab.
  - split.
    + cbn [app]. rewrite filter_keys. apply NoDup_app_intro.
      * apply NoDup_filter, dedup_NoDup.
      * apply NoDup_filter, dedup_NoDup.
      * intros a Ha Hb. apply filter_In in Ha as [_ Ha]. apply filter_In in Hb as [_ Hb].
        rewrite Ha in Hb. discriminate.
    + intros n. rewrite filter_keys, !filter_In. cbn. destruct (indegree es n =? 0); cbn; intuition congruence.
    + intros n d Hd. apply dget_In in Hd. apply in_map_iff in Hd as (n' & [= -> <-] & Hf).
      apply filter_In in Hf as [_ Hf]. rewrite remaining_nil. split; auto.
      destruct (Nat.eqb_spec (indegree es n) 0); [discriminate|lia].
    + intros n Hn. apply filter_In in Hn as [_ Hn]. rewrite remaining_nil. now apply Nat.eqb_eq.
    + intros l1 x l2 E. destruct l1; discriminate.
    + intros l1 x l2 E. destruct l1; discriminate.
  - reflexivity.
Qed.
End Sort.

(** ** filtering nodes *)
Lemma keep_scheduled_In cached ns h : In h (keep_scheduled cached ns) <-> In (Some h) ns /\ ~ In h cached.
Proof.
  unfold keep_scheduled. rewrite in_flat_map. split.
  - intros ([x|] & Hx & Hin); [|destruct Hin]. destruct (mem_spec x cached); [destruct Hin|].
    destruct Hin as [<-|[]]. auto.
  - intros [H1 H2]. exists (Some h). split; auto. apply mem_nIn in H2. rewrite H2. now left.
Qed.
Lemma keep_scheduled_NoDup cached ns : NoDup ns -> NoDup (keep_scheduled cached ns).
Proof.
  induction 1 as [|x ns Hx HN IH]; cbn; [constructor|].
  destruct x as [h|]; auto. destruct (mem h cached) eqn:E; auto. cbn. constructor; auto.
  intros Hin. apply keep_scheduled_In in Hin as [? _]. auto.
Qed.
Lemma keep_scheduled_split cached ns : forall l1 h l2, keep_scheduled cached ns = l1 ++ h :: l2 ->
  exists o1 o2, ns = o1 ++ Some h :: o2 /\ l1 = keep_scheduled cached o1.
Proof.
  induction ns as [|x ns IH]; cbn; intros l1 h l2 E; [destruct l1; discriminate|].
  assert (Hskip : (match x with Some h => if mem h cached then [] else [h] | None => [] end) = [] ->
    exists o1 o2, x :: ns = o1 ++ Some h :: o2 /\ l1 = keep_scheduled cached o1).
  { intros E0. rewrite E0 in E. destruct (IH l1 h l2 E) as (o1 & o2 & -> & ->).
    exists (x :: o1), o2. cbn. rewrite E0. auto. }
  destruct x as [y|]; auto. destruct (mem y cached) eqn:Ey; auto. cbn in E.
  destruct l1 as [|z l1]; injection E as -> E.
  - exists [], ns. auto.
  - destruct (IH l1 h l2 E) as (o1 & o2 & -> & ->). exists (Some z :: o1), o2. cbn. rewrite Ey. auto.
Qed.

(** ** last use *)
Section LastUse.
Context {L : Type} (u : universe L).

Definition uses (k : nat) (it : nat * nat) : bool := mem k (deps u (snd it)) || eqb k (snd it).

Lemma fold_dset_absent (ks : list nat) (i : nat) : forall d k,
  dget (fold_left (fun d dep => if dmem d dep then d else dset d dep i) ks d) k =
  match dget d k with Some x => Some x | None => if mem k ks then Some i else None end.
Proof.
  induction ks as [|x ks IH]; intros d k; cbn [fold_left mem].
  - now destruct (dget d k).
  - rewrite IH. unfold dmem. destruct (dget d x) eqn:Ex.
    + destruct (dget d k) eqn:Ek; auto. destruct (eqb_spec k x); [congruence|auto].
    + rewrite dget_dset. destruct (eqb_spec k x) as [->|]; [now rewrite Ex|]. reflexivity.
Qed.

Lemma last_use_fold its : forall d k,
  dget (fold_left (last_use_step u) its d) k =
  match dget d k with Some x => Some x | None => option_map fst (find (uses k) its) end.
Proof.
  induction its as [|[i t] its IH]; intros d k; cbn [fold_left find].
  - now destruct (dget d k).
  - rewrite IH. unfold last_use_step, uses at 2. cbn [snd].
    set (d1 := fold_left _ (deps u t) d).
    assert (E1 : forall k, dget d1 k = match dget d k with Some x => Some x | None => if mem k (deps u t) then Some i else None end)
      by (intros; apply fold_dset_absent).
    assert (E2 : forall k, dget (if dmem d1 t then d1 else dset d1 t i) k =
              match dget d k with Some x => Some x | None => if mem k (deps u t) || eqb k t then Some i else None end).
    { intros k'. unfold dmem. destruct (dget d1 t) eqn:Et.
      - rewrite E1. destruct (dget d k') eqn:Ek; auto. destruct (mem k' (deps u t)) eqn:Em; auto.
        destruct (eqb_spec k' t) as [->|]; auto. rewrite E1, Ek, Em in Et. discriminate.
      - rewrite dget_dset, E1. destruct (eqb_spec k' t) as [->|].
        + rewrite E1 in Et. destruct (dget d t); [discriminate|]. now rewrite orb_true_r.
        + now rewrite orb_false_r. }
    rewrite E2. destruct (dget d k); auto. destruct (mem k (deps u t) || eqb k t); reflexivity.
Qed.

Lemma last_use_get sched cached k :
  dget (last_use u sched cached) k =
  match find (uses k) (rev (enumerate_from 0 sched)) with
  | Some it => Some (fst it)
  | None => if mem k cached then Some (length sched + 1) else None
  end.
Proof.
  unfold last_use. rewrite fold_dset_absent, last_use_fold. cbn [dget].
  destruct (find _ _); reflexivity.
Qed.

Lemma enumerate_from_app {A} (l1 l2 : list A) : forall i,
  enumerate_from i (l1 ++ l2) = enumerate_from i l1 ++ enumerate_from (i + length l1) l2.
Proof.
  induction l1 as [|x l1 IH]; intros i; cbn; [now rewrite Nat.add_0_r|].
  rewrite IH. do 3 f_equal. lia.
Qed.
Lemma enumerate_from_In {A} (l : list A) : forall i j x, In (j, x) (enumerate_from i l) -> i <= j < i + length l /\ In x l.
Proof.
  induction l as [|y l IH]; intros i j x; cbn; [tauto|].
  intros [[= -> ->]|Hin]; [split; [lia|auto]|]. apply IH in Hin as [? ?]. split; [lia|auto].
Qed.
Lemma find_app {A} (f : A -> bool) l1 l2 : find f (l1 ++ l2) = match find f l1 with Some x => Some x | None => find f l2 end.
Proof. induction l1 as [|x l1 IH]; cbn; auto. destruct (f x); auto. Qed.
Lemma enumerate_snd {A} (l : list A) : forall i x, In x l -> exists j, In (j, x) (enumerate_from i l).
Proof.
  induction l as [|y l IH]; intros i x; cbn; [tauto|]. intros [->|Hin]; [eauto|].
  destruct (IH (S i) x Hin) as [j ?]. eauto.
Qed.

(** the last-use index decides exactly whether a value is still wanted *)
Lemma last_use_spec sched cached done h later k :
  sched = done ++ h :: later -> ~ In k later ->
  In k done \/ k = h \/ In k cached ->
  exists i, dget (last_use u sched cached) k = Some i /\
    (length done < i <-> (exists t, In t later /\ In k (deps u t)) \/
                         (In k cached /\ ~ In k sched /\ forall t, In t sched -> ~ In k (deps u t))).
Proof.
  intros E Hl Hk. rewrite last_use_get. subst sched.
  rewrite enumerate_from_app. cbn [enumerate_from]. rewrite rev_app_distr. cbn [rev].
  rewrite !find_app. cbn [find plus].
  destruct (find (uses k) (rev (enumerate_from (S (length done)) later))) as [[i t]|] eqn:F1.
  - exists i. split; [reflexivity|]. apply find_some in F1 as [Hin Hu].
    apply in_rev, enumerate_from_In in Hin as [Hi Ht]. unfold uses in Hu. cbn [snd] in Hu.
    split; [|intros; lia]. intros _. left. exists t. split; auto.
    apply orb_true_iff in Hu as [Hu|Hu]; [now apply mem_In in Hu|].
    apply eqb_iff in Hu. subst. contradiction.
  - assert (Hnl : forall t, In t later -> ~ In k (deps u t)).
    { intros t Ht Hd. destruct (enumerate_snd later (S (length done)) t Ht) as [j Hj].
      apply in_rev in Hj. eapply find_none in F1; [|exact Hj]. unfold uses in F1. cbn [snd] in F1.
      apply orb_false_iff in F1 as [F1 _]. apply mem_In in Hd. congruence. }
    destruct (uses k (length done, h)) eqn:Uh.
    + exists (length done). split; [reflexivity|]. split; [lia|].
      intros [(t & Ht & Hd)|(Hc & Hn & Hall)]; [exfalso; eapply Hnl; eauto|].
      exfalso. unfold uses in Uh. cbn [snd] in Uh. apply orb_true_iff in Uh as [Uh|Uh].
      * apply mem_In in Uh. apply (Hall h); auto. rewrite in_app_iff. cbn. auto.
      * apply eqb_iff in Uh. subst. apply Hn. rewrite in_app_iff. cbn. auto.
    + destruct (find (uses k) (rev (enumerate_from 0 done))) as [[i t]|] eqn:F2.
      * exists i. split; [reflexivity|]. apply find_some in F2 as [Hin Hu].
        apply in_rev, enumerate_from_In in Hin as [Hi Ht]. split; [lia|].
        intros [(t' & Ht' & Hd)|(Hc & Hn & Hall)]; [exfalso; eapply Hnl; eauto|]. exfalso.
        unfold uses in Hu. cbn [snd] in Hu. apply orb_true_iff in Hu as [Hu|Hu].
        -- apply mem_In in Hu. apply (Hall t); auto. rewrite in_app_iff. auto.
        -- apply eqb_iff in Hu. subst. apply Hn. rewrite in_app_iff. auto.
      * assert (Hnd : forall t, In t done -> k <> t /\ ~ In k (deps u t)).
        { intros t Ht. destruct (enumerate_snd done 0 t Ht) as [j Hj].
          apply in_rev in Hj. eapply find_none in F2; [|exact Hj]. unfold uses in F2. cbn [snd] in F2.
          apply orb_false_iff in F2 as [F2 F3]. apply eqb_neq in F3. apply mem_nIn in F2. auto. }
        unfold uses in Uh. cbn [snd] in Uh. apply orb_false_iff in Uh as [U1 U2].
        apply eqb_neq in U2. apply mem_nIn in U1.
        destruct Hk as [Hk|[Hk|Hk]]; [exfalso; now apply (proj1 (Hnd k Hk))|contradiction|].
        apply mem_In in Hk as Hk'. rewrite Hk'. eexists. split; [reflexivity|].
        rewrite app_length. cbn [length]. split; [|lia]. intros _. right. split; auto. split.
        -- rewrite in_app_iff. cbn. intros [Hx|[Hx|Hx]]; [|congruence|contradiction].
           apply Hnd in Hx. tauto.
        -- intros t Ht. rewrite in_app_iff in Ht. cbn in Ht. destruct Ht as [Ht|[<-|Ht]]; auto.
           now apply Hnd.
Qed.
End LastUse.

Lemma key_lt_pref (ky kx : string * Z) iy ix : key_lt (ky, iy) (kx, ix) = false ->
  ~ (String.compare (fst ky) (fst kx) = Lt \/ (fst ky = fst kx /\ (snd ky < snd kx)%Z)).
Proof.
  rewrite key_lt_false. destruct ky as [sy zy], kx as [sx zx]. cbn.
  intros [Hg|[[-> Hg]|[-> [-> Hg]]]] [Hp|[E Hp]]; subst; rewrite ?string_compare_refl in *; try congruence; lia.
Qed.

(** ** build_schedule *)
Section Build.
Context {L : Type} `{Eqb L} (A : attrs L).

Record sched_ok (u : universe L) (targets cached sched : list nat) : Prop := {
  so_nodup : NoDup sched;
  so_in : forall h, In h sched <-> reachh u targets cached h /\ ~ In h cached;
  so_order : forall l1 h l2, sched = l1 ++ h :: l2 ->
               forall d, In d (deps u h) -> In d cached \/ In d l1;
  so_greedy : forall l1 x l2 y, sched = l1 ++ x :: l2 -> In y l2 ->
      (forall d, In d (deps u y) -> In d l1) ->
      ~ In y targets \/
        (String.compare (fst (node_key A u (Some x))) EmptyString = Gt \/
         (fst (node_key A u (Some x)) = EmptyString /\ (snd (node_key A u (Some x)) > 0)%Z)) ->
      ~ (String.compare (fst (node_key A u (Some y))) (fst (node_key A u (Some x))) = Lt \/
         (fst (node_key A u (Some y)) = fst (node_key A u (Some x)) /\
          (snd (node_key A u (Some y)) < snd (node_key A u (Some x)))%Z))
}.

Lemma reachh_lt u targets cached h : wf_u u -> (forall t, In t targets -> t < length (u_tasks u)) ->
  reachh u targets cached h -> h < length (u_tasks u).
Proof.
  intros HI Ht. induction 1 as [h Hh|h d _ IH _ Hd]; auto. eapply deps_lt; eauto.
Qed.

Lemma build_schedule_ok u targets cached choose :
  wf_u u -> (forall t, In t targets -> t < length (u_tasks u)) ->
  exists s, build_schedule A choose u targets cached = Ok s /\
            sched_ok u targets cached (s_tasks s) /\
            (targets <> [] -> s_last s = last_use u (s_tasks s) cached).
Proof.
  intros HI Ht. unfold build_schedule.
  destruct targets as [|t0 ts] eqn:Etg.
  { eexists. split; [reflexivity|]. cbn. split; [|congruence]. split; cbn.
    - constructor.
    - intros h. split; [tauto|]. intros [Hr _]. induction Hr; auto.
    - intros [|] ? ?; discriminate.
    - intros [|] ? ?; discriminate. }
  rewrite <- Etg in *.
  destruct (explore_ok u (inv_andup _ _ HI) targets cached choose (explore_fuel u targets) [] (dedup targets) [])
    as (E & G & HE & HEin & HG).
  - unfold explore_fuel.
    assert (length (dedup targets) <= length targets).
    { apply NoDup_incl_length; [apply dedup_NoDup|]. intros x. now rewrite dedup_In. }
    assert (weight u [] = length (flat_map (fun kv => dvals (snd kv)) (u_args u))) by reflexivity. lia.
  - intros h Hh. apply reach_target. rewrite dedup_In in Hh. exact Hh.
  - intros h [].
  - intros h Hh. right. now apply dedup_In.
  - intros h d [].
  - intros e. split; [intros []|]. intros (t & d & [] & _).
  - rewrite HE. cbn [rbind].
    set (edges := G ++ map (fun t => (None, Some t)) targets).
    set (rk := fun n : node => match n with None => 0 | Some h => S (rank u h) end).
    assert (Hreachlt : forall h, reachh u targets cached h -> h < length (u_tasks u)) by (intros; eapply reachh_lt; eauto).
    assert (Hedge : forall a b, In (a, b) edges <->
       (exists d t, a = Some d /\ b = Some t /\ reachh u targets cached t /\ ~ In t cached /\ In d (deps u t)) \/
       (a = None /\ exists t, b = Some t /\ In t targets)).
    { intros a b. unfold edges. rewrite in_app_iff, (HG (a, b)), in_map_iff. split.
      - intros [(t & d & H1 & H2 & H3 & [= -> ->])|(t & [= <- <-] & Hx)].
        + left. exists d, t. rewrite <- HEin. auto.
        + right. eauto.
      - intros [(d & t & -> & -> & H1 & H2 & H3)|(-> & t & -> & Hx)].
        + left. exists t, d. rewrite HEin. auto.
        + right. eauto. }
    assert (Hacy : forall a b, In (a, b) edges -> rk a < rk b).
    { intros a b Hab. apply Hedge in Hab as [(d & t & -> & -> & H1 & H2 & H3)|(-> & t & -> & Hx)]; cbn.
      - apply -> Nat.succ_lt_mono. apply deps_rank; auto.
      - lia. }
    destruct (topo_sort_ok (node_key A u) edges rk Hacy) as (out & Eout & HNo & Hino & Htopo & Hgr).
    rewrite Eout. cbn [rbind]. eexists. split; [reflexivity|]. cbn [s_tasks s_last].
    set (nodes := dedup (flat_map (fun e => [fst e; snd e]) edges)) in *.
    assert (Hnode : forall n, In n nodes <-> n = None \/ exists h, n = Some h /\ reachh u targets cached h).
    { intros n. unfold nodes. rewrite dedup_In, in_flat_map. split.
      - intros ([a b] & Hab & Hn). cbn in Hn.
        apply Hedge in Hab as [(d & t & -> & -> & H1 & H2 & H3)|(-> & t & -> & Hx)];
          destruct Hn as [<-|[<-|[]]]; auto; right; eexists; (split; [reflexivity|]).
        + eapply reach_dep; eauto.
        + auto.
        + now apply reach_target.
      - intros [->|(h & -> & Hr)].
        + exists (None, Some t0). split; [|now left]. apply Hedge. right. split; auto. exists t0.
          split; auto. rewrite Etg. now left.
        + induction Hr as [h Hh|h d Hr IH Hc Hd].
          * exists (None, Some h). split; [|right; now left]. apply Hedge. eauto.
          * exists (Some d, Some h). split; [|now left]. apply Hedge. left. exists d, h. auto 6. }
    split; [|auto].
    split.
    + now apply keep_scheduled_NoDup.
    + intros h. rewrite keep_scheduled_In, Hino, Hnode. split.
      * intros [[?|(h' & [= <-] & Hr)] Hc]; [discriminate|auto].
      * intros [Hr Hc]. split; eauto.
    + intros l1 h l2 E1 d Hd. destruct (keep_scheduled_split _ _ _ _ _ E1) as (o1 & o2 & Eo & ->).
      destruct (In_dec_eqb d cached) as [|Hc]; auto. right. rewrite keep_scheduled_In. split; auto.
      eapply Htopo; [exact Eo|]. apply dedup_In, Hedge. left. exists d, h.
      assert (Hh : In h (keep_scheduled cached out)) by (rewrite E1, in_app_iff; cbn; auto).
      apply keep_scheduled_In in Hh as [Hh Hhc]. apply Hino, Hnode in Hh as [?|(h' & [= <-] & Hr)]; [discriminate|].
      auto 6.
    + intros l1 x l2 y E1 Hy Hdeps Hside Hpref.
      destruct (keep_scheduled_split _ _ _ _ _ E1) as (o1 & o2 & Eo & ->).
      assert (Hyk : In y (keep_scheduled cached out)) by (rewrite E1, in_app_iff; cbn; auto).
      apply keep_scheduled_In in Hyk as [Hyo Hyc].
      pose proof (keep_scheduled_NoDup cached out HNo) as HNk. rewrite E1 in HNk.
      assert (Hyno1 : ~ In (Some y) o1).
      { intros Hx. apply (NoDup_app_inv _ _ HNk) with y; [apply keep_scheduled_In; auto|now right]. }
      (* was the dummy popped before x? *)
      destruct (In_dec_eqb None o1) as [Hd1|Hd1].
      * assert (Hlt : key_lt (node_key A u (Some y), index_of (Some y) nodes) (node_key A u (Some x), index_of (Some x) nodes) = false).
        { apply (Hgr o1 (Some x) o2 Eo (Some y)); auto.
          - now apply Hino.
          - intros p Hp. rewrite dedup_In, Hedge in Hp; destruct Hp as [(d & t & -> & [= <-] & H1 & H2 & H3)|(-> & _)]; auto.
            apply Hdeps in H3. now apply keep_scheduled_In in H3. }
        eapply key_lt_pref; eauto.
      * assert (Hlt : key_lt (node_key A u None, index_of None nodes) (node_key A u (Some x), index_of (Some x) nodes) = false).
        { apply (Hgr o1 (Some x) o2 Eo None); auto.
          - apply Hnode. auto.
          - intros p Hp. rewrite dedup_In, Hedge in Hp; destruct Hp as [(d & t & -> & [=] & _)|(-> & t & [=] & _)]. }
        destruct Hside as [Hnt|Hside].
        -- assert (Hlt' : key_lt (node_key A u (Some y), index_of (Some y) nodes) (node_key A u (Some x), index_of (Some x) nodes) = false).
           { apply (Hgr o1 (Some x) o2 Eo (Some y)); auto.
             - now apply Hino.
             - intros p Hp. rewrite dedup_In, Hedge in Hp; destruct Hp as [(d & t & -> & [= <-] & H1 & H2 & H3)|(-> & t & [= <-] & Hx)]; auto.
               + apply Hdeps in H3. now apply keep_scheduled_In in H3.
               + contradiction. }
           eapply key_lt_pref; eauto.
        -- apply key_lt_pref in Hlt. apply Hlt. change (node_key A u None) with (EmptyString, 0%Z). cbn [fst snd].
           destruct Hside as [Hs|[Hs1 Hs2]].
           ++ left. rewrite String.compare_antisym, Hs. reflexivity.
           ++ right. split; [auto|lia].
Qed.
End Build.
