(** The task universe faithfully represents the task trees added to it. *)
From Verif.Base Require Import Py PyFacts.
From Verif.Graph Require Import Model Spec.

Section U.
Context {L : Type} `{Eqb L}.
Implicit Types (u : universe L) (t : task L).

(** the arguments recorded for handle [h] name the arguments of its task *)
Definition args_ok u (targ : list (string * task L)) (d : dict string nat) : Prop :=
  Forall2 (fun kt kj => fst kt = fst kj /\ names u (snd kj) (snd kt)) targ d.

Record Inv u (pending : nat -> Prop) : Prop := {
  inv_nodup : NoDup (u_tasks u);
  inv_index : forall t i, dget (u_index u) t = Some i <-> names u i t;
  inv_args : forall i t, names u i t -> ~ pending i ->
               exists d, dget (u_args u) i = Some d /\ args_ok u (targs t) d;
  inv_akeys : forall i, In i (dkeys (u_args u)) <-> i < length (u_tasks u);
  inv_andup : NoDup (dkeys (u_args u));
  inv_wf : forall t, In t (u_tasks u) -> wf_task t
}.

(** [u'] extends [u] *)
Record Ext u u' : Prop := {
  ext_tasks : exists more, u_tasks u' = u_tasks u ++ more;
  ext_args : forall i, i < length (u_tasks u) -> dget (u_args u') i = dget (u_args u) i
}.

Lemma Ext_refl u : Ext u u.
Proof. split; [exists []; now rewrite app_nil_r|auto]. Qed.
Lemma Ext_len u u' : Ext u u' -> length (u_tasks u) <= length (u_tasks u').
Proof. intros [[more ->] _]. rewrite app_length. lia. Qed.
Lemma Ext_trans u1 u2 u3 : Ext u1 u2 -> Ext u2 u3 -> Ext u1 u3.
Proof.
  intros E12 E23. pose proof (Ext_len _ _ E12). destruct E12 as [[m1 E1] A1], E23 as [[m2 E2] A2].
  split.
  - exists (m1 ++ m2). now rewrite E2, E1, app_assoc.
  - intros i Hi. rewrite A2, A1; auto; lia.
Qed.
Lemma Ext_names u u' h t : Ext u u' -> names u h t -> names u' h t.
Proof.
  intros [[m E] _] Hn. unfold names in *. rewrite E, nth_error_app1; auto.
  apply nth_error_Some. congruence.
Qed.
Lemma names_lt u h t : names u h t -> h < length (u_tasks u).
Proof. unfold names. intros. apply nth_error_Some. congruence. Qed.
Lemma lt_names u h : h < length (u_tasks u) -> exists t, names u h t.
Proof. unfold names. intros Hl. apply nth_error_Some in Hl. destruct (nth_error _ h); eauto; congruence. Qed.
Lemma args_ok_Ext u u' targ d : Ext u u' -> args_ok u targ d -> args_ok u' targ d.
Proof.
  intros E. unfold args_ok. induction 1 as [|x y l l' [Ek En] HF IH]; constructor; auto.
  split; auto. eapply Ext_names; eauto.
Qed.

Lemma Inv_weaken u (P Q : nat -> Prop) : (forall i, P i -> Q i) -> Inv u P -> Inv u Q.
Proof. intros HPQ [? ? ? ? ? ?]. split; auto. Qed.

Lemma names_inj u i j t : NoDup (u_tasks u) -> names u i t -> names u j t -> i = j.
Proof.
  unfold names. intros HN Hi Hj. eapply NoDup_nth_error; eauto; [|congruence].
  apply nth_error_Some. congruence.
Qed.

Lemma empty_Inv : Inv (@empty_universe L) (fun _ => False).
Proof.
  split; cbn; try constructor.
  - discriminate.
  - unfold names. cbn. destruct i; discriminate.
  - unfold names. cbn. destruct i; discriminate.
  - intros [].
  - lia.
  - intros t [].
Qed.

Lemma args_ok_keys u targ d : args_ok u targ d -> map fst targ = dkeys d.
Proof. induction 1 as [|x y l l' [E _] HF IH]; cbn; [reflexivity|]. unfold dkeys in IH. now rewrite E, IH. Qed.

(** the argument loop of [add_task] as a standalone function *)
Fixpoint add_args (idx : nat) (args : list (string * task L)) u : universe L :=
  match args with
  | [] => u
  | (k, v) :: rest => let (u', j) := add_task v u in add_args idx rest (set_arg u' idx k j)
  end.

Lemma add_task_eq t u :
  add_task t u =
  let n := length (u_tasks u) in
  let idx := match dget (u_index u) t with Some i => i | None => n end in
  let ui := match dget (u_index u) t with Some _ => u_index u | None => u_index u ++ [(t, n)] end in
  if idx <? n then ({| u_tasks := u_tasks u; u_index := ui; u_args := u_args u |}, idx)
  else
    let u1 := {| u_tasks := u_tasks u ++ [t]; u_index := ui; u_args := dset (u_args u) idx [] |} in
    (add_args idx (targs t) u1, idx).
Proof.
  destruct t as [l args]. cbn -[Nat.ltb dget eqb].
  destruct (_ <? _); [reflexivity|]. f_equal.
  set (idx := match dget (u_index u) (Node l args) with Some i => i | None => length (u_tasks u) end).
  clearbody idx. match goal with |- ?f args ?w = _ => generalize w as u0 end.
  induction args as [|[k v] rest IH]; intros u0; [reflexivity|].
  cbn [add_args]. destruct (add_task v u0) as [u' j]. apply IH.
Qed.

(** specification of adding one task *)
Definition add_ok t u (P : nat -> Prop) (r : universe L * nat) : Prop :=
  Ext u (fst r) /\ Inv (fst r) P /\ names (fst r) (snd r) t.

Lemma add_args_ok idx args : forall u P done d,
  (forall k t, In (k, t) args -> forall u P, Inv u P -> (forall i, P i -> i < length (u_tasks u)) ->
     wf_task t -> add_ok t u P (add_task t u)) ->
  (forall k t, In (k, t) args -> wf_task t) ->
  NoDup (map fst done ++ map fst args) ->
  Inv u P -> P idx -> (forall i, P i -> i < length (u_tasks u)) ->
  dget (u_args u) idx = Some d -> args_ok u done d ->
  let u' := add_args idx args u in
  (exists more, u_tasks u' = u_tasks u ++ more) /\
  (forall i, i < length (u_tasks u) -> i <> idx -> dget (u_args u') i = dget (u_args u) i) /\
  Inv u' P /\ exists d', dget (u_args u') idx = Some d' /\ args_ok u' (done ++ args) d'.
Proof.
  induction args as [|[k t] rest IH]; intros u P done d Hadd Hwf HND HI HP HPl Hd Hok; cbn.
  - split; [exists []; now rewrite app_nil_r|]. split; [auto|]. split; [auto|].
    exists d. now rewrite app_nil_r.
  - destruct (add_task t u) as [u1 j] eqn:E1.
    destruct (Hadd k t (or_introl eq_refl) u P HI HPl (Hwf k t (or_introl eq_refl))) as (HE & HI1 & Hn1).
    rewrite E1 in *. cbn [fst snd] in *.
    assert (Hlt : idx < length (u_tasks u)) by auto.
    assert (Hd1 : dget (u_args u1) idx = Some d) by (rewrite (ext_args _ _ HE); auto).
    set (u2 := set_arg u1 idx k j).
    assert (Hu2a : u_args u2 = dset (u_args u1) idx (dset d k j)) by (unfold u2, set_arg; cbn; now rewrite Hd1).
    assert (Hu2t : u_tasks u2 = u_tasks u1) by reflexivity.
    assert (Hfresh : ~ In k (dkeys d)).
    { rewrite <- (args_ok_keys _ _ _ Hok). intros Hin. cbn in HND.
      apply NoDup_remove_2 in HND. rewrite in_app_iff in HND. tauto. }
    assert (HI2 : Inv u2 P).
    { destruct HI1 as [a1 a2 a3 a4 a5 a6]. split; auto.
      - intros i t' Hi HnP. destruct (a3 i t' Hi HnP) as (d' & ? & ?).
        exists d'. split; auto. rewrite Hu2a, dget_dset_neq; auto. intros ->. auto.
      - intros i. rewrite Hu2a, dkeys_dset_In, Hu2t, a4. split; [intros [->|]; auto|auto].
        pose proof (Ext_len _ _ HE). lia.
      - rewrite Hu2a. now apply dkeys_dset_NoDup. }
    assert (HPl2 : forall i, P i -> i < length (u_tasks u2)).
    { intros i Hi. rewrite Hu2t. pose proof (Ext_len _ _ HE). apply HPl in Hi. lia. }
    specialize (IH u2 P (done ++ [(k, t)]) (d ++ [(k, j)])).
    destruct IH as ([m Em] & Hsame & HI3 & d' & Hd' & Hok'); auto.
    + intros k0 t0 Hin0. apply (Hadd k0). now right.
    + intros k0 t0 Hin0. apply (Hwf k0). now right.
    + rewrite map_app, <- app_assoc. exact HND.
    + rewrite Hu2a, dget_dset_eq. f_equal. now apply dset_fresh.
    + unfold args_ok. apply Forall2_app.
      * exact (args_ok_Ext u u1 _ _ HE Hok).
      * constructor; [|constructor]. split; auto.
    + fold u2. split; [|split; [|split]]; auto.
      * destruct HE as [[m1 E] _]. exists (m1 ++ m). now rewrite Em, Hu2t, E, app_assoc.
      * intros i Hi Hne. rewrite Hsame; auto.
        -- rewrite Hu2a, dget_dset_neq by auto. now apply HE.
        -- rewrite Hu2t. pose proof (Ext_len _ _ HE). lia.
      * exists d'. split; auto. now rewrite <- app_assoc in Hok'.
Qed.

Lemma add_task_ok t : forall u P, Inv u P -> (forall i, P i -> i < length (u_tasks u)) ->
  wf_task t -> add_ok t u P (add_task t u).
Proof.
  induction t as [l args IHargs] using task_rect'. intros u P HI HPl Hwf.
  rewrite add_task_eq. cbv zeta. unfold add_ok.
  destruct (dget (u_index u) (Node l args)) as [i|] eqn:Ei.
  - pose proof (proj1 (inv_index _ _ HI _ _) Ei) as Hn.
    pose proof (names_lt _ _ _ Hn) as Hlt. apply Nat.ltb_lt in Hlt as ->.
    cbn [fst snd]. destruct u as [a b c]. cbn in *. split; [apply Ext_refl|]. split; auto.
  - rewrite Nat.ltb_irrefl. cbn [fst snd targs].
    set (n := length (u_tasks u)).
    set (u1 := {| u_tasks := u_tasks u ++ [Node l args];
                  u_index := u_index u ++ [(Node l args, n)];
                  u_args := dset (u_args u) n [] |}).
    assert (HnotIn : ~ In (Node l args) (u_tasks u)).
    { intros Hin. apply In_nth_error in Hin as [i Hi]. apply (inv_index _ _ HI) in Hi. congruence. }
    inversion Hwf as [? ? HND Hwfa]; subst.
    set (P' := fun i => P i \/ i = n).
    assert (HI1 : Inv u1 P').
    { destruct HI as [a1 a2 a3 a4 a5 a6]. unfold u1. split; cbn.
      - now apply NoDup_snoc.
      - intros t i. unfold names. cbn.
        assert (HG : forall (d : dict (task L) nat) k v k', ~ In k (dkeys d) ->
                  dget (d ++ [(k, v)]) k' = if eqb k' k then Some v else dget d k').
        { intros d0 k v k' Hni. rewrite <- dset_fresh by auto. apply dget_dset. }
        rewrite HG by (now apply dget_None).
        destruct (eqb_spec t (Node l args)) as [->|Hne].
        + split.
          * intros [= <-]. rewrite nth_error_app2, Nat.sub_diag by (unfold n; lia). reflexivity.
          * intros Hi. f_equal. destruct (Nat.lt_ge_cases i n) as [Hlt|Hge].
            -- rewrite nth_error_app1 in Hi by auto. apply nth_error_In in Hi. contradiction.
            -- assert (i < length (u_tasks u ++ [Node l args])) by (apply nth_error_Some; congruence).
               rewrite app_length in *. cbn in *. unfold n in *. lia.
        + rewrite a2. unfold names. split.
          * intros Hi. rewrite nth_error_app1; auto. apply nth_error_Some. congruence.
          * intros Hi. destruct (Nat.lt_ge_cases i n) as [Hlt|Hge].
            -- now rewrite nth_error_app1 in Hi by auto.
            -- rewrite nth_error_app2 in Hi by auto. fold n in Hi.
               destruct (i - n) as [|[|]]; cbn in Hi; congruence.
      - intros i t Hi HnP. unfold names in Hi. cbn in Hi.
        assert (i <> n) by (intros ->; apply HnP; right; auto).
        assert (Hi' : names u i t).
        { unfold names. destruct (Nat.lt_ge_cases i n) as [Hlt|Hge].
          - now rewrite nth_error_app1 in Hi by auto.
          - assert (i < length (u_tasks u ++ [Node l args])) by (apply nth_error_Some; congruence).
            rewrite app_length in *. cbn in *. unfold n in *. lia. }
        destruct (a3 i t Hi') as (d & Hd & Hok); [intros ?; apply HnP; now left|].
        exists d. split; [now rewrite dget_dset_neq|].
        unfold args_ok in *. eapply Forall2_impl; [|exact Hok].
        cbn. intros x y [? Hy]. split; auto. unfold names in *. cbn. rewrite nth_error_app1; auto.
        apply nth_error_Some. congruence.
      - intros i. rewrite dkeys_dset_In, a4, app_length. cbn. unfold n. lia.
      - now apply dkeys_dset_NoDup.
      - intros t. rewrite in_app_iff. cbn. intros [|[<-|[]]]; auto. }
    assert (Hn1 : names u1 n (Node l args)).
    { unfold names, u1. cbn. rewrite nth_error_app2, Nat.sub_diag by (unfold n; lia). reflexivity. }
    pose proof (add_args_ok n args u1 P' [] []) as HA. cbv zeta in HA.
    destruct HA as ([m Em] & Hsame & HI2 & d' & Hd' & Hok'); auto.
    + now right.
    + unfold P', u1. cbn. rewrite app_length. cbn. fold n. intros i [Hi| ->]; [apply HPl in Hi; unfold n in *|]; lia.
    + unfold u1. cbn. now rewrite dget_dset_eq.
    + constructor.
    + cbn in Hok'. split; [split|split; [split|]].
      * exists ([Node l args] ++ m). rewrite Em. unfold u1. cbn. now rewrite <- app_assoc.
      * intros i Hi. assert (i <> n) by (unfold n; lia). rewrite Hsame; auto.
        -- unfold u1. cbn. now rewrite dget_dset_neq.
        -- unfold u1. cbn. rewrite app_length. lia.
      * apply HI2.
      * apply HI2.
      * intros i t Hi HnP. destruct (Nat.eq_dec i n) as [->|Hne].
        -- assert (Ht : t = Node l args).
           { assert (names (add_args n args u1) n (Node l args)).
             { unfold names. rewrite Em, nth_error_app1; [exact Hn1|]. eapply names_lt; eauto. }
             unfold names in *. congruence. }
           subst t. exists d'. auto.
        -- apply (inv_args _ _ HI2); auto. intros [?|?]; auto.
      * apply HI2.
      * apply HI2.
      * apply HI2.
      * unfold names. rewrite Em, nth_error_app1; [exact Hn1|]. eapply names_lt; eauto.
Qed.

Definition wf_u u : Prop := Inv u (fun _ => False).

Lemma add_task_wf t u : wf_u u -> wf_task t -> add_ok t u (fun _ => False) (add_task t u).
Proof. intros HI Hw. apply add_task_ok; auto. intros i []. Qed.

Lemma add_tasks_wf ts : forall u, wf_u u -> Forall wf_task ts ->
  wf_u (add_tasks ts u) /\ Ext u (add_tasks ts u) /\ forall t, In t ts -> exists h, names (add_tasks ts u) h t.
Proof.
  induction ts as [|t ts IH]; cbn; intros u Hu HF.
  - split; [auto|]. split; [apply Ext_refl|]. intros t [].
  - inversion HF; subst. destruct (add_task_wf t u Hu) as (HE & HI & Hn); auto.
    destruct (IH (fst (add_task t u)) HI) as (HI' & HE' & Hin); auto.
    split; [|split]; auto.
    + eapply Ext_trans; eauto.
    + intros t0 [<-|Hin0]; auto. exists (snd (add_task t u)). eapply Ext_names; eauto.
Qed.

(** adding a task that is already known changes nothing *)
Lemma add_task_known t u h : wf_u u -> names u h t -> add_task t u = (u, h).
Proof.
  intros HI Hn. rewrite add_task_eq. cbv zeta.
  rewrite (proj2 (inv_index _ _ HI t h) Hn).
  pose proof (names_lt _ _ _ Hn) as Hlt. apply Nat.ltb_lt in Hlt as ->. now destruct u.
Qed.

Lemma handles_of_known ts : forall u, wf_u u -> (forall t, In t ts -> exists h, names u h t) ->
  exists hs, handles_of ts u = (u, hs) /\ Forall2 (fun t h => names u h t) ts hs.
Proof.
  induction ts as [|t ts IH]; intros u HI Hin; cbn.
  - exists []. split; constructor.
  - destruct (Hin t) as [h Hh]; [now left|]. rewrite (add_task_known t u h) by auto.
    destruct (IH u HI) as (hs & -> & HF); [intros; apply Hin; now right|].
    exists (h :: hs). split; auto.
Qed.

Lemma built_wf u : built u -> wf_u u.
Proof. intros (ts & HF & ->). apply add_tasks_wf; auto. apply empty_Inv. Qed.

(** ** consequences used by the scheduler *)
Lemma wf_args u h t : wf_u u -> names u h t ->
  exists d, dget (u_args u) h = Some d /\ args_of u h = d /\ args_ok u (targs t) d.
Proof.
  intros HI Hn. destruct (inv_args _ _ HI h t Hn) as (d & Hd & Hok); [tauto|].
  exists d. unfold args_of. rewrite Hd. auto.
Qed.

Lemma args_ok_In u targ d k j : args_ok u targ d -> In (k, j) d -> exists a, In (k, a) targ /\ names u j a.
Proof.
  unfold args_ok. induction 1 as [|[k1 a1] [k2 j2] l l' [E1 E2] HF IH]; [intros []|].
  cbn in *. intros [[= -> ->]|Hin].
  - subst. exists a1. auto.
  - destruct (IH Hin) as (a & ? & ?). exists a. auto.
Qed.
Lemma args_ok_In' u targ d k a : args_ok u targ d -> In (k, a) targ -> exists j, In (k, j) d /\ names u j a.
Proof.
  unfold args_ok. induction 1 as [|[k1 a1] [k2 j2] l l' [E1 E2] HF IH]; [intros []|].
  cbn in *. intros [[= -> ->]|Hin].
  - subst. exists j2. auto.
  - destruct (IH Hin) as (j & ? & ?). exists j. auto.
Qed.

Lemma deps_depends u h j : wf_u u -> h < length (u_tasks u) -> (In j (deps u h) <-> depends u h j).
Proof.
  intros HI Hlt. destruct (lt_names _ _ Hlt) as [t Ht].
  destruct (wf_args u h t HI Ht) as (dd & _ & Ha & Hok).
  unfold deps. rewrite Ha. unfold depends. split.
  - intros Hin. apply in_map_iff in Hin as ([k j'] & Hj & Hin). cbn in Hj. subst j'.
    destruct (args_ok_In _ _ _ _ _ Hok Hin) as (a & ? & ?). exists t, k, a. auto.
  - intros (t' & k & a & Ht' & Hin & Hna). assert (t' = t) by (unfold names in *; congruence). subst t'.
    destruct (args_ok_In' _ _ _ _ _ Hok Hin) as (j' & Hj' & Hnj').
    assert (j' = j) by (eapply names_inj; eauto; apply HI). subst j'.
    apply in_map_iff. exists (k, j). auto.
Qed.

Lemma deps_lt u h j : wf_u u -> h < length (u_tasks u) -> In j (deps u h) -> j < length (u_tasks u).
Proof. intros HI Hlt Hin. apply deps_depends in Hin as (t & k & a & _ & _ & Hn); auto. eapply names_lt; eauto. Qed.

Lemma names_closed u h t k a : wf_u u -> names u h t -> In (k, a) (targs t) -> exists j, names u j a.
Proof.
  intros HI Hn Hin. destruct (wf_args u h t HI Hn) as (dd & _ & Ha & Hok).
  destruct (args_ok_In' _ _ _ _ _ Hok Hin) as (j & _ & ?). eauto.
Qed.

(** ** acyclicity: task height decreases along dependencies *)
Fixpoint height t : nat := match t with Node _ args => S (fold_right (fun kt m => max (height (snd kt)) m) 0 args) end.
Lemma height_arg t k a : In (k, a) (targs t) -> height a < height t.
Proof.
  destruct t as [l args]. cbn. intros Hin. apply Nat.lt_succ_r.
  induction args as [|[k1 a1] r IH]; [destruct Hin|]. cbn.
  destruct Hin as [[= -> ->]|Hin]; [lia|]. apply IH in Hin. lia.
Qed.
Definition rank u h : nat := match nth_error (u_tasks u) h with Some t => height t | None => 0 end.
Lemma deps_rank u h j : wf_u u -> h < length (u_tasks u) -> In j (deps u h) -> rank u j < rank u h.
Proof.
  intros HI Hlt Hin. apply deps_depends in Hin as (t & k & a & Ht & Hin & Hn); auto.
  unfold rank. unfold names in *. rewrite Ht, Hn. eapply height_arg; eauto.
Qed.
End U.
