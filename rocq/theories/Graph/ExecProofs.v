(** The executor run: values, residency, yields. *)
From Verif.Base Require Import Py PyFacts.
From Verif.Graph Require Import Model Spec UniverseProofs TopoProofs ScheduleProofs.

Lemma eval_unfold {L V} (A : attrs L) (S : semantics L V) env t : env t = None ->
  eval A S env t =
  (let! vs := rmapM (fun kt => let! v := eval A S env (snd kt) in
                               Ok (fst kt, if uses_accelerator A (label t) then to_math S v else v)) (targs t) in
   rmap (to_store S) (execute S (label t) vs)).
Proof. intros E. destruct t as [l args]. cbn -[rmapM]. now rewrite E. Qed.

Lemma eval_cached {L V} (A : attrs L) (S : semantics L V) env t v : env t = Some v -> eval A S env t = Ok v.
Proof. intros E. destruct t as [l args]. cbn -[rmapM]. now rewrite E. Qed.

Section Evict.
Context {V : Type}.
Lemma fold_ddel_get (ks : list nat) : forall (d : dict nat V) k,
  dget (fold_left ddel ks d) k = if mem k ks then None else dget d k.
Proof.
  induction ks as [|x ks IH]; intros d k; cbn; [reflexivity|].
  rewrite IH, dget_ddel. destruct (eqb k x), (mem k ks); reflexivity.
Qed.
Lemma fold_ddel_NoDup (ks : list nat) : forall (d : dict nat V), NoDup (dkeys d) -> NoDup (dkeys (fold_left ddel ks d)).
Proof. induction ks as [|x ks IH]; cbn; intros d HN; auto. apply IH. now apply ddel_NoDup. Qed.

Lemma evict_ok (last : dict nat nat) idx (values : dict nat V) :
  (forall k, In k (dkeys values) -> exists i, dget last k = Some i) -> NoDup (dkeys values) ->
  exists values', evict last idx values = Ok values' /\ NoDup (dkeys values') /\
    forall k, dget values' k = match dget last k with
                               | Some i => if i <=? idx then None else dget values k
                               | None => None end.
Proof.
  intros Hl HN. unfold evict.
  destruct (rmapM _ values) as [flags|e] eqn:EF.
  - cbn [rbind]. eexists. split; [reflexivity|]. split; [now apply fold_ddel_NoDup|].
    intros k. rewrite fold_ddel_get.
    apply rmapM_Ok_Forall2 in EF.
    assert (Hflag : forall k, In k (map fst (filter snd flags)) <->
              In k (dkeys values) /\ exists i, dget last k = Some i /\ i <= idx).
    { clear Hl HN k. intros k.
      assert (HX : forall k b, In (k, b) flags <-> In k (dkeys values) /\ exists i, dget last k = Some i /\ b = (i <=? idx)).
      { intros k0 b. clear k. induction EF as [|[k v] y l l' Hy HF IH]; [split; [intros []|intros [[] _]]|].
        rewrite dkeys_cons. cbn in Hy. unfold dgetE in Hy. destruct (dget last k) as [i|] eqn:Ek; [|discriminate].
        cbn in Hy. injection Hy as <-. cbn [In]. rewrite IH. split.
        - intros [[= <- <-]|[? ?]]; [|auto]. split; eauto.
        - intros [[<-|?] (i' & E' & ->)]; [left; congruence|right; eauto]. }
      rewrite in_map_iff. split.
      - intros ([k' b] & <- & Hf). apply filter_In in Hf as [Hin Hb]. cbn in *. subst b.
        apply HX in Hin as (H1 & i & H2 & H3). split; auto. exists i. split; auto. symmetry in H3.
        now apply Nat.leb_le.
      - intros (H1 & i & H2 & H3). exists (k, true). split; auto. apply filter_In. split; auto.
        apply HX. split; auto. exists i. split; auto. symmetry. now apply Nat.leb_le. }
    destruct (mem_spec k (map fst (filter snd flags))) as [Hm|Hm]; rewrite Hflag in Hm.
    + destruct Hm as (_ & i & -> & Hi). apply Nat.leb_le in Hi. now rewrite Hi.
    + destruct (dget values k) as [v|] eqn:Ev.
      * assert (Hk : In k (dkeys values)) by (apply dget_Some_key; eauto).
        destruct (Hl k Hk) as [i Ei]. rewrite Ei. destruct (Nat.leb_spec i idx); auto.
        exfalso. apply Hm. split; eauto.
      * destruct (dget last k); auto. destruct (_ <=? _); auto.
  - exfalso. apply rmapM_Err in EF as ([k v] & Hin & E). cbn in E. unfold dgetE in E.
    destruct (Hl k) as [i Ei]; [unfold dkeys; apply in_map_iff; exists (k, v); auto|].
    rewrite Ei in E. discriminate.
Qed.
End Evict.

Section Run.
Context {L V : Type} `{Eqb L} (A : attrs L) (S : semantics L V).
Variables (u : universe L) (HU : wf_u u) (targets : list nat) (cached : dict nat V)
          (env : task L -> option V) (sched : list nat).
Hypothesis env_ok : env_matches u cached env.
Hypothesis targets_lt : forall t, In t targets -> t < length (u_tasks u).
Hypothesis SOK : sched_ok A u targets (dkeys cached) sched.
Hypothesis cached_nodup : NoDup (dkeys cached).
Hypothesis cached_lt : forall k, In k (dkeys cached) -> k < length (u_tasks u).
Let last := last_use u sched (dkeys cached).

Lemma sched_lt h : In h sched -> h < length (u_tasks u).
Proof. intros Hh. apply (so_in _ _ _ _ _ SOK) in Hh as [Hr _]. exact (reachh_lt u targets _ h HU targets_lt Hr). Qed.

Lemma wanted_deps later k : (forall h, In h later -> h < length (u_tasks u)) ->
  (wanted u later k <-> exists t, In t later /\ In k (deps u t)).
Proof.
  intros Hlt. unfold wanted. split; intros (h & Hh & Hd); exists h; split; auto; apply deps_depends in Hd; auto;
    apply deps_depends; auto.
Qed.

Record RInv (done rest : list nat) (values : dict nat V) : Prop := {
  ri_split : sched = done ++ rest;
  ri_nodup : NoDup (dkeys values);
  ri_keys : forall k, In k (dkeys values) <-> resident u (dkeys cached) done rest k;
  ri_val : forall k v t, dget values k = Some v -> names u k t -> eval A S env t = Ok v
}.

Lemma RInv_init : RInv [] sched cached.
Proof.
  split; auto.
  - intros k. unfold resident. cbn [app]. split.
    + intros Hk. right. split; auto.
      destruct (In_dec_eqb k (flat_map (deps u) sched)) as [Hi|Hi]; rewrite in_flat_map in Hi.
      * left. apply wanted_deps; [apply sched_lt|]. auto.
      * right. rewrite wanted_deps by apply sched_lt. auto.
    + intros [[[] _]|[Hk _]]; auto.
  - intros k v t Hk Hn. apply eval_cached. now rewrite (env_ok k t Hn).
Qed.

(** one step of the schedule *)
Lemma RInv_step done h rest values : RInv done (h :: rest) values ->
  exists t, names u h t /\ env t = None /\
  exists args,
    rmapM (fun nd => let! v := dgetE values (snd nd) in Ok (fst nd, move_arg A S (label t) v)) (args_of u h) = Ok args /\
    rmapM (fun kt => let! v := eval A S env (snd kt) in
                     Ok (fst kt, if uses_accelerator A (label t) then to_math S v else v)) (targs t) = Ok args /\
    forall r, execute S (label t) args = Ok r ->
      exists values2, evict last (length done) (dset values h (to_store S r)) = Ok values2 /\
                      RInv (done ++ [h]) rest values2.
Proof.
  intros [Hsp HN Hk Hv].
  pose proof (so_nodup _ _ _ _ _ SOK) as HNs.
  assert (Hh : In h sched) by (rewrite Hsp, in_app_iff; cbn; auto).
  pose proof (sched_lt h Hh) as Hlt. destruct (lt_names _ _ Hlt) as [t Ht].
  assert (Hhc : ~ In h (dkeys cached)) by now apply (so_in _ _ _ _ _ SOK) in Hh.
  assert (Henv : env t = None) by (rewrite (env_ok h t Ht); now apply dget_None).
  assert (Hslt : forall l, (forall x, In x l -> In x sched) -> forall x, In x l -> x < length (u_tasks u))
    by (intros l Hl x Hx; apply sched_lt; auto).
  exists t. split; auto. split; auto.
  destruct (wf_args u h t HU Ht) as (d & _ & Ea & Hok).
  assert (Hres : forall k, In k (deps u h) -> In k (dkeys values)).
  { intros k Hkd. apply Hk. unfold resident.
    assert (Hw : wanted u (h :: rest) k).
    { exists h. split; [now left|]. now apply deps_depends. }
    destruct (so_order _ _ _ _ _ SOK done h rest Hsp k Hkd); auto. }
  assert (HF : exists args,
    Forall2 (fun x y => (let! v := dgetE values (snd x) in Ok (fst x, move_arg A S (label t) v)) = Ok y) d args /\
    Forall2 (fun x y => (let! v := eval A S env (snd x) in
                     Ok (fst x, if uses_accelerator A (label t) then to_math S v else v)) = Ok y) (targs t) args).
  { assert (Hsub : forall kj, In kj d -> In (snd kj) (dkeys values)).
    { intros kj Hi. apply Hres. unfold deps. rewrite Ea. now apply in_map. }
    clear Ea Hres Hk. induction Hok as [|[k a] [k' j] l l' [E En] HF IH].
    - exists []. split; constructor.
    - destruct IH as (args & F1 & F2); [intros; apply Hsub; now right|].
      cbn in E, En. subst k'. pose proof (Hsub (k, j) (or_introl eq_refl)) as Hj. cbn in Hj.
      apply dget_Some_key in Hj as [v Ev].
      exists ((k, if uses_accelerator A (label t) then to_math S v else v) :: args). split; constructor; auto.
      + cbn. unfold dgetE. rewrite Ev. reflexivity.
      + cbn. rewrite (Hv j v a Ev En). reflexivity. }
  destruct HF as (args & F1 & F2). exists args.
  apply rmapM_Ok_Forall2 in F1. apply rmapM_Ok_Forall2 in F2. rewrite Ea.
  split; [exact F1|]. split; [exact F2|].
  intros r Er.
  assert (Hevt : eval A S env t = Ok (to_store S r)).
  { rewrite eval_unfold by auto. rewrite F2. cbn [rbind]. rewrite Er. reflexivity. }
  set (v := to_store S r) in *.
  assert (Hnr : ~ In h rest).
  { rewrite Hsp in HNs. apply NoDup_remove_2 in HNs. rewrite in_app_iff in HNs. tauto. }
  assert (Hnrest : forall k, In k done \/ k = h \/ In k (dkeys cached) -> ~ In k rest).
  { intros k [Hd|[->|Hc]] Hr; auto.
    - rewrite Hsp in HNs. apply NoDup_app_inv in HNs as (_ & _ & HX). apply (HX k); [auto|now right].
    - assert (Hks : In k sched) by (rewrite Hsp, in_app_iff; cbn; auto).
      apply (so_in _ _ _ _ _ SOK) in Hks. tauto. }
  assert (Hkv1 : forall k, In k (dkeys (dset values h v)) -> In k done \/ k = h \/ In k (dkeys cached)).
  { intros k Hin. apply dkeys_dset_In in Hin as [->|Hin]; auto. apply Hk in Hin as [[? _]|[? _]]; auto. }
  destruct (evict_ok last (length done) (dset values h v)) as (values2 & Ev2 & HN2 & Hget2).
  - intros k Hin. apply Hkv1 in Hin.
    destruct (last_use_spec u sched (dkeys cached) done h rest k Hsp (Hnrest k Hin) Hin) as (i & Ei & _). eauto.
  - now apply dkeys_dset_NoDup.
  - exists values2. split; [exact Ev2|]. split.
    + now rewrite <- app_assoc.
    + exact HN2.
    + intros k. rewrite dget_Some_key, Hget2. unfold resident. rewrite <- app_assoc. cbn [app]. rewrite <- Hsp.
      rewrite !wanted_deps by (apply Hslt; intros x Hx; auto; rewrite Hsp, in_app_iff; cbn; auto).
      assert (Hcase : (In k done \/ k = h \/ In k (dkeys cached)) \/ ~ (In k done \/ k = h \/ In k (dkeys cached))).
      { destruct (In_dec_eqb k done), (Eqb_dec k h), (In_dec_eqb k (dkeys cached)); tauto. }
      destruct Hcase as [Hin|Hout].
      * destruct (last_use_spec u sched (dkeys cached) done h rest k Hsp (Hnrest k Hin) Hin) as (i & Ei & Hiff).
        unfold last. rewrite Ei.
        destruct (Nat.leb_spec i (length done)) as [Hle|Hgt].
        -- split; [intros [? [=]]|]. intros HX. exfalso.
           enough (length done < i) by lia. apply Hiff.
           destruct HX as [[_ ?]|[Hc [?|Hnw]]]; auto. right. split; auto. split.
           ++ intros Hx. apply (so_in _ _ _ _ _ SOK) in Hx. tauto.
           ++ intros t' Ht' Hd'. apply Hnw. eauto.
        -- rewrite <- dget_Some_key, dkeys_dset_In, Hk. unfold resident.
           rewrite <- Hsp.
           rewrite !wanted_deps by (apply Hslt; intros x Hx; auto; rewrite Hsp, in_app_iff; cbn in *; tauto).
           apply Hiff in Hgt. rewrite in_app_iff. cbn [In].
           split.
           ++ intros _. destruct Hgt as [Hw|(Hc & Hns & Hnw)].
              ** destruct Hin as [?|[->|?]]; auto.
              ** right. split; auto. right. intros (t' & Ht' & Hd'). eapply Hnw; eauto.
           ++ intros HX. destruct HX as [[[Hd|[->|[]]] (t' & Ht' & Hd')]|[Hc HX]]; auto.
              ** right. left. split; auto. exists t'. auto.
              ** right. right. split; auto. destruct HX as [(t' & Ht' & Hd')|?]; auto. left. exists t'. auto.
      * assert (Hnv : dget (dset values h v) k = None).
        { apply dget_None. intros Hx. apply Hkv1 in Hx. auto. }
        split.
        -- intros [x Hx]. destruct (dget last k) as [i|]; [|discriminate]. destruct (i <=? _); [discriminate|].
           rewrite Hnv in Hx. discriminate.
        -- rewrite in_app_iff. cbn. intros [[[?|[?|[]]] _]|[? _]]; exfalso; apply Hout; auto.
    + intros k x tk Hget Hn. rewrite Hget2 in Hget. destruct (dget last k) as [i|]; [|discriminate].
      destruct (i <=? _); [discriminate|]. rewrite dget_dset in Hget.
      destruct (eqb_spec k h) as [->|].
      * injection Hget as <-. assert (tk = t) by (unfold names in *; congruence). now subst.
      * eapply Hv; eauto.
Qed.

Lemma executed_app (e1 e2 : list (event V)) : executed (e1 ++ e2) = executed e1 ++ executed e2.
Proof. apply flat_map_app. Qed.
Lemma yields_app (e1 e2 : list (event V)) : yields (e1 ++ e2) = yields e1 ++ yields e2.
Proof. apply flat_map_app. Qed.
Lemma keeps_app (e1 e2 : list (event V)) : keeps (e1 ++ e2) = keeps e1 ++ keeps e2.
Proof. apply flat_map_app. Qed.

(** [p] ran to completion, then either everything is done or the next task raised *)
Definition run_spec (done rest : list nat) (evs : list (event V)) (st : option exn) : Prop :=
  exists p q, rest = p ++ q /\
    map fst (yields evs) = filter (fun h => mem h targets) p /\
    (forall h v t, In (h, v) (yields evs) -> names u h t -> eval A S env t = Ok v) /\
    (forall h t, In h p -> names u h t -> exists v, eval A S env t = Ok v) /\
    length (keeps evs) = length p /\
    (forall i ks, nth_error (keeps evs) i = Some ks ->
       NoDup ks /\
       forall k, In k ks <-> resident u (dkeys cached) (done ++ firstn (Datatypes.S i) rest) (skipn (Datatypes.S i) rest) k) /\
    match st with
    | None => q = [] /\ executed evs = rest
    | Some e => exists h q' t, q = h :: q' /\ executed evs = p ++ [h] /\ names u h t /\ raises A S env t e
    end.

Lemma run_from_ok : forall rest done values, RInv done rest values ->
  run_spec done rest (fst (run_from A S u targets last (length done) rest values))
                     (snd (run_from A S u targets last (length done) rest values)).
Proof.
  induction rest as [|h rest IH]; intros done values HI.
  - cbn. exists [], []. cbn. split; [auto|]. split; [auto|]. split; [intros ? ? ? []|].
    split; [intros ? ? []|]. split; [auto|]. split; [|auto]. intros [|i] ks; discriminate.
  - destruct (RInv_step done h rest values HI) as (t & Ht & Henv & args & Eargs & Eev & Hstep).
    assert (Htlt : h < length (u_tasks u)) by (eapply names_lt; eauto).
    cbn [run_from]. unfold names in Ht. rewrite Ht. rewrite Eargs.
    destruct (execute S (label t) args) as [r|e] eqn:Er.
    + destruct (Hstep r eq_refl) as (values2 & Ev & HI2). rewrite Ev.
      specialize (IH (done ++ [h]) values2 HI2). rewrite app_length, Nat.add_1_r in IH.
      destruct (run_from A S u targets last (Datatypes.S (length done)) rest values2) as [evs st].
      cbn [fst snd] in IH |- *.
      destruct IH as (p & q & Hr & Hy & Hyv & Hpv & Hlen & Hks & Hst).
      assert (Hevt : eval A S env t = Ok (to_store S r)).
      { rewrite eval_unfold by auto. rewrite Eev. cbn [rbind]. rewrite Er. reflexivity. }
      set (ys := if mem h targets then [EYield h (to_store S r)] else []).
      assert (Eys : yields ys = if mem h targets then [(h, to_store S r)] else []) by (unfold ys; destruct (mem h targets); reflexivity).
      assert (Exs : executed ys = []) by (unfold ys; destruct (mem h targets); reflexivity).
      assert (Eks : keeps ys = []) by (unfold ys; destruct (mem h targets); reflexivity).
      exists (h :: p), q. split; [now rewrite Hr|].
      change (EExec h :: ys ++ EKeep (dkeys values2) :: evs) with ([EExec h] ++ ys ++ [EKeep (dkeys values2)] ++ evs).
      rewrite !yields_app, !executed_app, !keeps_app, Eys, Exs, Eks. cbn [yields executed keeps flat_map app].
      split; [|split; [|split; [|split; [|split]]]].
      * rewrite map_app, Hy. cbn [filter]. destruct (mem h targets); reflexivity.
      * intros h' v' t' Hin Hn. apply in_app_iff in Hin as [Hin|Hin]; [|eapply Hyv; eauto].
        destruct (mem h targets); [|destruct Hin]. destruct Hin as [[= <- <-]|[]].
        assert (t' = t) by (unfold names in *; congruence). now subst.
      * intros h' t' [<-|Hin] Hn; [|eapply Hpv; eauto].
        assert (t' = t) by (unfold names in *; congruence). subst. eauto.
      * cbn. now rewrite Hlen.
      * intros [|i] ks Hi.
        -- cbn in Hi. injection Hi as <-. split; [apply HI2|]. intros k. cbn [firstn skipn]. apply HI2.
        -- cbn in Hi. apply Hks in Hi as [Hi1 Hi2]. split; auto. intros k. rewrite Hi2.
           cbn [firstn skipn]. rewrite <- app_assoc. reflexivity.
      * destruct st as [e|].
        -- destruct Hst as (h' & q' & t' & -> & Ex & Hn' & Hra). exists h', q', t'. repeat split; auto.
           rewrite Ex. reflexivity.
        -- destruct Hst as [-> ->]. split; auto.
    + cbn [fst snd]. exists [], (h :: rest). cbn. split; [auto|]. split; [auto|]. split; [intros ? ? ? []|].
      split; [intros ? ? []|]. split; [auto|]. split.
      * intros [|i] ks; discriminate.
      * exists h, rest, t. repeat split; auto. exists args. split; [|exact Er].
        apply rmapM_Ok_Forall2 in Eev. eapply Forall2_impl; [|exact Eev].
        cbn. intros [k a] [k' v] E. cbn in *. destruct (eval A S env a) as [v0|]; [|discriminate].
        cbn in E. injection E as <- <-. split; auto. exists v0. auto.
Qed.
End Run.
