(** * C84: models are opened once, under the options of the run *)
From Coq Require Import Lia Permutation.
From Verif.Base Require Import Py PyFacts.
From Verif.Config Require Import Model.
From Verif.Arch Require Import Model.
From Verif.Plan Require Import Model Proofs ModuleProofs NormProofs.
From Verif.Graph Require Import Model Spec.
From Verif.Run Require Props.
From Verif.Run Require Import Model Proofs PlanProofs Cache CacheSpec.
Local Open Scope list_scope.

Section Threads.
Context {M : Type} `{Eqb M} {L D : Type}.
Variable merged : D -> M -> option string -> bool -> option string -> result M.
Variable lazy_loader : D -> M -> option string -> bool -> result L.
Notation open_loader := (open_loader merged lazy_loader).
Notation get := (get merged lazy_loader).
Notation act := (act merged lazy_loader).
Notation acts := (acts merged lazy_loader).
Notation warm_up := (warm_up merged lazy_loader).
Notation start_run := (start_run merged lazy_loader).
Notation opened_on := (opened_on merged lazy_loader).
Notation opened_under := (opened_under merged lazy_loader).
Notation state := (state M L).

Lemma open_setup o d d' m l : open_loader (setup o) d d' m = Ok l <-> opened_on o d d' m l.
Proof.
  unfold Cache.open_loader, CacheSpec.opened_on. cbn. split.
  - destruct (merged _ _ _ _ _) as [m'|] eqn:E; cbn; [|discriminate]. eauto.
  - intros (m' & -> & E). exact E.
Qed.
Lemma settings_main (s : state) x f : settings_of {| s_loaders := s_loaders s; s_settings := dset (s_settings s) 0 x; s_place := f |} 0 = x.
Proof. unfold settings_of. cbn. now rewrite dget_dset_eq. Qed.

(** What [get] does when no other thread runs is one of its interleavings. *)
Theorem C84_get_alone (s : state) t m dd s' l : s_place s t = Idle -> get s t m dd = Ok (s', l) ->
  exists c s'', acts s c = Some (s'', [(t, m, l)]) /\ asked c = [m] /\ s_loaders s'' = s_loaders s' /\ s_settings s'' = s_settings s' /\
    (forall u, s_place s'' u = s_place s' u).
Proof.
  intros Hp. unfold Cache.get. destruct (dget (s_loaders s) m) as [l0|] eqn:E.
  - intros [= <- <-]. exists [Enter t m; Return t]. cbn. rewrite Hp. cbn. unfold dmem. rewrite E. cbn. unfold at_place. rewrite Nat.eqb_refl, E.
    eexists. split; [reflexivity|]. repeat split; try reflexivity. cbn. intros u. destruct (Nat.eqb_spec u t); congruence.
  - destruct (open_loader _ _ _ _) as [l0|] eqn:Eo; cbn [rbind]; [|discriminate]. intros [= <- <-].
    exists [Enter t m; Open t (fst dd) (snd dd); Store t; Return t]. cbn. rewrite Hp. cbn. unfold dmem. rewrite E. cbn. unfold at_place. rewrite Nat.eqb_refl. cbn.
    unfold settings_of in *. cbn. rewrite Eo. cbn. rewrite Nat.eqb_refl. cbn. rewrite Nat.eqb_refl, dget_dset_eq. eexists. split; [reflexivity|]. repeat split; try reflexivity.
    cbn. intros u. destruct (Nat.eqb_spec u t); congruence.
Qed.

Lemma warm_spec ds o ms : forall (s s' : state), settings_of s 0 = setup o -> warm_up s ms ds = Ok s' ->
  s_settings s' = s_settings s /\ (forall t, s_place s' t = s_place s t) /\
  (forall m l, dget (s_loaders s) m = Some l -> dget (s_loaders s') m = Some l) /\
  (forall m, ~ In m ms -> dget (s_loaders s') m = dget (s_loaders s) m) /\
  (forall m, In m ms -> dget (s_loaders s) m = None -> exists l, dget (s_loaders s') m = Some l /\ opened_on o (fst (ds m)) (snd (ds m)) m l).
Proof.
  induction ms as [|m ms IH]; intros s s' Hs; cbn [Cache.warm_up].
  - intros [= <-]. repeat split; auto. intros m [].
  - unfold Cache.get. destruct (dget (s_loaders s) m) as [l0|] eqn:E; cbn [rbind fst].
    + intros Hw. destruct (IH _ _ Hs Hw) as (H1 & H2 & H3 & H4 & H5). repeat split; auto.
      * intros x Hx. apply H4. intros Hi. apply Hx. now right.
      * intros x [<-|Hx] En; [congruence|now apply H5].
    + rewrite Hs. destruct (open_loader _ _ _ _) as [l0|] eqn:Eo; cbn [rbind fst]; [|discriminate]. intros Hw.
      pose proof (fun q => IH _ s' q Hw) as IHw. destruct (IHw Hs) as (H1 & H2 & H3 & H4 & H5). cbn in H1, H2, H3, H4, H5. repeat split; auto.
      * intros x l Hl. apply H3. rewrite dget_dset_neq; [exact Hl|]. intros ->. congruence.
      * intros x Hx. rewrite H4 by (intros Hi; apply Hx; now right). apply dget_dset_neq. intros ->. apply Hx. now left.
      * intros x Hx En. destruct (eqb_spec x m) as [->|Hne].
        -- exists l0. split; [apply H3, dget_dset_eq|now apply open_setup].
        -- destruct Hx as [->|Hx]; [congruence|]. apply H5; [exact Hx|]. rewrite dget_dset_neq; auto.
Qed.

(** After the warm-up every model named by the configuration has a loader: the one it had before, or one opened under the options of this
    run. No other model is opened and no loader is replaced. *)
Theorem C84_warm_up (s s' : state) o refs ds : start_run s o refs ds = Ok s' ->
  (forall m l, dget (s_loaders s) m = Some l -> dget (s_loaders s') m = Some l) /\
  (forall m, In m refs -> dget (s_loaders s) m = None -> exists l, dget (s_loaders s') m = Some l /\ opened_on o (fst (ds m)) (snd (ds m)) m l) /\
  (forall m, In m (dkeys (s_loaders s')) <-> In m (dkeys (s_loaders s)) \/ In m refs).
Proof.
  intros Hw. destruct (warm_spec ds o refs _ s' (settings_main s (setup o) (s_place s)) Hw) as (_ & _ & H1 & H2 & H3). cbn in *. split; [exact H1|]. split; [exact H3|].
  intros m. rewrite !dget_Some_key. split.
  - intros (l & Hl). destruct (dget (s_loaders s) m) as [l0|] eqn:E; [left; eauto|]. right.
    destruct (in_dec (fun a b : M => ltac:(destruct (eqb_spec a b); auto)) m refs) as [Hi|Hn]; [exact Hi|]. rewrite (H2 m Hn) in Hl. congruence.
  - intros [(l & Hl)|Hi]; [eauto|]. destruct (dget (s_loaders s) m) as [l0|] eqn:E; [eauto|]. destruct (H3 m Hi E) as (l & Hl & _). eauto.
Qed.
(** It succeeds exactly if the models without a loader can be opened. *)
Theorem C84_warm_up_succeeds (s : state) o refs ds : (exists s', start_run s o refs ds = Ok s') <->
  forall m, In m refs -> dget (s_loaders s) m = None -> exists l, opened_on o (fst (ds m)) (snd (ds m)) m l.
Proof.
  split.
  - intros (s' & Hw) m Hm E. destruct (C84_warm_up s s' o refs ds Hw) as (_ & H1 & _). destruct (H1 m Hm E) as (l & _ & Hl). eauto.
  - intros Hall. unfold Cache.start_run. pose proof (settings_main s (setup o) (s_place s)) as Hs. revert Hs. generalize (dset (s_settings s) 0 (setup o)). intros st.
    assert (Hall' : forall m, In m refs -> dget (s_loaders {| s_loaders := s_loaders s; s_settings := st; s_place := s_place s |}) m = None -> exists l, opened_on o (fst (ds m)) (snd (ds m)) m l) by exact Hall.
    revert Hall'. generalize {| s_loaders := s_loaders s; s_settings := st; s_place := s_place s |}. clear Hall s st.
    induction refs as [|m refs IH]; intros s Hall Hs; cbn [Cache.warm_up]; [eauto|]. unfold Cache.get. destruct (dget (s_loaders s) m) as [l0|] eqn:E; cbn [rbind fst].
    + apply IH; [|exact Hs]. intros x Hx. apply Hall. now right.
    + destruct (Hall m (or_introl eq_refl) E) as (l & Hl). rewrite Hs. apply open_setup in Hl. rewrite Hl. cbn [rbind fst]. apply IH; [|exact Hs]. cbn. intros x Hx En. apply Hall; [now right|].
      destruct (eqb_spec x m) as [->|Hne]; [rewrite dget_dset_eq in En; discriminate|now rewrite dget_dset_neq in En].
Qed.

(** no thread is about to open one of the models that have a loader *)
Definition calm (s : state) : Prop := forall t, match s_place s t with Idle => True | Found m => In m (dkeys (s_loaders s)) | _ => False end.
Lemma act_known s a s' r : calm s -> (forall t m, a = Enter t m -> In m (dkeys (s_loaders s))) -> act s a = Some (s', r) ->
  calm s' /\ s_loaders s' = s_loaders s /\ opens a = false /\ (forall t m l, In (t, m, l) r -> dget (s_loaders s) m = Some l).
Proof.
  intros Hc Ha. destruct a as [t o|t m|t d d'|t|t]; cbn [Cache.act]; pose proof (Hc t) as Ht; destruct (s_place s t) as [|m0|m0 l0|m0] eqn:Ep; try discriminate; try contradiction.
  - intros [= <- <-]. repeat split; auto. intros ? ? ? [].
  - intros [= <- <-]. specialize (Ha t m eq_refl). repeat split; auto; [|intros ? ? ? []]. intros u. cbn. unfold at_place. destruct (Nat.eqb u t); [|apply Hc].
    unfold dmem. apply dget_Some_key in Ha as (l & E). rewrite E. apply dget_Some_key. eauto.
  - destruct (dget (s_loaders s) m0) as [l|] eqn:E; [|discriminate]. intros [= <- <-]. repeat split; auto.
    + intros u. cbn. unfold at_place. destruct (Nat.eqb u t); [exact I|apply Hc].
    + intros ? ? ? [[= <- <- <-]|[]]. exact E.
Qed.
Lemma acts_known l : forall s s' r, calm s -> (forall m, In m (asked l) -> In m (dkeys (s_loaders s))) -> acts s l = Some (s', r) ->
  s_loaders s' = s_loaders s /\ existsb opens l = false /\ (forall t m x, In (t, m, x) r -> dget (s_loaders s) m = Some x).
Proof.
  induction l as [|a l IH]; intros s s' r Hc Ha; cbn [Cache.acts existsb].
  - intros [= <- <-]. repeat split. intros ? ? ? [].
  - destruct (act s a) as [[s1 r1]|] eqn:E1; [|discriminate]. destruct (acts s1 l) as [[s2 r2]|] eqn:E2; [|discriminate]. intros [= <- <-].
    destruct (act_known s a s1 r1 Hc) as (C1 & C2 & C3 & C4); [|exact E1|].
    { intros t m ->. apply Ha. now left. }
    destruct (IH s1 s2 r2 C1) as (I1 & I2 & I3); [|exact E2|].
    { intros m Hm. rewrite C2. apply Ha. cbn. apply in_or_app. now right. }
    rewrite C3. cbn. split; [congruence|]. split; [exact I2|]. intros t m x Hi. apply in_app_or in Hi as [Hi|Hi]; [eauto|]. rewrite <- C2. eauto.
Qed.
(** Whatever the threads do, each loader was opened by one of them under the options that this thread had been given last. *)
Definition opened_in (h : list (action M D)) (m : M) (x : L) : Prop :=
  exists h1 t d d' h2, h = h1 ++ Open t d d' :: h2 /\ In m (asked h1) /\ opened_on (last_options h1 t) d d' m x.
Lemma opened_more h a m x : opened_in h m x -> opened_in (h ++ [a]) m x.
Proof. intros (h1 & t & d & d' & h2 & -> & Ha & Ho). exists h1, t, d, d', (h2 ++ [a]). rewrite <- app_assoc. auto. Qed.
Definition traced (h : list (action M D)) (s : state) : Prop :=
  (forall t, settings_of s t = setup (last_options h t)) /\
  (forall m x, dget (s_loaders s) m = Some x -> opened_in h m x) /\
  (forall t, match s_place s t with Missing m => In m (asked h) | Opened m x => opened_in h m x | _ => True end).
Lemma asked_snoc (h : list (action M D)) a : asked (h ++ [a]) = asked h ++ asked [a].
Proof. apply flat_map_app. Qed.
Lemma act_traced h s a s' r : traced h s -> act s a = Some (s', r) -> traced (h ++ [a]) s' /\ forall t m x, In (t, m, x) r -> opened_in (h ++ [a]) m x.
Proof.
  intros (H1 & H2 & H3) E.
  assert (Hl : forall t, last_options (h ++ [a]) t = match a with Setup t' o' => if Nat.eqb t' t then o' else last_options h t | _ => last_options h t end).
  { intros t. unfold last_options. rewrite fold_left_app. destruct a; reflexivity. }
  assert (H2' : forall m x, dget (s_loaders s) m = Some x -> opened_in (h ++ [a]) m x) by (intros; apply opened_more; auto).
  assert (H3' : forall t, match s_place s t with Missing m => In m (asked (h ++ [a])) | Opened m x => opened_in (h ++ [a]) m x | _ => True end).
  { intros t. specialize (H3 t). destruct (s_place s t); auto; [rewrite asked_snoc, in_app_iff; auto|now apply opened_more]. }
  destruct a as [t o|t m|t d d'|t|t]; cbn [Cache.act] in E; pose proof (H3 t) as Ht; pose proof (H3' t) as Ht'; destruct (s_place s t) as [|m0|m0 l0|m0] eqn:Ep; try discriminate.
  - injection E as <- <-. split; [|intros ? ? ? []]. split; [|split; [exact H2'|exact H3']]. intros u. rewrite Hl. unfold settings_of in *. cbn [s_settings].
    destruct (Nat.eqb_spec t u) as [->|Hn]; [now rewrite dget_dset_eq|]. rewrite dget_dset_neq by congruence. apply H1.
  - injection E as <- <-. split; [|intros ? ? ? []]. split; [intros u; rewrite Hl; apply H1|]. split; [exact H2'|]. intros u. cbn [s_place]. unfold at_place.
    destruct (Nat.eqb_spec u t) as [->|Hn]; [|apply H3']. destruct (dmem _ _); [exact I|]. rewrite asked_snoc, in_app_iff. right. now left.
  - injection E as <- <-. split; [|intros ? ? ? []]. split; [intros u; rewrite Hl; apply H1|]. split; [exact H2'|]. intros u. cbn [s_place]. unfold at_place.
    destruct (Nat.eqb_spec u t) as [->|Hn]; [|apply H3']. destruct (open_loader _ _ _ _) as [x|] eqn:Eo; [|exact I]. rewrite H1 in Eo. apply open_setup in Eo.
    exists h, t, d, d', []. auto.
  - injection E as <- <-. split; [|intros ? ? ? []]. split; [intros u; rewrite Hl; apply H1|]. split.
    + intros m x. cbn [s_loaders]. destruct (eqb_spec m m0) as [->|Hn]; [rewrite dget_dset_eq; intros [= <-]; exact Ht'|rewrite dget_dset_neq by congruence; apply H2'].
    + intros u. cbn [s_place]. unfold at_place. destruct (Nat.eqb_spec u t); [exact I|apply H3'].
  - destruct (dget (s_loaders s) m0) as [l|] eqn:Em; [|discriminate]. injection E as <- <-. split.
    + split; [intros u; rewrite Hl; apply H1|]. split; [exact H2'|]. intros u. cbn [s_place]. unfold at_place. destruct (Nat.eqb_spec u t); [exact I|apply H3'].
    + intros ? ? ? [[= <- <- <-]|[]]. auto.
Qed.
Lemma acts_traced l : forall h s s' r, traced h s -> acts s l = Some (s', r) -> traced (h ++ l) s' /\ forall t m x, In (t, m, x) r -> opened_in (h ++ l) m x.
Proof.
  induction l as [|a l IH]; intros h s s' r Ht; cbn [Cache.acts].
  - intros [= <- <-]. rewrite app_nil_r. split; [exact Ht|intros ? ? ? []].
  - destruct (act s a) as [[s1 r1]|] eqn:E1; [|discriminate]. destruct (acts s1 l) as [[s2 r2]|] eqn:E2; [|discriminate]. intros [= <- <-].
    destruct (act_traced h s a s1 r1 Ht E1) as (T1 & R1). destruct (IH (h ++ [a]) s1 s2 r2 T1 E2) as (T2 & R2). rewrite <- app_assoc in T2, R2. cbn [app] in *.
    split; [exact T2|]. intros t m x Hi. apply in_app_or in Hi as [Hi|Hi]; [|eauto].
    destruct (R1 t m x Hi) as (h1 & t1 & d & d' & h2 & Eh & Ha & Ho). exists h1, t1, d, d', (h2 ++ l). split; [|auto].
    change (h ++ a :: l) with (h ++ [a] ++ l). rewrite app_assoc, Eh, <- app_assoc. reflexivity.
Qed.
Theorem C84_opened (s s' : state) l r : s_loaders s = [] -> s_settings s = [] -> quiet s -> acts s l = Some (s', r) ->
  forall m x, dget (s_loaders s') m = Some x \/ (exists t, In (t, m, x) r) ->
  exists h1 t d d' h2, l = h1 ++ Open t d d' :: h2 /\ In m (asked h1) /\ opened_on (last_options h1 t) d d' m x.
Proof.
  intros E1 E2 Hq Ea. destruct (acts_traced l [] s s' r) as ((_ & T & _) & R); [|exact Ea|].
  { split; [|split].
    - intros t. unfold settings_of. rewrite E2. reflexivity.
    - rewrite E1. discriminate.
    - intros t. now rewrite Hq. }
  intros m x [Hx|(t & Hx)]; [exact (T m x Hx)|exact (R t m x Hx)].
Qed.
(** However the threads of the process interleave afterwards, and whatever settings they have: as long as they ask for models with a loader no
    thread opens anything, and every call returns that loader. *)
Theorem C84_shared (s s' : state) l r : quiet s -> (forall m, In m (asked l) -> In m (dkeys (s_loaders s))) -> acts s l = Some (s', r) ->
  s_loaders s' = s_loaders s /\ existsb opens l = false /\ (forall t m x, In (t, m, x) r -> dget (s_loaders s) m = Some x).
Proof. intros Hq. apply acts_known. intros t. now rewrite Hq. Qed.
(** So in a process that makes one run, all loaders returned were opened under its options, whatever the thread. *)
Theorem C84_one_run (s s' s'' : state) o refs ds l r : s_loaders s = [] -> quiet s -> start_run s o refs ds = Ok s' ->
  (forall m, In m (asked l) -> In m refs) -> acts s' l = Some (s'', r) ->
  forall t m x, In (t, m, x) r -> opened_on o (fst (ds m)) (snd (ds m)) m x.
Proof.
  intros He Hq Hw Ha E t m x Hi. destruct (C84_warm_up s s' o refs ds Hw) as (_ & H1 & H2).
  assert (Hq' : quiet s').
  { intros u. destruct (warm_spec ds o refs _ s' (settings_main s (setup o) (s_place s)) Hw) as (_ & H3 & _). rewrite H3. cbn. apply Hq. }
  destruct (C84_shared s' s'' l r Hq') as (_ & _ & H3); [intros y Hy; apply H2; right; auto|exact E|]. specialize (H3 t m x Hi).
  assert (Hm : In m refs). { assert (In m (dkeys (s_loaders s'))) as Hk by (apply dget_Some_key; eauto). apply H2 in Hk as [Hk|Hk]; [rewrite He in Hk; destruct Hk|exact Hk]. }
  destruct (H1 m Hm) as (y & Hy & Ho); [now rewrite He|]. congruence.
Qed.
(** Several runs under the same options, as in mergekit-multi: all loaders were opened under them. *)
Theorem C84_more_runs (s s' s'' : state) o refs ds l r : quiet s -> (forall m x, dget (s_loaders s) m = Some x -> opened_under o m x) -> start_run s o refs ds = Ok s' ->
  (forall m, In m (asked l) -> In m refs) -> acts s' l = Some (s'', r) ->
  (forall m x, dget (s_loaders s'') m = Some x -> opened_under o m x) /\ (forall t m x, In (t, m, x) r -> opened_under o m x).
Proof.
  intros Hq Ho Hw Ha E. destruct (C84_warm_up s s' o refs ds Hw) as (H0 & H1 & H2).
  assert (Hq' : quiet s').
  { intros u. destruct (warm_spec ds o refs _ s' (settings_main s (setup o) (s_place s)) Hw) as (_ & H3 & _). rewrite H3. cbn. apply Hq. }
  destruct (C84_shared s' s'' l r Hq') as (Hl & _ & H3); [intros y Hy; apply H2; right; auto|exact E|].
  assert (Hall : forall m x, dget (s_loaders s') m = Some x -> opened_under o m x).
  { intros m x Hx. destruct (dget (s_loaders s) m) as [x0|] eqn:E0; [rewrite (H0 m x0 E0) in Hx; injection Hx as <-; now apply Ho|].
    assert (Hk : In m (dkeys (s_loaders s'))) by (apply dget_Some_key; eauto). apply H2 in Hk as [Hk|Hk]; [apply dget_Some_key in Hk as (z & Hz); congruence|].
    destruct (H1 m Hk E0) as (y & Hy & Hop). rewrite Hx in Hy. injection Hy as <-. exists (fst (ds m)), (snd (ds m)). exact Hop. }
  rewrite Hl. split; [exact Hall|]. eauto.
Qed.
End Threads.

Section Named.
Context {M : Type} `{Eqb M}.
Variable W : world M.

Definition in_slices (sls : list (output_slice M)) (m : M) : Prop := exists sl s, In sl sls /\ In s (os_sources sl) /\ is_model s = m.
Definition in_models (ims : list (input_model M)) (m : M) : Prop := exists im, In im ims /\ im_model im = m.
Lemma in_models_iff ims m : In m (map im_model ims) <-> in_models ims m.
Proof. rewrite in_map_iff. unfold in_models. split; intros (x & A & B); exists x; auto. Qed.
Lemma in_slices_iff sls m : In m (flat_map slice_models sls) <-> in_slices sls m.
Proof.
  rewrite in_flat_map. unfold in_slices, slice_models. split.
  - intros (sl & Hs & Hm). apply in_map_iff in Hm as (s & <- & Hs'). eauto 6.
  - intros (sl & s & Hs & Hs' & <-). exists sl. split; [exact Hs|]. now apply in_map.
Qed.
(** [referenced_models] are the models the configuration names, each once. *)
Theorem C84_referenced (c : merge_config M) : NoDup (referenced_models c) /\ forall m, In m (referenced_models c) <-> names_model c m.
Proof.
  split; [apply dedup_NoDup|]. intros m. unfold referenced_models, names_model. rewrite dedup_In, !in_app_iff, in_models_iff, in_slices_iff.
  assert (H1 : In m match mc_base c with Some b => [b] | None => [] end <-> mc_base c = Some m).
  { destruct (mc_base c) as [b|]; cbn; split; intros Hx; [destruct Hx as [->|[]]; reflexivity|injection Hx as ->; now left|destruct Hx|discriminate]. }
  rewrite H1. assert (H2 : In m (flat_map (fun kv : string * output_module M => module_models (snd kv)) (opt_list (mc_modules c))) <->
    exists nm d, In (nm, d) (opt_list (mc_modules c)) /\ (in_models (opt_list (om_models d)) m \/ in_slices (opt_list (om_slices d)) m)).
  { rewrite in_flat_map. split.
    - intros ([nm d] & Hi & Hm). exists nm, d. split; [exact Hi|]. cbn in Hm. unfold module_models in Hm. now rewrite in_app_iff, in_models_iff, in_slices_iff in Hm.
    - intros (nm & d & Hi & Hm). exists (nm, d). split; [exact Hi|]. cbn. unfold module_models. now rewrite in_app_iff, in_models_iff, in_slices_iff. }
  rewrite H2. reflexivity.
Qed.

Lemma norm_module_back base a d d' m : norm_module W base a d = Ok d' -> in_models (opt_list (om_models d')) m \/ in_slices (opt_list (om_slices d')) m ->
  base = Some m \/ in_models (opt_list (om_models d)) m \/ in_slices (opt_list (om_slices d)) m.
Proof.
  intros He Hm. destruct (om_models d) as [[|m0 ms]|] eqn:Ed.
  - unfold norm_module in He. rewrite Ed in He. injection He as <-. rewrite Ed in Hm. auto.
  - destruct (norm_module_sources W base a d d' (m0 :: ms) He Ed ltac:(discriminate)) as (srcs & extra & -> & HF & Hb). cbn in Hm.
    destruct Hm as [(im & [] & _)|(sl & s & [<-|[]] & Hs & <-)]. cbn in Hs. apply in_app_or in Hs as [Hs|Hs].
    + right. left. clear - HF Hs. cbn [opt_list]. induction HF as [|im s' ims srcs (E1 & _) _ IH]; [destruct Hs|]. destruct Hs as [->|Hs]; [exists im; split; [now left|now symmetry]|].
      destruct (IH Hs) as (x & Hx & Ex). exists x. split; [now right|exact Ex].
    + left. destruct base as [b|]; [|subst; destruct Hs]. destruct Hb as [(_ & ->)|(_ & x & -> & E1 & _)]; [destruct Hs|]. destruct Hs as [<-|[]]. now rewrite E1.
  - unfold norm_module in He. rewrite Ed in He. injection He as <-. rewrite Ed in Hm. auto.
Qed.
Lemma norm_module_forth base a d d' m : validate_module d = Ok tt -> norm_module W base a d = Ok d' ->
  in_models (opt_list (om_models d)) m \/ in_slices (opt_list (om_slices d)) m -> in_slices (opt_list (om_slices d')) m.
Proof.
  intros Hv He Hm. unfold validate_module in Hv. destruct (om_models d) as [[|m0 ms]|] eqn:Ed.
  - unfold norm_module in He. rewrite Ed in He. injection He as <-. destruct Hm as [(? & [] & _)|Hm]; exact Hm.
  - destruct (norm_module_sources W base a d d' (m0 :: ms) He Ed ltac:(discriminate)) as (srcs & extra & -> & HF & Hb).
    destruct Hm as [Hm|Hm].
    + cbn [opt_list] in *. destruct Hm as (im & Hi & <-). exists {| os_sources := srcs ++ extra; os_base := None; os_params := None |}. cbn.
      assert (Hx : exists s, In s srcs /\ is_model s = im_model im).
      { clear - HF Hi. induction HF as [|im' s' ims srcs (E1 & _) _ IH]; [destruct Hi|]. destruct Hi as [->|Hi]; [exists s'; split; [now left|exact E1]|].
        destruct (IH Hi) as (x & Hx & Ex). exists x. split; [now right|exact Ex]. }
      destruct Hx as (s & Hs & E). exists s. split; [now left|]. split; [apply in_or_app; now left|exact E].
    + exfalso. destruct (om_slices d) as [[|]|]; cbn in Hv, Hm; try discriminate; destruct Hm as (? & ? & [] & _).
  - unfold norm_module in He. rewrite Ed in He. injection He as <-. destruct Hm as [(? & [] & _)|Hm]; exact Hm.
Qed.
Lemma named_back c c' m : normalize_config W c = Ok c' -> names_model c' m -> names_model c m.
Proof.
  intros He Hn. destruct (normalize_models W c c' He) as (Hm & Hs & _). destruct (normalize_inv W c c' He) as (ms & ms' & Hms & Hmap & Ec). unfold names_model in *.
  assert (Eb : mc_base c' = mc_base c) by (rewrite Ec; reflexivity). assert (Em : mc_modules c' = Some ms') by (rewrite Ec; reflexivity). rewrite Eb, Em in Hn.
  destruct Hn as [Hn|[(im & Hi & _)|[(sl & s & Hi & _)|(nm & d & Hi & Hd)]]].
  - now left.
  - destruct (mc_models c') as [[|]|]; try discriminate; destruct Hi.
  - destruct (mc_slices c') as [[|]|]; try discriminate; destruct Hi.
  - cbn [opt_list] in Hi. destruct (rmapM_In_inv _ _ _ _ Hmap Hi) as ([nm0 d0] & Hi0 & E). cbn beta in E. cbn [fst snd] in E.
    destruct (dgetE (w_arch W) nm0) as [md|]; [|discriminate]. cbn [rbind] in E. destruct (norm_module W (mc_base c) (md_arch md) d0) as [d1|] eqn:E1; [|discriminate]. cbn [rbind] in E. injection E as -> ->.
    destruct (norm_module_back _ _ _ _ m E1 Hd) as [Hb|Hb]; [now left|right].
    destruct (truthy (mc_slices c)) eqn:Ts.
    + destruct Hms as (nm1 & md1 & _ & ->). destruct Hi0 as [[= <- <-]|[]]. cbn in Hb. destruct Hb as [(? & [] & _)|Hb]. right. left. exact Hb.
    + destruct (truthy (mc_models c)) eqn:Tm.
      * subst ms. apply in_map_iff in Hi0 as (nm1 & [= <- <-] & _). cbn in Hb. destruct Hb as [Hb|(? & ? & [] & _)]. left. exact Hb.
      * rewrite Hms. right. right. exists nm, d0. split; [exact Hi0|exact Hb].
Qed.
(** Normalising the configuration does not change the models it names. *)
Theorem C84_named_kept c c' m : w_arch W <> [] -> validate_config c = Ok tt -> (forall nm d, In (nm, d) (opt_list (mc_modules c)) -> validate_module d = Ok tt) ->
  normalize_config W c = Ok c' -> (names_model c' m <-> names_model c m).
Proof.
  intros Ha Hv Hvm He. split; [now apply named_back|]. intros Hn. destruct (normalize_inv W c c' He) as (ms & ms' & Hms & Hmap & Ec).
  unfold names_model. assert (Eb : mc_base c' = mc_base c) by (rewrite Ec; reflexivity). assert (Em : mc_modules c' = Some ms') by (rewrite Ec; reflexivity). rewrite Eb, Em.
  destruct Hn as [Hn|Hn]; [now left|]. do 3 right. cbn [opt_list]. apply rmapM_Ok_Forall2 in Hmap.
  assert (Hd : exists nm d, In (nm, d) ms /\ validate_module d = Ok tt /\ (in_models (opt_list (om_models d)) m \/ in_slices (opt_list (om_slices d)) m)).
  { unfold validate_config in Hv. destruct (truthy (mc_slices c)) eqn:Ts.
    - destruct Hms as (nm & md & _ & ->). exists nm. eexists. split; [now left|]. split; [unfold validate_module; cbn; now rewrite Ts|]. cbn. right.
      destruct (truthy (mc_modules c)) eqn:To, (truthy (mc_models c)) eqn:Tm; try discriminate Hv.
      destruct Hn as [(im & Hi & _)|[Hn|(? & ? & Hi & _)]]; [destruct (mc_models c) as [[|]|]; try discriminate; destruct Hi|exact Hn|destruct (mc_modules c) as [[|]|]; try discriminate; destruct Hi].
    - assert (Hns : ~ exists sl s, In sl (opt_list (mc_slices c)) /\ In s (os_sources sl) /\ is_model s = m) by (intros (? & ? & Hi & _); destruct (mc_slices c) as [[|]|]; try discriminate; destruct Hi).
      destruct (truthy (mc_models c)) eqn:Tm.
      + destruct (w_arch W) as [|[nm md] arch] eqn:Ea; [congruence|]. exists nm. eexists. split; [rewrite Hms, dkeys_cons; now left|]. split; [unfold validate_module; cbn; now rewrite Tm|]. cbn. left.
        destruct (truthy (mc_modules c)) eqn:To; try discriminate Hv.
        destruct Hn as [Hn|[Hn|(? & ? & Hi & _)]]; [exact Hn|contradiction|destruct (mc_modules c) as [[|]|]; try discriminate; destruct Hi].
      + destruct Hn as [(im & Hi & _)|[Hn|(nm & d & Hi & Hd)]]; [destruct (mc_models c) as [[|]|]; try discriminate; destruct Hi|contradiction|].
        exists nm, d. split; [rewrite Hms in Hi; exact Hi|]. split; [now apply (Hvm nm d)|exact Hd]. }
  destruct Hd as (nm & d & Hi & Hvd & Hd). clear - Hmap Hi Hvd Hd. induction Hmap as [|kv kv' ms ms' E _ IH]; [destruct Hi|]. destruct Hi as [->|Hi].
  - cbn beta in E. cbn [fst snd] in E. destruct (dgetE (w_arch W) nm) as [md|]; [|discriminate]. cbn [rbind] in E.
    destruct (norm_module W (mc_base c) (md_arch md) d) as [d1|] eqn:E1; [|discriminate]. cbn [rbind] in E. injection E as <-. exists nm, d1. split; [now left|]. right. eapply norm_module_forth; eauto.
  - destruct (IH Hi) as (nm' & d' & Hi' & Hd'). exists nm', d'. split; [now right|exact Hd'].
Qed.

(** the models a planned task gathers from *)
Definition from (S : M -> Prop) (wt : weight_info * merge_task M) : Prop := forall m, In m (dkeys (mt_gather (snd wt))) -> S m.
Lemma dict_of_keys {V} (l : list (M * V)) m : In m (dkeys (dict_of l)) -> In m (map fst l).
Proof. intros Hm. unfold dkeys in Hm. apply in_map_iff in Hm as (kv & <- & Hk). apply dict_of_In in Hk. now apply in_map. Qed.
Lemma combine_fst {A B} (l : list A) (l' : list B) x : In x (map fst (combine l l')) -> In x l.
Proof. intros Hx. apply in_map_iff in Hx as ([a b] & <- & Hx). now apply in_combine_l in Hx. Qed.
Lemma concat_from {A} S (f : A -> result (list (weight_info * merge_task M))) l ts :
  (forall x t, In x l -> f x = Ok t -> Forall (from S) t) -> rmapM f l = Ok ts -> Forall (from S) (concat ts).
Proof.
  intros Hf Hr. apply Forall_concat, Forall_forall. intros t Ht. destruct (rmapM_In_inv _ _ _ _ Hr Ht) as (x & Hx & E). eauto.
Qed.
Lemma plan_tensor_from w ins models r o (S : M -> Prop) : (forall m, In m models -> S m) -> plan_tensor W w ins models r = Ok o -> Forall (from S) (appended w o).
Proof.
  intros HS. unfold plan_tensor. destruct (if wi_optional w then _ else _) as [p|]; cbn [rbind]; [|discriminate].
  destruct (negb p); [intros [= <-]; constructor|].
  destruct (read_params _ _ _ _) as [gp|]; cbn [rbind]; [|discriminate].
  destruct (rmapM _ _) as [tp|]; cbn [rbind]; [|discriminate].
  intros [= <-]. constructor; [|constructor]. intros m. cbn. intros Hm. apply HS. apply dict_of_keys in Hm. now apply combine_fst in Hm.
Qed.
Lemma plan_layer_from out_cfg mdef srcs off t r k ts (S : M -> Prop) : (forall s, In s srcs -> S (is_model s)) -> plan_layer W out_cfg mdef srcs off t r k = Ok ts -> Forall (from S) ts.
Proof.
  intros HS. unfold plan_layer. destruct (c_layer _ _ _) as [wo|]; cbn [rbind]; [|discriminate].
  destruct (rmapM _ srcs) as [wi|]; cbn [rbind]; [|discriminate].
  destruct (rmapM _ (enum wo)) as [l|] eqn:E; cbn [rbind]; [|discriminate]. intros [= <-].
  eapply concat_from; [|exact E]. intros [i w] x _. cbv beta. destruct (rmapM _ wi) as [ins|]; cbn [rbind]; [|discriminate].
  destruct (plan_tensor _ _ _ _ _) as [o|] eqn:Ep; cbn [rbind]; [|discriminate]. intros [= <-]. eapply plan_tensor_from; [|exact Ep].
  intros m Hm. apply in_map_iff in Hm as (s & <- & Hs). auto.
Qed.
Lemma plan_layers_from out_cfg mdef sl r num (S : M -> Prop) : (forall s, In s (os_sources sl) -> S (is_model s)) ->
  forall idxs cur p, plan_layers W out_cfg mdef sl r num idxs cur = Ok p -> Forall (from S) (fst p).
Proof.
  intros HS. induction idxs as [|i idxs IH]; cbn; intros cur p; [intros [= <-]; constructor|].
  destruct (plan_layer _ _ _ _ _ _ _ _) as [a|] eqn:Ea; cbn [rbind]; [|discriminate].
  destruct (plan_layers _ _ _ _ _ _ _ _) as [b|] eqn:Eb; cbn [rbind]; [|discriminate]. intros [= <-]. cbn.
  apply Forall_app. split; [eapply plan_layer_from; eauto|eauto].
Qed.
Lemma plan_slices_from c out_cfg mdef def (S : M -> Prop) : forall sls cur p, (forall m, in_slices sls m -> S m) ->
  plan_slices W c out_cfg mdef def sls cur = Ok p -> Forall (from S) (fst p).
Proof.
  induction sls as [|sl sls IH]; cbn; intros cur p HS; [intros [= <-]; constructor|].
  destruct (plan_slice _ _ _ _ _ _ _) as [a|] eqn:Ea; cbn [rbind]; [|discriminate].
  destruct (plan_slices _ _ _ _ _ _ _) as [b|] eqn:Eb; cbn [rbind]; [|discriminate]. intros [= <-]. cbn.
  apply Forall_app. split.
  - unfold plan_slice in Ea. destruct (map slice_len (os_sources sl)); [discriminate|].
    destruct (forallb _ _); [|discriminate]. eapply plan_layers_from; [|exact Ea]. intros s Hs. apply HS. exists sl, s. split; [now left|auto].
  - eapply IH; [|exact Eb]. intros m (sl' & s & Hsl & Hs & <-). apply HS. exists sl', s. split; [now right|auto].
Qed.
Lemma plan_outer_from c def n sl ws ts (S : M -> Prop) : (forall s, In s (os_sources sl) -> S (is_model s)) -> plan_outer W c def n sl ws = Ok ts -> Forall (from S) ts.
Proof.
  intros HS. unfold plan_outer. destruct (rmapM _ _) as [l|] eqn:E; cbn [rbind]; [|discriminate]. intros [= <-].
  eapply concat_from; [|exact E]. intros w x _. cbv beta.
  destruct (plan_tensor _ _ _ _ _) as [o|] eqn:Ep; cbn [rbind]; [|discriminate]. intros [= <-]. eapply plan_tensor_from; [|exact Ep].
  intros m Hm. apply in_map_iff in Hm as (s & <- & Hs). auto.
Qed.
Lemma plan_module_from c out_cfg name def p (S : M -> Prop) : (forall m, in_slices (opt_list (om_slices def)) m -> S m) ->
  plan_module W c out_cfg name def = Ok p -> Forall (from S) (fst p).
Proof.
  intros HS. unfold plan_module. destruct (dgetE _ _) as [mdef|]; cbn [rbind]; [|discriminate].
  destruct (c_pre _ _) as [pre|]; cbn [rbind]; [|discriminate]. set (sls := opt_list (om_slices def)) in *.
  match goal with |- (let! _ := ?a in _) = _ -> _ => destruct a as [fst'|] eqn:Ef; cbn [rbind]; [|discriminate] end.
  assert (Hf : forall s, fst' = Some s -> exists rest, sls = s :: rest) by (intros s ->; destruct sls as [|s0 rest]; [destruct pre; discriminate|injection Ef as ->; eauto]).
  match goal with |- (let! _ := ?a in _) = _ -> _ => destruct a as [a'|] eqn:Ea; cbn [rbind]; [|discriminate] end.
  destruct (plan_slices _ _ _ _ _ _ _) as [b|] eqn:Eb; cbn [rbind]; [|discriminate].
  destruct (c_post _ _) as [post|]; cbn [rbind]; [|discriminate].
  match goal with |- (let! _ := ?a in _) = _ -> _ => destruct a as [d'|] eqn:Ed; cbn [rbind]; [|discriminate] end.
  intros [= <-]. cbn. rewrite !Forall_app. split; [|split].
  - destruct fst' as [s0|]; [|injection Ea as <-; constructor]. destruct (Hf s0 eq_refl) as (rest & Es). eapply plan_outer_from; [|exact Ea]. intros s Hs. apply HS. exists s0, s. rewrite Es. split; [now left|auto].
  - eapply plan_slices_from; eauto.
  - destruct fst' as [s0|]; [|destruct post; [injection Ed as <-; constructor|discriminate]]. destruct (Hf s0 eq_refl) as (rest & Es).
    eapply plan_outer_from; [|exact Ed]. intros s Hs. apply HS. exists (last sls s0), s. split; [|auto]. rewrite Es. apply last_In.
Qed.
Lemma plan_from c0 out_cfg ts : plan W c0 out_cfg = Ok ts -> Forall (from (names_model c0)) ts.
Proof.
  unfold plan. destruct (normalize_config W c0) as [c|] eqn:En; cbn [rbind]; [|discriminate].
  destruct (rmapM _ _) as [l|] eqn:E; cbn [rbind]; [|discriminate]. intros [= <-].
  eapply concat_from; [|exact E]. intros [nm d] x Hx. cbv beta.
  destruct (plan_module _ _ _ _ _) as [p|] eqn:Ep; cbn [rbind]; [|discriminate]. intros [= <-]. eapply plan_module_from; [|exact Ep].
  intros m Hm. apply (named_back c0 c m En). do 3 right. exists nm, d. split; [exact Hx|now right].
Qed.

Context {T K : Type}.
Variable E : env M T K.
Lemma needs_inv {L} (t u : task L) : needs (fun _ => False) t u -> u = t \/ exists k a, In (k, a) (targs t) /\ needs (fun _ => False) a u.
Proof. intros Hn. inversion Hn; subst; [now left|right; eauto]. Qed.
Lemma gather_reads g dtype m : reads (gather_task E g dtype) m -> In m (dkeys g).
Proof.
  intros (u & n & dt & op & al & ti & Hn & Hl). apply needs_inv in Hn as [->|(k & a & Hi & Hn)]; [discriminate Hl|]. cbn in Hi. apply dict_of_In in Hi.
  apply in_map_iff in Hi as (mw & [= <- <-] & Hmw). apply needs_inv in Hn as [->|(? & ? & [] & _)]. cbn in Hl. injection Hl as <- _ _ _ _ _. unfold dkeys. now apply in_map.
Qed.
Lemma merge_reads t m : reads (merge_node E t) m -> In m (dkeys (mt_gather t)).
Proof.
  intros (u & n & dt & op & al & ti & Hn & Hl). apply needs_inv in Hn as [->|(k & a & Hi & Hn)]; [discriminate Hl|]. cbn in Hi. destruct Hi as [[= <- <-]|[]].
  unfold input_task in Hn. destruct (mt_permuted t).
  - apply needs_inv in Hn as [->|(k & a & Hi & Hn)]; [discriminate Hl|]. cbn in Hi. destruct Hi as [[= <- <-]|[[= <- <-]|[]]].
    + apply needs_inv in Hn as [->|(? & ? & [] & _)]. discriminate Hl.
    + apply (gather_reads (mt_gather t) (mt_dtype t)). exists u, n, dt, op, al, ti. auto.
  - apply (gather_reads (mt_gather t) (mt_dtype t)). exists u, n, dt, op, al, ti. auto.
Qed.
Lemma save_reads s m : reads (save_node E s) m -> In m (dkeys (mt_gather (sv_task s))).
Proof.
  intros (u & n & dt & op & al & ti & Hn & Hl). apply needs_inv in Hn as [->|(k & a & Hi & Hn)]; [discriminate Hl|]. cbn in Hi. destruct Hi as [[= <- <-]|[[= <- <-]|[]]].
  - apply needs_inv in Hn as [->|(? & ? & [] & _)]. discriminate Hl.
  - apply merge_reads. exists u, n, dt, op, al, ti. auto.
Qed.
(** Every tensor a run loads, to write to disk or to return, is one of a model the configuration names. *)
Theorem C84_models_read c0 out_cfg saves t m : plan_to_disk W c0 out_cfg = Ok saves -> In t (disk_targets E (w_tokenizer W) saves) \/ In t (memory_targets E saves) ->
  reads t m -> In m (referenced_models c0).
Proof.
  intros Hp Ht Hr. apply (proj2 (C84_referenced c0)).
  assert (Hs : forall s, In s saves -> forall x, In x (dkeys (mt_gather (sv_task s))) -> names_model c0 x).
  { unfold plan_to_disk in Hp. destruct (plan W c0 out_cfg) as [ts|] eqn:Ep; cbn [rbind] in Hp; [|discriminate]. injection Hp as <-. intros s Hs x Hx.
    apply in_map_iff in Hs as (wt & <- & Hw). apply plan_from in Ep. rewrite Forall_forall in Ep. exact (Ep wt Hw x Hx). }
  destruct Ht as [Ht|Ht].
  - unfold disk_targets in Ht. apply in_app_or in Ht as [Ht|Ht].
    + apply in_map_iff in Ht as (s & <- & Hi). eapply Hs; [exact Hi|]. now apply save_reads.
    + apply in_app_or in Ht as [[<-|[]]|Ht].
      * destruct Hr as (u & n & dt & op & al & ti & Hn & Hl). apply needs_inv in Hn as [->|(k & a & Hi & Hn)]; [discriminate Hl|]. cbn in Hi. destruct Hi as [[= <- <-]|Hi].
        -- apply needs_inv in Hn as [->|(? & ? & [] & _)]. discriminate Hl.
        -- apply in_map_iff in Hi as ([i x] & [= <- <-] & Hi). cbn [snd] in *. unfold enumerate_from in Hi. 
           assert (Hx : In x (map (save_node E) saves)) by (clear - Hi; revert Hi; generalize 0%nat; induction (map (save_node E) saves) as [|y l IH]; intros k; cbn; [tauto|]; intros [[= _ ->]|Hi]; [now left|right; eauto]).
           apply in_map_iff in Hx as (s & <- & Hsv). eapply Hs; [exact Hsv|]. apply save_reads. exists u, n, dt, op, al, ti. auto.
      * destruct (w_tokenizer W); [|destruct Ht]. destruct Ht as [<-|[]]. destruct Hr as (u & n & dt & op & al & ti & Hn & Hl). apply needs_inv in Hn as [->|(? & ? & [] & _)]. discriminate Hl.
  - apply in_map_iff in Ht as (s & <- & Hi). eapply Hs; [exact Hi|]. destruct Hr as (u & n & dt & op & al & ti & Hn & Hl). apply needs_inv in Hn as [->|(k & a & Hia & Hn)]; [discriminate Hl|].
    cbn in Hia. destruct Hia as [[= <- <-]|[]]. apply merge_reads. exists u, n, dt, op, al, ti. auto.
Qed.
End Named.

(** A whole run in a fresh process: whatever order [referenced_models] iterates in, however the threads interleave, and whether the targets
    are written or returned, every loader a task gets was opened under the options of the run. *)
Theorem C84_whole {M : Type} `{Eqb M} {L D T K : Type} merged lazy_loader (W : world M) (E : env M T K) (s s' s'' : state M L) o refs (ds : M -> D * D) c0 out_cfg saves l r :
  s_loaders s = [] -> quiet s -> Permutation refs (referenced_models c0) -> start_run merged lazy_loader s o refs ds = Ok s' ->
  plan_to_disk W c0 out_cfg = Ok saves ->
  (forall m, In m (asked l) -> exists t, (In t (disk_targets E (w_tokenizer W) saves) \/ In t (memory_targets E saves)) /\ reads t m) ->
  acts merged lazy_loader s' l = Some (s'', r) ->
  s_loaders s'' = s_loaders s' /\ existsb opens l = false /\
  forall t m x, In (t, m, x) r -> opened_on merged lazy_loader o (fst (ds m)) (snd (ds m)) m x.
Proof.
  intros He Hq HP Hw Hp Ha Er.
  assert (Ha' : forall m, In m (asked l) -> In m refs).
  { intros m Hm. destruct (Ha m Hm) as (t & Ht & Hr). apply (Permutation_in _ (Permutation_sym HP)). eapply C84_models_read; eauto. }
  assert (Hq' : quiet s').
  { intros u. destruct (warm_spec merged lazy_loader ds o refs _ s' (settings_main s (setup o) (s_place s)) Hw) as (_ & H3 & _). rewrite H3. cbn. apply Hq. }
  destruct (C84_warm_up merged lazy_loader s s' o refs ds Hw) as (_ & _ & Hk).
  destruct (C84_shared merged lazy_loader s' s'' l r Hq') as (H1 & H2 & _); [intros m Hm; apply Hk; right; auto|exact Er|].
  split; [exact H1|]. split; [exact H2|]. eapply C84_one_run; eauto.
Qed.

(** ** findings *)
(** a process in which nothing has happened yet *)
Definition fresh {M L : Type} : state M L := {| s_loaders := []; s_settings := []; s_place := fun _ => Idle |}.
(** loaders that remember what they were opened with: the disk, the model, and lazy unpickling *)
Definition plain_merged (d : nat) (m : nat) (c : option string) (trust : bool) (dt : option string) : result nat := Ok m.
Definition plain_loader (d : nat) (m : nat) (c : option string) (lazy : bool) : result (nat * nat * bool) := Ok (d, m, lazy).
Definition opts (lazy trust : bool) : options :=
  {| o_lora_merge_cache := None; o_transformers_cache := None; o_lazy_unpickle := lazy; o_trust_remote_code := trust; o_lora_merge_dtype := None |}.

(** A second run in the same process under other options keeps the loaders of the first. *)
Theorem C84_later_options_refuted : exists s1 s2, start_run plain_merged plain_loader fresh (opts false false) [5] (fun _ => (0, 0)) = Ok s1 /\
  start_run plain_merged plain_loader s1 (opts true false) [5] (fun _ => (0, 0)) = Ok s2 /\ quiet s2 /\
  exists x, dget (s_loaders s2) 5 = Some x /\ ~ opened_under plain_merged plain_loader (opts true false) 5 x.
Proof.
  eexists. eexists. split; [reflexivity|]. split; [reflexivity|]. split; [intros t; reflexivity|]. eexists. split; [reflexivity|].
  intros (d & d' & m & E1 & E2). discriminate E2.
Qed.
(** If the model has changed on the disk meanwhile, it still reads from the loader opened on the old one. *)
Theorem C84_stale_refuted : exists s1 s2, start_run plain_merged plain_loader fresh (opts false false) [5] (fun _ => (0, 0)) = Ok s1 /\
  start_run plain_merged plain_loader s1 (opts false false) [5] (fun _ => (1, 1)) = Ok s2 /\
  exists x, dget (s_loaders s2) 5 = Some x /\ ~ opened_on plain_merged plain_loader (opts false false) 1 1 5 x.
Proof.
  eexists. eexists. split; [reflexivity|]. split; [reflexivity|]. eexists. split; [reflexivity|]. intros (m & E1 & E2). discriminate E2.
Qed.
(** [_load_converted_tensor] (tasks.py 94-99) reads [trust_remote_code] from the instance of its thread: in the worker threads of multi-GPU runs it is
    false whatever the options say. *)
Theorem C84_worker_trust_refuted {M L D : Type} `{Eqb M} merged lazy_loader (s' : state M L) o refs (ds : M -> D * D) t :
  start_run merged lazy_loader fresh o refs ds = Ok s' -> t <> 0 -> st_trust (settings_of s' t) = false.
Proof.
  intros Hw Ht. destruct (warm_spec merged lazy_loader ds o refs _ s' (settings_main fresh (setup o) (fun _ => Idle)) Hw) as (H1 & _). unfold settings_of. rewrite H1. cbn.
  destruct t; [congruence|reflexivity].
Qed.
(** Without the warm-up a worker thread would open models under the default settings. *)
Theorem C84_cold_refuted : exists s' x, acts plain_merged plain_loader fresh [Setup 0 (opts true false); Enter 1 5; Open 1 0 0; Store 1; Enter 0 5; Return 0] =
    Some (s', [(0, 5, x)]) /\ ~ opened_under plain_merged plain_loader (opts true false) 5 x.
Proof. eexists. eexists. split; [reflexivity|]. intros (d & d' & m & E1 & E2). discriminate E2. Qed.

(** ** a case: two models, two threads asking for both at the same time *)
Example C84_nonvacuous : exists s', start_run plain_merged plain_loader fresh (opts true true) [5; 7] (fun m => (m, S m)) = Ok s' /\
  exists s'', acts plain_merged plain_loader s' [Enter 1 5; Enter 2 5; Return 2; Enter 2 7; Return 1; Return 2] = Some (s'', [(2, 5, (6, 5, true)); (1, 5, (6, 5, true)); (2, 7, (8, 7, true))]) /\
  opened_on plain_merged plain_loader (opts true true) 7 8 7 (8, 7, true).
Proof. eexists. split; [reflexivity|]. eexists. split; [reflexivity|]. exists 7. split; reflexivity. Qed.
(** the run of C63: models 1 and 2, loaded by two threads *)
Example C84_whole_nonvacuous : exists saves s', plan_to_disk Run.Props.ex_world Run.Props.ex_cfg Plan.Props.ex_out = Ok saves /\
  Permutation [2; 1] (referenced_models Run.Props.ex_cfg) /\ start_run plain_merged plain_loader fresh (opts true true) [2; 1] (fun _ => (0, 0)) = Ok s' /\
  let l := [Enter 1 2; Enter 2 1; Return 2; Return 1] in
  (forall m, In m (asked (D := nat) l) -> exists t, (In t (disk_targets Run.Props.Ex (w_tokenizer Run.Props.ex_world) saves) \/ In t (memory_targets Run.Props.Ex saves)) /\ reads t m) /\
  exists s'', acts plain_merged plain_loader s' l = Some (s'', [(2, 1, (0, 1, true)); (1, 2, (0, 2, true))]).
Proof.
  exists Run.Props.the_saves. eexists. split; [exact Run.Props.ex_planned|]. split; [vm_compute; apply perm_swap|]. split; [reflexivity|]. cbv zeta. split; [|eexists; reflexivity].
  assert (Hn : exists s rest, Run.Props.the_saves = s :: rest /\ mt_permuted (sv_task s) = false /\ exists w1 w2, mt_gather (sv_task s) = [(1, w1); (2, w2)]) by (do 2 eexists; split; [vm_compute; reflexivity|]; split; [reflexivity|]; do 2 eexists; reflexivity).
  destruct Hn as (s & rest & -> & Hp & w1 & w2 & Hg). intros m Hm. exists (save_node Run.Props.Ex s). split; [left; now left|].
  assert (Hx : exists w, In (arg_key Run.Props.Ex (m, w), load_task (mt_dtype (sv_task s)) (m, w)) (targs (gather_task Run.Props.Ex (mt_gather (sv_task s)) (mt_dtype (sv_task s))))).
  { unfold asked in Hm. cbn in Hm. rewrite Hg. destruct Hm as [<-|[<-|[]]]; [exists w2; right|exists w1]; left; reflexivity. }
  destruct Hx as (w & Hx). eexists (load_task (mt_dtype (sv_task s)) (m, w)). do 5 eexists. split; [|reflexivity].
  eapply needs_arg; [tauto|right; left; reflexivity|]. eapply needs_arg; [tauto|left; reflexivity|]. unfold input_task. rewrite Hp. eapply needs_arg; [tauto|exact Hx|]. apply needs_self. tauto.
Qed.
Print Assumptions C84_get_alone.
Print Assumptions C84_warm_up.
Print Assumptions C84_warm_up_succeeds.
Print Assumptions C84_opened.
Print Assumptions C84_shared.
Print Assumptions C84_one_run.
Print Assumptions C84_more_runs.
Print Assumptions C84_referenced.
Print Assumptions C84_named_kept.
Print Assumptions C84_models_read.
Print Assumptions C84_whole.
Print Assumptions C84_later_options_refuted.
Print Assumptions C84_stale_refuted.
Print Assumptions C84_worker_trust_refuted.
Print Assumptions C84_cold_refuted.
