(** Invariant of the buffered evaluation strategy. *)
From Coq Require Import Permutation.
From Verif.Base Require Import Py PyFacts.
From Verif.Evo Require Import Strategy.
Local Open Scope list_scope.

Section Proofs.
Context {G P R : Type}.
Variables (merges : G -> merge_outcome P -> Prop) (evals : P -> eval_outcome R -> Prop) (n : nat).
Implicit Types (s : state G P R) (ts : list (@task G P R)).
Notation stepn := (step merges evals n).

Definition merge_task ts (r : nat) (x : G) : Prop := exists o, nth_error ts r = Some (TMerge x o).
Definition merge_done ts (r : nat) (x : G) : Prop := exists o, nth_error ts r = Some (TMerge x (Some o)).
Definition eval_task ts (r : nat) (x : G) : Prop := exists m o, nth_error ts r = Some (TEval m o) /\ merge_done ts m x.
Definition good_task ts (t : @task G P R) : Prop :=
  match t with
  | TMerge x (Some o) => merges x o
  | TEval m (Some o) => exists x om, nth_error ts m = Some (TMerge x (Some om)) /\
      match om with Merged p => evals p o | _ => o = EvalFailed end
  | _ => True
  end.
Definition good_outcomes ts : Prop := forall r t, nth_error ts r = Some t -> good_task ts t.
(** [ts'] has the tasks of [ts], further ahead, and maybe more *)
Definition later ts ts' : Prop :=
  (forall r x, merge_task ts r x -> merge_task ts' r x) /\ (forall r x o, nth_error ts r = Some (TMerge x (Some o)) -> nth_error ts' r = Some (TMerge x (Some o))) /\
  (forall r m o, nth_error ts r = Some (TEval m o) -> exists o', nth_error ts' r = Some (TEval m o')).

Lemma later_refl ts : later ts ts.
Proof. repeat split; eauto. Qed.
Lemma later_trans a b c : later a b -> later b c -> later a c.
Proof.
  intros (H1 & H2 & H3) (K1 & K2 & K3). repeat split; auto. intros r m o Hr. destruct (H3 _ _ _ Hr) as (o' & Ho'). eauto.
Qed.
Lemma later_app ts l : later ts (ts ++ l).
Proof.
  assert (H : forall r t, nth_error ts r = Some t -> nth_error (ts ++ l) r = Some t).
  { intros r t Hr. rewrite nth_error_app1; auto. apply nth_error_Some. congruence. }
  repeat split; eauto. intros r x (o & Ho). exists o. auto.
Qed.
Lemma later_done ts ts' r x : later ts ts' -> merge_done ts r x -> merge_done ts' r x.
Proof. intros (_ & H & _) (o & Ho). exists o. auto. Qed.
Lemma later_eval ts ts' r x : later ts ts' -> eval_task ts r x -> eval_task ts' r x.
Proof. intros HL (m & o & Hr & Hm). destruct (proj2 (proj2 HL) _ _ _ Hr) as (o' & Ho'). exists m, o'. split; auto. eapply later_done; eauto. Qed.
Lemma later_finish ts a t t' b : ts = a ++ t :: b -> ends merges evals ts t t' -> later ts (a ++ t' :: b).
Proof.
  intros -> He.
  assert (H : forall r u, nth_error (a ++ t :: b) r = Some u -> (u = t /\ nth_error (a ++ t' :: b) r = Some t') \/ nth_error (a ++ t' :: b) r = Some u).
  { intros r u Hr. destruct (Nat.lt_trichotomy r (List.length a)) as [Hlt|[->|Hgt]].
    - right. rewrite nth_error_app1 in * by auto. auto.
    - left. rewrite nth_error_app2 in * by auto. rewrite Nat.sub_diag in *. cbn in *. split; congruence.
    - right. rewrite nth_error_app2 in * by lia. destruct (r - List.length a)%nat eqn:Er; [lia|]. auto. }
  repeat split.
  - intros r x (o & Hr). destruct (H _ _ Hr) as [[Et Hr']|Hr']; [rewrite <- Et in He; inversion He; subst|]; eexists; eauto.
  - intros r x o Hr. destruct (H _ _ Hr) as [[Et Hr']|Hr']; [rewrite <- Et in He; inversion He|auto].
  - intros r m o Hr. destruct (H _ _ Hr) as [[Et Hr']|Hr']; [rewrite <- Et in He; inversion He; subst; eauto|eauto].
Qed.
Lemma good_later ts ts' : later ts ts' -> good_outcomes ts ->
  (forall r t, nth_error ts' r = Some t -> nth_error ts r = Some t \/ good_task ts t) -> good_outcomes ts'.
Proof.
  intros HL Hg Hn r t Hr. assert (Ht : good_task ts t) by (destruct (Hn r t Hr) as [Hr'|Ht]; [exact (Hg r t Hr')|exact Ht]).
  destruct t as [|m [o|]]; auto. destruct Ht as (x & om & Hm & Hv). exists x, om. split; auto. now apply HL.
Qed.

(** every request is in exactly one place *)
Definition places s : list nat :=
  map snd (st_queue s) ++ map snd (st_merging s) ++ map fst (st_merged s) ++ map snd (st_evaluating s) ++ map fst (st_answers s).
Record inv s : Prop := {
  i_queue : forall x f, In (x, f) (st_queue s) -> In (x, f) (st_submitted s);
  i_merging : forall r f, In (r, f) (st_merging s) -> exists x, In (x, f) (st_submitted s) /\ merge_task (st_tasks s) r x;
  i_merged : forall f r, In (f, r) (st_merged s) -> exists x, In (x, f) (st_submitted s) /\ merge_done (st_tasks s) r x;
  i_eval : forall r f, In (r, f) (st_evaluating s) -> exists x, In (x, f) (st_submitted s) /\ eval_task (st_tasks s) r x;
  i_answers : forall f v, In (f, v) (st_answers s) ->
    exists x p, In (x, f) (st_submitted s) /\ merges x (Merged p) /\ evals p (Scored v);
  i_good : good_outcomes (st_tasks s);
  i_keys_m : NoDup (map fst (st_merging s));
  i_keys_e : NoDup (map fst (st_evaluating s));
  i_sub : NoDup (map snd (st_submitted s));
  i_places : exists lost, Permutation (places s ++ lost) (map snd (st_submitted s)) /\ (st_alive s = true -> lost = []);
  i_merges : (List.length (st_merging s) + List.length (st_merged s) <= n)%nat;
  i_evals : (List.length (st_evaluating s) <= n)%nat }.

Lemma merge_task_lt ts r x : merge_task ts r x -> (r < List.length ts)%nat.
Proof. intros (o & H). apply nth_error_Some. congruence. Qed.
Lemma eval_task_lt ts r x : eval_task ts r x -> (r < List.length ts)%nat.
Proof. intros (m & o & H & _). apply nth_error_Some. congruence. Qed.

Lemma count_rev (l : list nat) x : count_occ Nat.eq_dec (rev l) x = count_occ Nat.eq_dec l x.
Proof. apply Permutation_count_occ. symmetry. apply Permutation_rev. Qed.
Ltac count := apply (Permutation_count_occ Nat.eq_dec); intros ?x; rewrite ?count_occ_app, ?count_rev, ?count_occ_app; cbn [count_occ]; repeat match goal with |- context[Nat.eq_dec ?a ?b] => destruct (Nat.eq_dec a b) end; lia.
Lemma NoDup_snoc {A} (l : list A) a : NoDup l -> ~ In a l -> NoDup (l ++ [a]).
Proof. intros Hl Ha. apply NoDup_rev in Hl. rewrite <- (rev_involutive (l ++ [a])), rev_app_distr. apply NoDup_rev. constructor; [now rewrite <- in_rev|auto]. Qed.

(** starting merges *)
Lemma start_merges_spec queue merging held ts queue' merging' ts' :
  start_merges n queue merging held ts = (queue', merging', ts') ->
  exists started, queue = started ++ queue' /\
    ts' = ts ++ map (fun q => TMerge (fst q) None) started /\
    merging' = merging ++ map (fun iq => ((List.length ts + fst iq)%nat, snd (snd iq))) (combine (seq 0 (List.length started)) started) /\
    (List.length merging + held <= n -> List.length merging' + held <= n)%nat /\
    (queue' = [] \/ n <= List.length merging' + held)%nat.
Proof.
  revert merging ts. induction queue as [|[x f] queue IH]; intros merging ts H; cbn [start_merges] in H.
  - injection H as <- <- <-. exists []. rewrite !app_nil_r. auto 6.
  - destruct (Nat.ltb_spec (List.length merging + held) n) as [Hlt|Hge].
    + destruct (IH _ _ H) as (st & -> & -> & -> & Hb & He). exists ((x, f) :: st). split; [reflexivity|].
      split; [cbn; now rewrite <- app_assoc|]. split; [|split; [intros; apply Hb; rewrite app_length; cbn; lia|exact He]].
      cbn [List.length seq combine map fst snd]. rewrite <- app_assoc. cbn [app]. rewrite Nat.add_0_r. do 2 f_equal.
      rewrite <- seq_shift. rewrite app_length. cbn [List.length]. generalize (seq 0 (List.length st)). intros l. clear.
      revert l. induction st as [|q st IH]; intros [|k l]; cbn; auto. rewrite IH. do 2 f_equal. lia.
    + injection H as <- <- <-. exists []. rewrite !app_nil_r. split; [reflexivity|]. auto.
Qed.
Lemma start_evals_spec merged evaluating ts merged' evaluating' ts' :
  start_evals n merged evaluating ts = (merged', evaluating', ts') ->
  exists started, merged = started ++ merged' /\
    ts' = ts ++ map (fun q => TEval (snd q) None) started /\
    evaluating' = evaluating ++ map (fun iq => ((List.length ts + fst iq)%nat, fst (snd iq))) (combine (seq 0 (List.length started)) started) /\
    (List.length evaluating <= n -> List.length evaluating' <= n)%nat /\
    (merged' = [] \/ n <= List.length evaluating')%nat.
Proof.
  revert evaluating ts. induction merged as [|[x f] merged IH]; intros evaluating ts H; cbn [start_evals] in H.
  - injection H as <- <- <-. exists []. rewrite !app_nil_r. auto 6.
  - destruct (Nat.ltb_spec (List.length evaluating) n) as [Hlt|Hge].
    + destruct (IH _ _ H) as (st & -> & -> & -> & Hb & He). exists ((x, f) :: st). split; [reflexivity|].
      split; [cbn; now rewrite <- app_assoc|]. split; [|split; [intros; apply Hb; rewrite app_length; cbn; lia|exact He]].
      cbn [List.length seq combine map fst snd]. rewrite <- app_assoc. cbn [app]. rewrite Nat.add_0_r. do 2 f_equal.
      rewrite <- seq_shift. rewrite app_length. cbn [List.length]. generalize (seq 0 (List.length st)). intros l. clear.
      revert l. induction st as [|q st IH]; intros [|k l]; cbn; auto. rewrite IH. do 2 f_equal. lia.
    + injection H as <- <- <-. exists []. rewrite !app_nil_r. split; [reflexivity|]. auto.
Qed.

Lemma numbered_In {A B} (base : nat) (g : A -> B) (l : list A) i b :
  In (i, b) (map (fun iq => ((base + fst iq)%nat, g (snd iq))) (combine (seq 0 (List.length l)) l)) <->
  exists k a, i = (base + k)%nat /\ nth_error l k = Some a /\ b = g a.
Proof.
  assert (H : forall s : nat, In (i, b) (map (fun iq => ((base + fst iq)%nat, g (snd iq))) (combine (seq s (List.length l)) l)) <->
    exists k a, i = (base + (s + k))%nat /\ nth_error l k = Some a /\ b = g a).
  { induction l as [|a l IH]; intros s; cbn [List.length seq combine map In fst snd].
    - split; [tauto|]. intros ([|k] & a & _ & H & _); discriminate.
    - rewrite IH. split.
      + intros [[= <- <-]|(k & a' & -> & Hk & ->)]; [exists 0%nat, a; rewrite Nat.add_0_r; auto|]. exists (S k), a'. repeat split; auto. lia.
      + intros ([|k] & a' & -> & Hk & ->); [left; injection Hk as <-; f_equal; lia|]. right. exists k, a'. repeat split; auto. lia. }
  exact (H 0%nat).
Qed.
Lemma numbered_keys {A B} (base : nat) (g : A -> B) (l : list A) :
  map fst (map (fun iq => ((base + fst iq)%nat, g (snd iq))) (combine (seq 0 (List.length l)) l)) = seq base (List.length l).
Proof.
  assert (H : forall s : nat, map fst (map (fun iq => ((base + fst iq)%nat, g (snd iq))) (combine (seq s (List.length l)) l)) = seq (base + s) (List.length l)).
  { induction l as [|a l IH]; intros s; cbn; [reflexivity|]. rewrite IH. do 2 f_equal. lia. }
  rewrite H. f_equal. lia.
Qed.
Lemma numbered_vals {A B} (base : nat) (g : A -> B) (l : list A) :
  map snd (map (fun iq => ((base + fst iq)%nat, g (snd iq))) (combine (seq 0 (List.length l)) l)) = map g l.
Proof. generalize 0%nat. induction l as [|a l IH]; intros s; cbn; [reflexivity|]. now rewrite IH. Qed.
Lemma NoDup_app_seq (keys : list nat) base k : NoDup keys -> (forall r, In r keys -> r < base)%nat -> NoDup (keys ++ seq base k).
Proof.
  intros Hk Hb. induction keys as [|a keys IH]; cbn; [apply seq_NoDup|]. inversion Hk; subst. constructor.
  - rewrite in_app_iff, in_seq. intros [|]; [auto|]. specialize (Hb a (or_introl eq_refl)). lia.
  - apply IH; auto. intros r Hr. apply Hb. now right.
Qed.

Lemma fill_inv s : inv s -> inv (fill n s).
Proof.
  intros I. unfold fill.
  destruct (start_merges _ _ _ _ _) as [[queue merging] ts1] eqn:E1. destruct (start_evals _ _ _ _) as [[rest evaluating] ts2] eqn:E2.
  destruct (start_merges_spec _ _ _ _ _ _ _ E1) as (st1 & Hq & Hts1 & Hmg & Hb1 & _).
  destruct (start_evals_spec _ _ _ _ _ _ E2) as (st2 & Hmd & Hts2 & Hev & Hb2 & _).
  assert (L1 : later (st_tasks s) ts1) by (rewrite Hts1; apply later_app).
  assert (L2 : later ts1 ts2) by (rewrite Hts2; apply later_app). pose proof (later_trans _ _ _ L1 L2) as L.
  assert (Hmd' : st_merged s = rev rest ++ rev st2) by (rewrite <- rev_app_distr, <- Hmd; now rewrite rev_involutive).
  assert (Hg1 : good_outcomes ts1).
  { apply (good_later _ _ L1 (i_good _ I)). rewrite Hts1. intros r t Hr. destruct (Nat.lt_ge_cases r (List.length (st_tasks s))) as [Hlt|Hge].
    - rewrite nth_error_app1 in Hr by auto. auto.
    - rewrite nth_error_app2 in Hr by auto. rewrite nth_error_map in Hr. destruct (nth_error st1 _); [|discriminate]. injection Hr as <-. right. constructor. }
  assert (Hg2 : good_outcomes ts2).
  { apply (good_later _ _ L2 Hg1). rewrite Hts2. intros r t Hr. destruct (Nat.lt_ge_cases r (List.length ts1)) as [Hlt|Hge].
    - rewrite nth_error_app1 in Hr by auto. auto.
    - rewrite nth_error_app2 in Hr by auto. rewrite nth_error_map in Hr. destruct (nth_error st2 _); [|discriminate]. injection Hr as <-. right. constructor. }
  constructor; cbn [st_queue st_merging st_merged st_evaluating st_tasks st_answers st_submitted st_alive].
  - intros x f Hin. apply (i_queue _ I). rewrite Hq. apply in_or_app. now right.
  - intros r f Hin. rewrite Hmg in Hin. apply in_app_iff in Hin as [Hin|Hin].
    + destruct (i_merging _ I r f Hin) as (x & ? & Hm). exists x. split; auto. now apply L.
    + apply (numbered_In (List.length (st_tasks s)) (fun q : G * nat => snd q)) in Hin as (k & [x f'] & -> & Hk & ->). cbn [snd]. exists x. split.
      * apply (i_queue _ I). rewrite Hq. apply in_or_app. left. eapply nth_error_In; eauto.
      * apply L2. exists None. rewrite Hts1, nth_error_app2 by lia. replace (_ + k - _)%nat with k by lia. rewrite nth_error_map, Hk. reflexivity.
  - intros f r Hin. destruct (i_merged _ I f r) as (x & ? & Hm); [rewrite Hmd'; apply in_or_app; now left|]. exists x. split; auto. eapply later_done; eauto.
  - intros r f Hin. rewrite Hev in Hin. apply in_app_iff in Hin as [Hin|Hin].
    + destruct (i_eval _ I r f Hin) as (x & ? & Hm). exists x. split; auto. eapply later_eval; eauto.
    + apply (numbered_In (List.length ts1) (fun q : nat * nat => fst q)) in Hin as (k & [f' m] & -> & Hk & ->). cbn [fst].
      destruct (i_merged _ I f' m) as (x & Hx & Hm).
      { rewrite Hmd'. apply in_or_app. right. rewrite <- in_rev. eapply nth_error_In; eauto. }
      exists x. split; auto. exists m, None. split; [|eapply later_done; eauto].
      rewrite Hts2, nth_error_app2 by lia. replace (_ + k - _)%nat with k by lia. rewrite nth_error_map, Hk. reflexivity.
  - apply (i_answers _ I).
  - exact Hg2.
  - rewrite Hmg, map_app, (numbered_keys (List.length (st_tasks s)) (fun q : G * nat => snd q)). apply NoDup_app_seq; [apply (i_keys_m _ I)|].
    intros r Hr. apply in_map_iff in Hr as ([r' f] & <- & Hin). destruct (i_merging _ I r' f Hin) as (x & _ & Hm). eapply merge_task_lt; eauto.
  - rewrite Hev, map_app, (numbered_keys (List.length ts1) (fun q : nat * nat => fst q)). apply NoDup_app_seq; [apply (i_keys_e _ I)|].
    intros r Hr. apply in_map_iff in Hr as ([r' f] & <- & Hin). destruct (i_eval _ I r' f Hin) as (x & _ & Hm). apply (eval_task_lt ts1 r' x). eapply later_eval; eauto.
  - apply (i_sub _ I).
  - destruct (i_places _ I) as (lost & Hp & Hl). exists lost. split; auto. rewrite <- Hp. apply Permutation_app_tail. unfold places.
    cbn [st_queue st_merging st_merged st_evaluating st_answers]. rewrite Hmg, Hev, Hmd', Hq, !map_app.
    rewrite (numbered_vals _ (fun q : G * nat => snd q)), (numbered_vals _ (fun q : nat * nat => fst q)).
    rewrite (map_rev fst st2). change (fun q : G * nat => snd q) with (@snd G nat). change (fun q : nat * nat => fst q) with (@fst nat nat). count.
  - rewrite rev_length. apply (f_equal (@List.length _)) in Hmd'. rewrite app_length, !rev_length in Hmd'.
    pose proof (Hb1 (i_merges _ I)). lia.
  - exact (Hb2 (i_evals _ I)).
Qed.

Lemma ddel_split (d : dict nat nat) r f : NoDup (map fst d) -> dget d r = Some f ->
  exists a b, d = a ++ (r, f) :: b /\ ddel d r = a ++ b.
Proof.
  induction d as [|[k v] d IH]; cbn [dget ddel map fst]; [discriminate|]. intros Hnd. inversion Hnd as [|? ? Hni Hnd']; subst.
  destruct (eqb_spec r k) as [->|Hne].
  - intros [= ->]. exists [], d. split; [reflexivity|]. cbn [app].
    clear - Hni. induction d as [|[k' v'] d IH]; cbn [ddel]; auto. destruct (eqb_spec k k') as [->|]; [exfalso; apply Hni; now left|].
    f_equal. apply IH. intros H. apply Hni. now right.
  - intros Hd. destruct (IH Hnd' Hd) as (a & b & -> & E). exists ((k, v) :: a), b. split; [reflexivity|]. cbn [app]. now rewrite E.
Qed.

Lemma process_inv r s : inv s -> st_alive s = true -> (forall r', r = Some r' -> In r' (held_refs s) /\ ready s r' = true) -> inv (process r s).
Proof.
  intros I Ha Hr. destruct r as [r|]; cbn [process].
  2:{ destruct I. constructor; cbn [st_queue st_merging st_merged st_evaluating st_tasks st_answers st_submitted st_alive]; auto.
      destruct i_places0 as (lost & Hp & Hl). exists lost. auto. }
  destruct (Hr r eq_refl) as [Hin Hrdy]. destruct (i_places _ I) as (lost & Hp & Hl). rewrite (Hl Ha), app_nil_r in Hp. clear Hl lost.
  destruct (dget (st_merging s) r) as [f|] eqn:Em.
  - pose proof (dget_In _ _ _ Em) as Hinm. destruct (ddel_split _ _ _ (i_keys_m _ I) Em) as (a & b & E1 & E2).
    destruct I. constructor; cbn [st_queue st_merging st_merged st_evaluating st_tasks st_answers st_submitted st_alive]; auto.
    + intros r' f' Hin'. apply ddel_incl in Hin'. auto.
    + intros f' r' Hin'. apply in_app_iff in Hin' as [Hin'|[[= <- <-]|[]]]; auto.
      destruct (i_merging0 r f Hinm) as (x & Hx & o & Ho). exists x. split; auto. unfold ready in Hrdy. rewrite Ho in Hrdy. cbn in Hrdy. destruct o as [o|]; [|discriminate]. exists o. auto.
    + apply ddel_NoDup. auto.
    + exists []. split; auto. rewrite <- Hp, app_nil_r. unfold places. cbn [st_queue st_merging st_merged st_evaluating st_answers].
      rewrite E2, E1, !map_app. cbn [map fst snd]. count.
    + rewrite E2. rewrite E1 in i_merges0. rewrite !app_length in *. cbn [List.length] in *. lia.
  - destruct (dget (st_evaluating s) r) as [f|] eqn:Ee.
    2:{ destruct I. constructor; cbn [st_queue st_merging st_merged st_evaluating st_tasks st_answers st_submitted st_alive]; auto.
        exists []. rewrite app_nil_r. auto. }
    pose proof (dget_In _ _ _ Ee) as Hine. destruct (ddel_split _ _ _ (i_keys_e _ I) Ee) as (a & b & E1 & E2).
    assert (Hans : forall v, outcome_of s r = Some (Scored v) -> exists x p, In (x, f) (st_submitted s) /\ merges x (Merged p) /\ evals p (Scored v)).
    { intros v Hv. destruct (i_eval _ I r f Hine) as (x & Hx & m & o & Ho & om & Hm). unfold outcome_of in Hv. rewrite Ho in Hv. subst o.
      pose proof (i_good _ I _ _ Ho) as (x' & om' & Hm' & Hev). rewrite Hm in Hm'. injection Hm' as -> ->.
      destruct om' as [p| |]; [|discriminate..]. exists x', p. split; auto. split; auto. exact (i_good _ I _ _ Hm). }
    assert (Hev' : (List.length (ddel (st_evaluating s) r) <= n)%nat).
    { pose proof (i_evals _ I) as Hn. rewrite E2. rewrite E1 in Hn. rewrite !app_length in *. cbn [List.length] in *. lia. }
    destruct (outcome_of s r) as [[v|]|] eqn:Eo.
    + destruct I. constructor; cbn [st_queue st_merging st_merged st_evaluating st_tasks st_answers st_submitted st_alive]; auto.
      * intros r' f' Hin'. apply ddel_incl in Hin'. auto.
      * intros f' v' Hin'. apply in_app_iff in Hin' as [Hin'|[[= <- <-]|[]]]; auto.
      * apply ddel_NoDup. auto.
      * exists []. split; auto. rewrite <- Hp, app_nil_r. unfold places. cbn [st_queue st_merging st_merged st_evaluating st_answers].
        rewrite E2, E1, !map_app. cbn [map fst snd]. count.
    + destruct I. constructor; cbn [st_queue st_merging st_merged st_evaluating st_tasks st_answers st_submitted st_alive]; auto.
      * intros r' f' Hin'. apply ddel_incl in Hin'. auto.
      * apply ddel_NoDup. auto.
      * exists [f]. split; [|discriminate]. rewrite <- Hp. unfold places. cbn [st_queue st_merging st_merged st_evaluating st_answers].
        rewrite E2, E1, !map_app. cbn [map fst snd]. count.
    + destruct I. constructor; cbn [st_queue st_merging st_merged st_evaluating st_tasks st_answers st_submitted st_alive]; auto.
      * intros r' f' Hin'. apply ddel_incl in Hin'. auto.
      * apply ddel_NoDup. auto.
      * exists [f]. split; [|discriminate]. rewrite <- Hp. unfold places. cbn [st_queue st_merging st_merged st_evaluating st_answers].
        rewrite E2, E1, !map_app. cbn [map fst snd]. count.
Qed.

Lemma step_inv l s s' : stepn l s s' -> inv s -> inv s'.
Proof.
  intros H I. destruct H.
  - (* submit *) destruct I. constructor; cbn [submit st_queue st_merging st_merged st_evaluating st_tasks st_answers st_submitted st_alive]; auto.
    + intros x' f' Hin. rewrite in_app_iff in *. destruct Hin as [Hin|Hin]; auto.
    + intros r f' Hin. destruct (i_merging0 _ _ Hin) as (y & Hy & Hm). exists y. rewrite in_app_iff. auto.
    + intros f' r Hin. destruct (i_merged0 _ _ Hin) as (y & Hy & Hm). exists y. rewrite in_app_iff. auto.
    + intros r f' Hin. destruct (i_eval0 _ _ Hin) as (y & Hy & Hm). exists y. rewrite in_app_iff. auto.
    + intros f' v Hin. destruct (i_answers0 _ _ Hin) as (y & p & Hy & Hm). exists y, p. rewrite in_app_iff. auto.
    + rewrite map_app. apply NoDup_snoc; auto.
    + destruct i_places0 as (lost & Hp & Hl). exists lost. split; auto. rewrite map_app, <- Hp. unfold places. cbn [submit st_queue st_merging st_merged st_evaluating st_answers].
      rewrite !map_app. cbn [map fst snd]. count.
  - (* finish *) pose proof (later_finish _ _ _ _ _ H H1) as L. destruct I.
    constructor; cbn [set_tasks st_queue st_merging st_merged st_evaluating st_tasks st_answers st_submitted st_alive]; auto.
    + intros r' f' Hin. destruct (i_merging0 _ _ Hin) as (y & Hy & Hm). exists y. split; auto. now apply L.
    + intros f' r' Hin. destruct (i_merged0 _ _ Hin) as (y & Hy & Hm). exists y. split; auto. eapply later_done; eauto.
    + intros r' f' Hin. destruct (i_eval0 _ _ Hin) as (y & Hy & Hm). exists y. split; auto. eapply later_eval; eauto.
    + apply (good_later _ _ L i_good0). intros r' u Hu.
      destruct (Nat.eq_dec r' (List.length a)) as [->|Hne].
      * rewrite nth_error_app2, Nat.sub_diag in Hu by auto. injection Hu as <-. right. inversion H1; subst; cbn; auto; [eexists; eexists; split; [eassumption|]; auto|]. eexists; eexists; split; [eassumption|]. destruct o; [|auto..]. exfalso. eapply H3; reflexivity.
      * left. rewrite H. destruct (Nat.lt_ge_cases r' (List.length a)).
        -- rewrite nth_error_app1 in * by auto. auto.
        -- rewrite nth_error_app2 in * by auto. destruct (r' - List.length a)%nat eqn:Er; [lia|]. auto.
  - now apply fill_inv.
  - apply process_inv; auto. discriminate.
  - apply process_inv; auto. intros r' [= <-]. auto.
  - destruct I. constructor; cbn [set_flags st_queue st_merging st_merged st_evaluating st_tasks st_answers st_submitted st_alive]; auto.
  - destruct I. constructor; cbn [set_flags st_queue st_merging st_merged st_evaluating st_tasks st_answers st_submitted st_alive]; auto.
    destruct i_places0 as (lost & Hp & Hl). exists lost. split; [exact Hp|discriminate].
Qed.
Lemma initial_inv : inv initial.
Proof.
  constructor; cbn; try tauto; try constructor; try lia.
  - intros [|r]; discriminate.
  - exists []. auto.
Qed.
Lemma reachable_inv s : reachable merges evals n s -> inv s.
Proof.
  unfold reachable. remember initial as s0 eqn:E. induction 1 as [|s0 s s' l H IH Hs]; subst; [apply initial_inv|]. eapply step_inv; eauto.
Qed.
End Proofs.
