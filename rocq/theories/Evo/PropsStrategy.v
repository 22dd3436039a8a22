(** C43: buffered evaluation of genotypes. *)
From Coq Require Import Permutation.
From Verif.Base Require Import Py PyFacts.
From Verif.Evo Require Import Strategy StrategyProofs.
Local Open Scope list_scope.

Section Theorems.
Context {G P R : Type}.
Variables (merges : G -> merge_outcome P -> Prop) (evals : P -> eval_outcome R -> Prop) (n : nat).
Implicit Types (s : state G P R).
Notation reach := (reachable merges evals n).
Notation stepn := (step merges evals n).

(** An answered future got an evaluation result of a merge of the genotype it was submitted for, and its result is set
    only once. *)
Theorem C43_answer s f v : reach s -> In (f, v) (st_answers s) ->
  exists x p, In (x, f) (st_submitted s) /\ (forall x', In (x', f) (st_submitted s) -> x' = x) /\
    merges x (Merged p) /\ evals p (Scored v) /\ NoDup (map fst (st_answers s)).
Proof.
  intros Hr Hin. pose proof (reachable_inv _ _ _ _ Hr) as I. destruct (i_answers _ _ _ _ I f v Hin) as (x & p & Hx & Hm & He).
  exists x, p. split; auto. split.
  - intros x' Hx'. pose proof (i_sub _ _ _ _ I) as Hnd. clear - Hx Hx' Hnd. induction (st_submitted s) as [|[y g] l IH]; [contradiction|].
    cbn in Hnd. inversion Hnd as [|? ? Hni Hnd']; subst. destruct Hx as [[= -> ->]|Hx], Hx' as [[= ->]|Hx']; auto; exfalso; apply Hni;
      [apply (in_map snd) in Hx'|subst; apply (in_map snd) in Hx]; auto.
  - repeat split; auto. destruct (i_places _ _ _ _ I) as (lost & Hp & _). pose proof (i_sub _ _ _ _ I) as Hnd.
    rewrite <- Hp in Hnd. unfold places in Hnd. rewrite <- !app_assoc in Hnd.
    do 4 apply NoDup_app_remove_l in Hnd. apply NoDup_app_remove_r in Hnd. exact Hnd.
Qed.

(** At most [num_gpus] merged models are held or in preparation, and at most [num_gpus] evaluations run. *)
Theorem C43_bounds s : reach s ->
  (List.length (st_merging s) + List.length (st_merged s) <= n /\ List.length (st_evaluating s) <= n)%nat.
Proof. intros Hr. pose proof (reachable_inv _ _ _ _ Hr) as I. split; [apply (i_merges _ _ _ _ I)|apply (i_evals _ _ _ _ I)]. Qed.

(** While the loop runs, every submitted request is in exactly one place: queued, being merged, merged, being evaluated or
    answered. *)
Theorem C43_never_lost s : reach s -> st_alive s = true ->
  NoDup (map snd (st_submitted s)) /\
  Permutation (map snd (st_queue s) ++ map snd (st_merging s) ++ map fst (st_merged s) ++ map snd (st_evaluating s) ++ map fst (st_answers s))
              (map snd (st_submitted s)).
Proof.
  intros Hr Ha. pose proof (reachable_inv _ _ _ _ Hr) as I. split; [apply (i_sub _ _ _ _ I)|].
  destruct (i_places _ _ _ _ I) as (lost & Hp & Hl). rewrite (Hl Ha), app_nil_r in Hp. exact Hp.
Qed.

(** ** Every request is answered, if nothing fails *)

(** a run of the loop and of the started tasks, without new requests: tasks end eventually and the loop keeps going *)
Record fair_run (run : nat -> state G P R) (lab : nat -> label) : Prop := {
  fr_step : forall i, stepn (lab i) (run i) (run (S i)) /\ In (lab i) [LFinish; LFill; LWait];
  fr_tasks : forall i r, (r < List.length (st_tasks (run i)))%nat -> exists j, (i <= j)%nat /\ ready (run j) r = true;
  fr_loop : forall i l, In l [LFill; LWait] -> exists j, (i <= j)%nat /\ lab j = l }.

Definition unfinished s : nat := List.length (filter (fun t => negb (finished t)) (st_tasks s)).
Definition mu s : nat :=
  (7 * List.length (st_queue s) + unfinished s + 5 * List.length (st_merging s) + 4 * List.length (st_merged s) + 2 * List.length (st_evaluating s))%nat.

Lemma fill_mu s : (mu (fill n s) <= mu s)%nat /\
  (mu (fill n s) = mu s -> (st_queue s = [] \/ n <= List.length (st_merging s) + List.length (st_merged s))%nat /\
                            (st_merged s = [] \/ n <= List.length (st_evaluating s))%nat).
Proof.
  unfold fill. destruct (start_merges _ _ _ _ _) as [[queue merging] ts1] eqn:E1. destruct (start_evals _ _ _ _) as [[rest evaluating] ts2] eqn:E2.
  destruct (start_merges_spec _ _ _ _ _ _ _ _ E1) as (st1 & Hq & Hts1 & Hmg & _ & He1).
  destruct (start_evals_spec _ _ _ _ _ _ _ E2) as (st2 & Hmd & Hts2 & Hev & _ & He2).
  unfold mu, unfinished. cbn [st_queue st_merging st_merged st_evaluating st_tasks].
  assert (Hl1 : List.length (st_queue s) = (List.length st1 + List.length queue)%nat) by (now rewrite Hq, app_length).
  assert (Hl2 : List.length (st_merged s) = (List.length st2 + List.length rest)%nat) by (now rewrite <- rev_length, Hmd, app_length).
  assert (Hl3 : List.length merging = (List.length (st_merging s) + List.length st1)%nat) by (rewrite Hmg, app_length, map_length, combine_length, seq_length; lia).
  assert (Hl4 : List.length evaluating = (List.length (st_evaluating s) + List.length st2)%nat) by (rewrite Hev, app_length, map_length, combine_length, seq_length; lia).
  assert (Hl5 : List.length (filter (fun t => negb (finished t)) ts2) = (List.length (filter (fun t => negb (finished t)) (st_tasks s)) + List.length st1 + List.length st2)%nat).
  { rewrite Hts2, Hts1, !filter_app, !app_length.
    assert (Ha : forall l : list (G * nat), List.length (filter (fun t : @task G P R => negb (finished t)) (map (fun q => TMerge (fst q) None) l)) = List.length l) by (induction l; cbn; auto).
    assert (Hb : forall l : list (nat * nat), List.length (filter (fun t : @task G P R => negb (finished t)) (map (fun q => TEval (snd q) None) l)) = List.length l) by (induction l; cbn; auto).
    now rewrite Ha, Hb. }
  rewrite Hl5, rev_length. split; [lia|]. intros Hmu. assert (Hz : List.length st1 = 0%nat /\ List.length st2 = 0%nat) by lia.
  destruct Hz as [Hz1 Hz2]. apply length_zero_iff_nil in Hz1, Hz2. subst st1 st2. cbn [app] in Hq, Hmd. split.
  - destruct He1 as [->|He1]; [auto|]. right. cbn in Hl3. lia.
  - destruct He2 as [->|He2]; [left; apply (f_equal (@rev _)) in Hmd; now rewrite rev_involutive in Hmd|]. right. cbn in Hl4. lia.
Qed.

Lemma finish_mu a t t' b s : st_tasks s = a ++ t :: b -> ends merges evals (st_tasks s) t t' -> (mu (set_tasks (a ++ t' :: b) s) < mu s)%nat.
Proof.
  intros Et He. unfold mu, unfinished. cbn [set_tasks st_queue st_merging st_merged st_evaluating st_tasks]. rewrite Et, !filter_app, !app_length. cbn [filter].
  assert (negb (finished t) = true /\ negb (finished t') = false) as [-> ->] by (destruct He; auto). cbn [List.length]. lia.
Qed.

Lemma process_mu r s : inv merges evals n s -> In r (held_refs s) -> (mu (process (Some r) s) < mu s)%nat.
Proof.
  intros I Hin. unfold process, mu, unfinished. destruct (dget (st_merging s) r) as [f|] eqn:Em.
  - destruct (ddel_split _ _ _ (i_keys_m _ _ _ _ I) Em) as (a & b & E1 & E2). cbn [st_queue st_merging st_merged st_evaluating st_tasks].
    rewrite E2, E1, !app_length. cbn [List.length]. lia.
  - destruct (dget (st_evaluating s) r) as [f|] eqn:Ee.
    + destruct (ddel_split _ _ _ (i_keys_e _ _ _ _ I) Ee) as (a & b & E1 & E2).
      destruct (outcome_of s r) as [[v|]|]; cbn [st_queue st_merging st_merged st_evaluating st_tasks]; rewrite E2, E1, !app_length; cbn [List.length]; lia.
    + exfalso. apply dget_None in Em, Ee. unfold held_refs in Hin. apply in_app_iff in Hin as [Hin|Hin]; auto.
Qed.

Lemma step_mu l s s' : stepn l s s' -> inv merges evals n s -> In l [LFinish; LFill; LWait] -> (mu s' <= mu s)%nat.
Proof.
  intros H I Hl. destruct H; cbn in Hl.
  - destruct Hl as [|[|[|[]]]]; discriminate.
  - apply Nat.lt_le_incl, finish_mu with (t := t); auto.
  - apply fill_mu.
  - apply le_n.
  - apply Nat.lt_le_incl, process_mu; auto.
  - destruct Hl as [|[|[|[]]]]; discriminate.
  - destruct Hl as [|[|[|[]]]]; discriminate.
Qed.

(** nothing fails *)
Definition no_failure s : Prop :=
  (forall x f o, In (x, f) (st_submitted s) -> merges x o -> exists p, o = Merged p) /\
  (forall x f p o, In (x, f) (st_submitted s) -> merges x (Merged p) -> evals p o -> exists v, o = Scored v).

Lemma step_running l s s' : stepn l s s' -> inv merges evals n s -> In l [LFinish; LFill; LWait] -> no_failure s ->
  st_alive s = true -> st_shutdown s = false ->
  st_submitted s' = st_submitted s /\ st_alive s' = true /\ st_shutdown s' = false.
Proof.
  intros H I Hl [Hnf1 Hnf2] Ha Hsd. destruct H; cbn in Hl; try (destruct Hl as [|[|[|[]]]]; discriminate).
  - cbn. auto.
  - unfold fill. destruct (start_merges _ _ _ _ _) as [[? ?] ?]. destruct (start_evals _ _ _ _) as [[? ?] ?]. cbn. auto.
  - cbn. auto.
  - unfold process. destruct (dget (st_merging s) r); [cbn; auto|]. destruct (dget (st_evaluating s) r) as [f|] eqn:Ee; [|cbn; auto].
    assert (exists v, outcome_of s r = Some (Scored v)) as (v & ->); [|cbn; auto].
    apply dget_In in Ee. destruct (i_eval _ _ _ _ I r f Ee) as (x & Hx & m & o & Ho & om & Hm). unfold ready in H2. unfold outcome_of. rewrite Ho in *. cbn in H2.
    destruct o as [o|]; [|discriminate]. destruct (i_good _ _ _ _ I _ _ Ho) as (x' & om' & Hm' & Hev). rewrite Hm in Hm'. injection Hm' as <- <-.
    pose proof (i_good _ _ _ _ I _ _ Hm) as Hmx. cbn in Hmx. destruct (Hnf1 x f om Hx Hmx) as (p & ->). destruct (Hnf2 x f p o Hx Hmx Hev) as (v & ->). eauto.
Qed.

Lemma ready_later s s' l r : stepn l s s' -> ready s r = true -> ready s' r = true.
Proof.
  intros H Hr. assert (Happ : forall (s1 s2 : state G P R), (exists b, st_tasks s2 = st_tasks s1 ++ b) -> ready s1 r = true -> ready s2 r = true).
  { clear. intros s1 s2 (b & E). unfold ready. rewrite E. destruct (nth_error (st_tasks s1) r) eqn:En; [|discriminate].
    rewrite nth_error_app1 by (apply nth_error_Some; congruence). now rewrite En. }
  destruct H.
  - apply (Happ s); auto. exists []. cbn. now rewrite app_nil_r.
  - unfold ready in *. cbn [set_tasks st_tasks]. rewrite H in Hr. destruct (Nat.eq_dec r (List.length a)) as [->|Hne].
    + rewrite nth_error_app2, Nat.sub_diag in * by auto. cbn. destruct H1; reflexivity.
    + destruct (Nat.lt_ge_cases r (List.length a)).
      * rewrite nth_error_app1 in * by auto. auto.
      * rewrite nth_error_app2 in * by auto. destruct (r - List.length a)%nat eqn:Er; [lia|]. auto.
  - apply (Happ s); auto. unfold fill. destruct (start_merges _ _ _ _ _) as [[queue merging] ts1] eqn:E1. destruct (start_evals _ _ _ _) as [[rest evaluating] ts2] eqn:E2.
    destruct (start_merges_spec _ _ _ _ _ _ _ _ E1) as (st1 & _ & -> & _). destruct (start_evals_spec _ _ _ _ _ _ _ E2) as (st2 & _ & -> & _).
    cbn [st_tasks]. rewrite <- app_assoc. eauto.
  - apply (Happ s); auto. exists []. cbn. now rewrite app_nil_r.
  - apply (Happ s); auto. exists []. rewrite app_nil_r. unfold process. destruct (dget (st_merging s) r0); [reflexivity|].
    destruct (dget (st_evaluating s) r0); [destruct (outcome_of s r0) as [[]|]|]; reflexivity.
  - apply (Happ s); auto. exists []. cbn. now rewrite app_nil_r.
  - apply (Happ s); auto. exists []. cbn. now rewrite app_nil_r.
Qed.

Lemma reach_steps s l s' : reach s -> stepn l s s' -> reach s'.
Proof. intros Hr Hs. eapply steps_step; eauto. Qed.

(** If there is at least one accelerator and no merge or evaluation fails, every request submitted so far is answered in
    the end, whatever the order in which tasks finish. *)
Theorem C43_all_answered_partial run lab :
  fair_run run lab -> reach (run 0%nat) -> (0 < n)%nat -> st_alive (run 0%nat) = true -> st_shutdown (run 0%nat) = false ->
  no_failure (run 0%nat) ->
  exists k, forall x f, In (x, f) (st_submitted (run 0%nat)) -> exists v, In (f, v) (st_answers (run k)).
Proof.
  intros Hf Hr0 Hn Ha0 Hs0 Hnf0.
  assert (Hrun : forall i, reach (run i) /\ st_submitted (run i) = st_submitted (run 0%nat) /\ st_alive (run i) = true /\ st_shutdown (run i) = false).
  { induction i as [|i (IHr & IHs & IHa & IHd)]; [auto|]. destruct (fr_step _ _ Hf i) as [Hst Hl].
    assert (Hnf : no_failure (run i)) by (unfold no_failure; rewrite IHs; exact Hnf0).
    destruct (step_running _ _ _ Hst (reachable_inv _ _ _ _ IHr) Hl Hnf IHa IHd) as (E1 & E2 & E3).
    split; [eapply reach_steps; eauto|]. rewrite E1. auto. }
  assert (Hmono : forall i j, (i <= j)%nat -> (mu (run j) <= mu (run i))%nat).
  { intros i j Hij. induction Hij as [|j Hij IH]; [auto|]. destruct (fr_step _ _ Hf j) as [Hst Hl]. destruct (Hrun j) as (Hr & _).
    pose proof (step_mu _ _ _ Hst (reachable_inv _ _ _ _ Hr) Hl). lia. }
  assert (Hready : forall i j r, (i <= j)%nat -> ready (run i) r = true -> ready (run j) r = true).
  { intros i j r Hij Hi. induction Hij as [|j Hij IH]; [auto|]. destruct (fr_step _ _ Hf j) as [Hst _]. eapply ready_later; eauto. }
  assert (Hall : forall i N, exists j, (i <= j)%nat /\ forall r, (r < N)%nat -> (r < List.length (st_tasks (run i)))%nat -> ready (run j) r = true).
  { intros i. induction N as [|N (j & Hj & IH)]; [exists i; split; [auto|intros; lia]|].
    destruct (Nat.lt_ge_cases N (List.length (st_tasks (run i)))) as [Hlt|Hge].
    - destruct (fr_tasks _ _ Hf i N Hlt) as (j' & Hj' & Hr). exists (Nat.max j j'). split; [lia|]. intros r Hr1 Hr2.
      destruct (Nat.eq_dec r N) as [->|]; [apply (Hready j'); [lia|auto]|]. apply (Hready j); [lia|]. apply IH; auto. lia.
    - exists j. split; auto. intros r Hr1 Hr2. apply IH; auto. lia. }
  assert (Hind : forall m i, mu (run i) = m -> exists k, forall x f, In (x, f) (st_submitted (run 0%nat)) -> exists v, In (f, v) (st_answers (run k))).
  { induction m as [m IH] using lt_wf_ind. intros i Hi.
    destruct (Hall i (List.length (st_tasks (run i)))) as (J & HJ & HallJ).
    destruct (fr_loop _ _ Hf J LWait) as (j1 & Hj1 & El1); [cbn; auto|].
    destruct (fr_loop _ _ Hf (S j1) LFill) as (j2 & Hj2 & El2); [cbn; auto|].
    destruct (Nat.eq_dec (mu (run (S j2))) m) as [Eq|Ne].
    2:{ pose proof (Hmono i (S j2) ltac:(lia)). apply (IH (mu (run (S j2)))) with (i := S j2); auto. lia. }
    assert (Hconst : forall j, (i <= j <= S j2)%nat -> mu (run j) = m).
    { intros j Hj. pose proof (Hmono i j ltac:(lia)). pose proof (Hmono j (S j2) ltac:(lia)). lia. }
    (* nothing changes but the position in the loop *)
    assert (Hsame : forall j, (i <= j <= j2)%nat ->
      st_queue (run j) = st_queue (run i) /\ st_merging (run j) = st_merging (run i) /\ st_merged (run j) = st_merged (run i) /\
      st_evaluating (run j) = st_evaluating (run i) /\ st_tasks (run j) = st_tasks (run i)).
    { intros j [Hij Hj2']. induction Hij as [|j Hij IHj]; [auto|]. destruct IHj as (E1 & E2 & E3 & E4 & E5); [lia|].
      rewrite <- E1, <- E2, <- E3, <- E4, <- E5. destruct (fr_step _ _ Hf j) as [Hst Hl]. destruct (Hrun j) as (Hr & _).
      pose proof (Hconst j ltac:(lia)) as Hm1. pose proof (Hconst (S j) ltac:(lia)) as Hm2. remember (run j) as s. remember (run (S j)) as s'. clear Heqs Heqs'.
      destruct Hst; cbn in Hl; try (destruct Hl as [|[|[|[]]]]; discriminate).
      - exfalso. pose proof (finish_mu a t t' b s H H1). lia.
      - destruct (fill_mu s) as [_ Hfm]. rewrite Hm1, Hm2 in Hfm. destruct (Hfm eq_refl) as [Hq Hmd]. clear - Hq Hmd.
        assert (E1 : start_merges n (st_queue s) (st_merging s) (List.length (st_merged s)) (st_tasks s) = (st_queue s, st_merging s, st_tasks s)).
        { destruct (st_queue s) as [|[x f] q]; [reflexivity|]. destruct Hq as [|Hq]; [discriminate|]. cbn [start_merges]. apply Nat.ltb_ge in Hq. now rewrite Hq. }
        assert (E2 : start_evals n (rev (st_merged s)) (st_evaluating s) (st_tasks s) = (rev (st_merged s), st_evaluating s, st_tasks s)).
        { destruct Hmd as [->|Hmd]; [reflexivity|]. destruct (rev (st_merged s)) as [|[x f] q]; [reflexivity|]. cbn [start_evals]. apply Nat.ltb_ge in Hmd. now rewrite Hmd. }
        unfold fill. rewrite E1, E2. cbn. rewrite rev_involutive. auto.
      - cbn. auto.
      - exfalso. pose proof (process_mu r s (reachable_inv _ _ _ _ Hr) H1). lia. }
    (* the wait found nothing although every task has ended: nothing is in flight *)
    assert (Hempty : st_merging (run i) = [] /\ st_evaluating (run i) = []).
    { destruct (Hsame j1 ltac:(lia)) as (_ & E2 & _ & E4 & E5). destruct (fr_step _ _ Hf j1) as [Hst _]. rewrite El1 in Hst.
      destruct (Hrun j1) as (Hr & _). pose proof (reachable_inv _ _ _ _ Hr) as I.
      assert (Hrd : forall r, (r < List.length (st_tasks (run j1)))%nat -> ready (run j1) r = true).
      { intros r Hlt. rewrite E5 in Hlt. apply (Hready J); auto. }
      assert (Hnone : held_refs (run j1) = []).
      { pose proof (Hconst j1 ltac:(lia)) as Hm1. pose proof (Hconst (S j1) ltac:(lia)) as Hm2.
        assert (Hcase : (forall r, In r (held_refs (run j1)) -> ready (run j1) r = false) \/ exists r, In r (held_refs (run j1)) /\ run (S j1) = process (Some r) (run j1)).
        { inversion Hst; subst; eauto. }
        destruct Hcase as [H3|(r & H3 & Ex)].
        - destruct (held_refs (run j1)) as [|r l] eqn:Eh; [reflexivity|]. exfalso. assert (Hlt : (r < List.length (st_tasks (run j1)))%nat).
          { assert (Hin : In r (held_refs (run j1))) by (rewrite Eh; now left). unfold held_refs in Hin. apply in_app_iff in Hin as [Hin|Hin];
              apply in_map_iff in Hin as ([r' f] & <- & Hin); cbn [fst].
            - destruct (i_merging _ _ _ _ I _ _ Hin) as (x & _ & Hm). eapply merge_task_lt; eauto.
            - destruct (i_eval _ _ _ _ I _ _ Hin) as (x & _ & Hm). eapply eval_task_lt; eauto. }
          specialize (H3 r (or_introl eq_refl)). rewrite (Hrd r Hlt) in H3. discriminate.
        - exfalso. pose proof (process_mu r _ I H3) as Hpm. rewrite <- Ex in Hpm. lia. }
      unfold held_refs in Hnone. apply app_eq_nil in Hnone as [N1 N2]. rewrite E2 in N1. rewrite E4 in N2. apply map_eq_nil in N1, N2. auto. }
    destruct Hempty as [Em Ee].
    destruct (Hsame j2 ltac:(lia)) as (E1 & E2 & E3 & E4 & E5). destruct (fr_step _ _ Hf j2) as [Hst _]. rewrite El2 in Hst.
    assert (Efill : run (S j2) = fill n (run j2)) by (inversion Hst; reflexivity).
    destruct (fill_mu (run j2)) as [_ Hfm]. rewrite <- Efill, Eq, (Hconst j2 ltac:(lia)) in Hfm. destruct (Hfm eq_refl) as [Hq Hmd].
    rewrite E4, Ee in Hmd. assert (Emd : st_merged (run j2) = []) by (destruct Hmd as [|Hmd]; [auto|cbn in Hmd; lia]).
    rewrite E2, Em, Emd in Hq. assert (Eq' : st_queue (run j2) = []) by (destruct Hq as [|Hq]; [auto|cbn in Hq; lia]).
    exists j2. intros x f Hin. destruct (Hrun j2) as (Hr & Hsub & Hal & _). destruct (C43_never_lost _ Hr Hal) as [_ Hp].
    rewrite Eq', E2, Em, Emd, E4, Ee in Hp. cbn [map app] in Hp. rewrite Hsub in Hp. apply (in_map snd) in Hin. cbn [snd] in Hin.
    apply (Permutation_in _ (Permutation_sym Hp)) in Hin. apply in_map_iff in Hin as ([f' v] & <- & Hin). eauto. }
  exact (Hind _ 0%nat eq_refl).
Qed.

(** ** Findings *)

(** once the loop has ended, no future is ever answered again *)
Lemma dead_forever s s' : steps merges evals n s s' -> st_alive s = false -> st_alive s' = false /\ st_answers s' = st_answers s.
Proof.
  induction 1 as [|s s' s'' l H IH Hs]; auto. intros Ha. destruct (IH Ha) as [Ha' <-]. clear IH H Ha. destruct Hs; try congruence; cbn; auto.
Qed.

(** Finding: one invalid genotype ends the loop, and requests submitted by others are never answered. *)
Theorem C43_invalid_refuted x y : (0 < n)%nat -> merges x Invalid ->
  exists s, reach s /\ In (y, 1%nat) (st_submitted s) /\
    forall s', steps merges evals n s s' -> forall v, ~ In (1%nat, v) (st_answers s').
Proof.
  intros Hn Hx.
  set (mk q mg md ev ts sub w al := {| st_queue := q; st_merging := mg; st_merged := md; st_evaluating := ev; st_tasks := ts; st_answers := [];
    st_submitted := sub; st_waiting := w; st_alive := al; st_shutdown := false |} : state G P R).
  assert (Hlt : Nat.ltb 0 n = true) by (apply Nat.ltb_lt; auto).
  assert (H1 : reach (mk [(x, 0%nat)] [] [] [] [] [(x, 0%nat)] false true)).
  { eapply steps_step; [apply steps_refl|]. apply (step_submit merges evals n x 0%nat initial). cbn. auto. }
  assert (H2 : reach (mk [] [(0, 0)]%nat [] [] [TMerge x None] [(x, 0%nat)] true true)).
  { eapply steps_step; [exact H1|]. match goal with |- step _ _ _ _ ?s ?s' => replace s' with (fill n s); [apply step_fill; reflexivity|] end.
    unfold fill, mk. cbn [st_queue st_merging st_merged st_tasks start_merges List.length Nat.add]. rewrite Hlt. reflexivity. }
  assert (H3 : reach (mk [] [(0, 0)]%nat [] [] [TMerge x (Some Invalid)] [(x, 0%nat)] true true)).
  { eapply steps_step; [exact H2|]. apply (step_finish merges evals n 0 (TMerge x None) (TMerge x (Some Invalid)) [] [] (mk [] [(0, 0)]%nat [] [] [TMerge x None] [(x, 0%nat)] true true)); [reflexivity..|].
    now constructor. }
  assert (H4 : reach (mk [] [] [(0, 0)]%nat [] [TMerge x (Some Invalid)] [(x, 0%nat)] false true)).
  { eapply steps_step; [exact H3|]. apply (step_wait_some merges evals n 0%nat (mk [] [(0, 0)]%nat [] [] [TMerge x (Some Invalid)] [(x, 0%nat)] true true)); try reflexivity. now left. }
  assert (H5 : reach (mk [] [] [] [(1, 0)]%nat [TMerge x (Some Invalid); TEval 0 None] [(x, 0%nat)] true true)).
  { eapply steps_step; [exact H4|]. match goal with |- step _ _ _ _ ?s ?s' => replace s' with (fill n s); [apply step_fill; reflexivity|] end.
    unfold fill, mk. cbn [st_queue st_merging st_merged st_tasks st_evaluating start_merges start_evals List.length Nat.add rev app]. rewrite Hlt. reflexivity. }
  assert (H6 : reach (mk [] [] [] [(1, 0)]%nat [TMerge x (Some Invalid); TEval 0 (Some EvalFailed)] [(x, 0%nat)] true true)).
  { eapply steps_step; [exact H5|].
    apply (step_finish merges evals n 1 (TEval 0 None) (TEval 0 (Some EvalFailed)) [TMerge x (Some Invalid)] [] (mk [] [] [] [(1, 0)]%nat [TMerge x (Some Invalid); TEval 0 None] [(x, 0%nat)] true true)); [reflexivity..|].
    apply (ends_eval_fail _ _ _ 0 x Invalid); [reflexivity|discriminate]. }
  assert (H7 : reach (mk [(y, 1%nat)] [] [] [(1, 0)]%nat [TMerge x (Some Invalid); TEval 0 (Some EvalFailed)] [(x, 0%nat); (y, 1%nat)] true true)).
  { eapply steps_step; [exact H6|]. apply (step_submit merges evals n y 1%nat (mk [] [] [] [(1, 0)]%nat [TMerge x (Some Invalid); TEval 0 (Some EvalFailed)] [(x, 0%nat)] true true)).
    cbn. intros [|[]]; discriminate. }
  assert (H8 : reach (mk [(y, 1%nat)] [] [] [] [TMerge x (Some Invalid); TEval 0 (Some EvalFailed)] [(x, 0%nat); (y, 1%nat)] false false)).
  { eapply steps_step; [exact H7|].
    apply (step_wait_some merges evals n 1%nat (mk [(y, 1%nat)] [] [] [(1, 0)]%nat [TMerge x (Some Invalid); TEval 0 (Some EvalFailed)] [(x, 0%nat); (y, 1%nat)] true true)); try reflexivity. now left. }
  eexists. split; [exact H8|]. split; [right; now left|]. intros s' Hs v Hin. destruct (dead_forever _ _ Hs eq_refl) as [_ E]. rewrite E in Hin. exact Hin.
Qed.
End Theorems.


(** ** A finding about fairness, on concrete merges and evaluations: a genotype is a number, merging and evaluating it
    give the number itself *)
Definition mrg (x : nat) (o : merge_outcome nat) : Prop := o = Merged x.
Definition evl (p : nat) (o : eval_outcome nat) : Prop := o = Scored p.
Notation reach2 := (reachable mrg evl 2).
Notation mkst q mg md ev ts an sub w :=
  {| st_queue := q; st_merging := mg; st_merged := md; st_evaluating := ev; st_tasks := ts; st_answers := an;
     st_submitted := sub; st_waiting := w; st_alive := true; st_shutdown := false |}.

Lemma nth_mid {A} (a : list A) x b : nth_error (a ++ x :: b) (List.length a) = Some x.
Proof. rewrite nth_error_app2, Nat.sub_diag by auto. reflexivity. Qed.
Lemma nth_pre {A} (a : list A) b k x : nth_error a k = Some x -> nth_error (a ++ b) k = Some x.
Proof. intros H. rewrite nth_error_app1; auto. apply nth_error_Some. congruence. Qed.

(** with request 2 merged and the evaluations of [f1], [f2] running, another request can come and go *)
Lemma starving_cycle (A B C : list (@task nat nat nat)) m1 m2 f1 f2 m0 an sub x1 f :
  reach2 (mkst [] [] [(2, m0)] [(List.length A, f1); (List.length (A ++ TEval m1 None :: B), f2)]
            (A ++ TEval m1 None :: B ++ TEval m2 None :: C) an sub false) ->
  nth_error A m1 = Some (TMerge x1 (Some (Merged x1))) -> ~ In f (map snd sub) ->
  let A' := A ++ TEval m1 (Some (Scored x1)) :: B in
  let B' := C ++ [TMerge 0 (Some (Merged 0))] in
  reach2 (mkst [] [] [(2, m0)] [(List.length A', f2); (List.length (A' ++ TEval m2 None :: B'), f)]
            (A' ++ TEval m2 None :: B' ++ TEval (List.length (A' ++ TEval m2 None :: C)) None :: []) (an ++ [(f1, x1)]) (sub ++ [(0, f)]) false).
Proof.
  intros H0 Hm1 Hf A' B'.
  set (ts0 := A ++ TEval m1 None :: B ++ TEval m2 None :: C) in *. set (e1 := List.length A) in *. set (e2 := List.length (A ++ TEval m1 None :: B)) in *.
  assert (He12 : e1 <> e2) by (unfold e1, e2; rewrite app_length; cbn; lia).
  assert (Ht1 : nth_error ts0 e1 = Some (TEval m1 None)) by apply nth_mid.
  assert (Ht2 : nth_error ts0 e2 = Some (TEval m2 None)) by (unfold ts0, e2; rewrite (app_comm_cons B _), app_assoc; apply nth_mid).
  assert (Hlt1 : (e1 < List.length ts0)%nat) by (apply nth_error_Some; congruence).
  assert (Hlt2 : (e2 < List.length ts0)%nat) by (apply nth_error_Some; congruence).
  set (t := List.length ts0).
  assert (H1 : reach2 (mkst [(0, f)] [] [(2, m0)] [(e1, f1); (e2, f2)] ts0 an (sub ++ [(0, f)]) false)).
  { match type of H0 with reachable _ _ _ ?s => exact (steps_step mrg evl 2 _ s _ _ H0 (step_submit mrg evl 2 0 f s Hf)) end. }
  assert (H2 : reach2 (mkst [] [(t, f)] [(2, m0)] [(e1, f1); (e2, f2)] (ts0 ++ [TMerge 0 None]) an (sub ++ [(0, f)]) true)).
  { match type of H1 with reachable _ _ _ ?s => exact (steps_step mrg evl 2 _ s _ _ H1 (step_fill mrg evl 2 s eq_refl eq_refl eq_refl)) end. }
  assert (H3 : reach2 (mkst [] [(t, f)] [(2, m0)] [(e1, f1); (e2, f2)] (ts0 ++ [TMerge 0 (Some (Merged 0))]) an (sub ++ [(0, f)]) true)).
  { match type of H2 with reachable _ _ _ ?s => refine (steps_step mrg evl 2 _ s _ _ H2 (step_finish mrg evl 2 t (TMerge 0 None) (TMerge 0 (Some (Merged 0))) ts0 [] s eq_refl eq_refl _)) end. now constructor. }
  assert (Hkt : eqb t e1 = false /\ eqb t e2 = false) by (split; apply eqb_neq; unfold t; lia).
  assert (H4 : reach2 (mkst [] [] [(2, m0); (f, t)] [(e1, f1); (e2, f2)] (ts0 ++ [TMerge 0 (Some (Merged 0))]) an (sub ++ [(0, f)]) false)).
  { match type of H3 with reachable _ _ _ ?s => pose proof (step_wait_some mrg evl 2 t s) as Hw end.
    cbn [process st_merging dget ddel st_alive st_waiting] in Hw. rewrite eqb_refl in Hw. eapply steps_step; [exact H3|]. apply Hw; auto; [now left|].
    unfold ready. cbn [st_tasks]. unfold t. now rewrite nth_mid. }
  assert (H5 : reach2 (mkst [] [] [(2, m0); (f, t)] [(e1, f1); (e2, f2)] (ts0 ++ [TMerge 0 (Some (Merged 0))]) an (sub ++ [(0, f)]) true)).
  { match type of H4 with reachable _ _ _ ?s => exact (steps_step mrg evl 2 _ s _ _ H4 (step_fill mrg evl 2 s eq_refl eq_refl eq_refl)) end. }
  set (ts1 := A ++ TEval m1 (Some (Scored x1)) :: B ++ TEval m2 None :: C ++ [TMerge 0 (Some (Merged 0))]).
  assert (H6 : reach2 (mkst [] [] [(2, m0); (f, t)] [(e1, f1); (e2, f2)] ts1 an (sub ++ [(0, f)]) true)).
  { match type of H5 with reachable _ _ _ ?s => refine (steps_step mrg evl 2 _ s _ _ H5 (step_finish mrg evl 2 e1 (TEval m1 None) (TEval m1 (Some (Scored x1))) A (B ++ TEval m2 None :: C ++ [TMerge 0 (Some (Merged 0))]) s _ _ _)) end.
    - cbn [st_tasks]. unfold ts0. rewrite <- !app_assoc. cbn [app]. now rewrite <- !app_assoc.
    - reflexivity.
    - cbn [st_tasks]. apply (ends_eval _ _ _ m1 x1 x1); [|reflexivity]. unfold ts0. rewrite <- app_assoc. now apply nth_pre. }
  assert (H7 : reach2 (mkst [] [] [(2, m0); (f, t)] [(e2, f2)] ts1 (an ++ [(f1, x1)]) (sub ++ [(0, f)]) false)).
  { match type of H6 with reachable _ _ _ ?s => pose proof (step_wait_some mrg evl 2 e1 s) as Hw end.
    assert (Hn1 : nth_error ts1 e1 = Some (TEval m1 (Some (Scored x1)))) by apply nth_mid.
    unfold process, outcome_of in Hw. cbn [st_merging st_merged st_evaluating dget ddel st_alive st_waiting st_tasks st_answers st_queue st_submitted st_shutdown] in Hw.
    rewrite eqb_refl, Hn1 in Hw. assert (En : eqb e1 e2 = false) by (now apply eqb_neq). rewrite En in Hw.
    eapply steps_step; [exact H6|]. apply Hw; auto; [now left|]. unfold ready. cbn [st_tasks]. now rewrite Hn1. }
  assert (H8 : reach2 (mkst [] [] [(2, m0)] [(e2, f2); (List.length ts1, f)] (ts1 ++ [TEval t None]) (an ++ [(f1, x1)]) (sub ++ [(0, f)]) true)).
  { match type of H7 with reachable _ _ _ ?s => exact (steps_step mrg evl 2 _ s _ _ H7 (step_fill mrg evl 2 s eq_refl eq_refl eq_refl)) end. }
  assert (H9 : reach2 (mkst [] [] [(2, m0)] [(e2, f2); (List.length ts1, f)] (ts1 ++ [TEval t None]) (an ++ [(f1, x1)]) (sub ++ [(0, f)]) false)).
  { match type of H8 with reachable _ _ _ ?s => pose proof (step_wait_none mrg evl 2 s) as Hw end.
    refine (steps_step mrg evl 2 _ _ _ _ H8 (Hw eq_refl eq_refl _)). intros r Hin. unfold held_refs in Hin. cbn [st_merging st_evaluating map fst app In] in Hin. unfold ready. cbn [st_tasks].
    destruct Hin as [<-|[<-|[]]].
    - rewrite (nth_pre ts1 _ e2 (TEval m2 None)); [reflexivity|]. unfold ts1, e2. rewrite (app_comm_cons B _), app_assoc.
      replace (List.length (A ++ TEval m1 None :: B)) with (List.length (A ++ TEval m1 (Some (Scored x1)) :: B)) by (rewrite !app_length; reflexivity). apply nth_mid.
    - now rewrite nth_mid. }
  assert (Ee2 : e2 = List.length A') by (unfold e2, A'; rewrite !app_length; reflexivity).
  assert (Ets : ts1 = A' ++ TEval m2 None :: B') by (unfold ts1, A', B'; rewrite <- app_assoc; reflexivity).
  assert (Et : t = List.length (A' ++ TEval m2 None :: C)) by (unfold t, ts0, A'; rewrite <- app_assoc; cbn [app]; rewrite !app_length; reflexivity).
  rewrite Ee2, Ets, Et in H9. rewrite <- (app_assoc A') in H9. exact H9.
Qed.

Definition later_than_2 (a : nat * nat) : bool := Nat.ltb 2 (fst a).
Definition early (f : nat) : nat := if Nat.ltb 2 f then 0 else 1.
(** the state reached after [k] rounds *)
Lemma starving_rounds k : exists A B C m1 m2 f1 f2 m0 an sub x1 x2,
  reach2 (mkst [] [] [(2, m0)] [(List.length A, f1); (List.length (A ++ TEval m1 None :: B), f2)]
            (A ++ TEval m1 None :: B ++ TEval m2 None :: C) an sub false) /\
  nth_error A m1 = Some (TMerge x1 (Some (Merged x1))) /\
  nth_error (A ++ TEval m1 (Some (Scored x1)) :: B) m2 = Some (TMerge x2 (Some (Merged x2))) /\
  (k + early f1 + early f2 <= List.length (filter later_than_2 an) + 2)%nat /\ map snd sub = seq 0 (List.length sub) /\ (3 <= List.length sub)%nat.
Proof.
  induction k as [|k (A & B & C & m1 & m2 & f1 & f2 & m0 & an & sub & x1 & x2 & Hr & Hm1 & Hm2 & Hk & Hs & Hl)].
  - set (D := TMerge 0 (Some (Merged 0)) : @task nat nat nat).
    exists [D; D], [D], [], 0, 1, 0, 1, 3, [], [(0, 0); (0, 1); (0, 2)], 0, 0.
    split; [|split; [reflexivity|split; [reflexivity|split; [cbn; lia|split; [reflexivity|cbn; lia]]]]].
    eapply steps_step; [|refine (step_wait_some mrg evl 2 3 (mkst [] [(3, 2)] [] [(2, 0); (4, 1)] [D; D; TEval 0 None; D; TEval 1 None] [] [(0, 0); (0, 1); (0, 2)] true) eq_refl eq_refl _ eq_refl); now left].
    eapply steps_step; [|refine (step_finish mrg evl 2 3 (TMerge 0 None) D [D; D; TEval 0 None] [TEval 1 None] (mkst [] [(3, 2)] [] [(2, 0); (4, 1)] [D; D; TEval 0 None; TMerge 0 None; TEval 1 None] [] [(0, 0); (0, 1); (0, 2)] true) eq_refl eq_refl _); now constructor].
    eapply steps_step; [|exact (step_fill mrg evl 2 (mkst [(0, 2)] [] [(1, 1)] [(2, 0)] [D; D; TEval 0 None] [] [(0, 0); (0, 1); (0, 2)] false) eq_refl eq_refl eq_refl)].
    eapply steps_step; [|refine (step_submit mrg evl 2 0 2 (mkst [] [] [(1, 1)] [(2, 0)] [D; D; TEval 0 None] [] [(0, 0); (0, 1)] false) _); cbn; lia].
    eapply steps_step; [|refine (step_wait_some mrg evl 2 1 (mkst [] [(1, 1)] [] [(2, 0)] [D; D; TEval 0 None] [] [(0, 0); (0, 1)] true) eq_refl eq_refl _ eq_refl); now left].
    eapply steps_step; [|exact (step_fill mrg evl 2 (mkst [] [(1, 1)] [(0, 0)] [] [D; D] [] [(0, 0); (0, 1)] false) eq_refl eq_refl eq_refl)].
    eapply steps_step; [|refine (step_wait_some mrg evl 2 0 (mkst [] [(0, 0); (1, 1)] [] [] [D; D] [] [(0, 0); (0, 1)] true) eq_refl eq_refl _ eq_refl); now left].
    eapply steps_step; [|refine (step_finish mrg evl 2 1 (TMerge 0 None) D [D] [] (mkst [] [(0, 0); (1, 1)] [] [] [D; TMerge 0 None] [] [(0, 0); (0, 1)] true) eq_refl eq_refl _); now constructor].
    eapply steps_step; [|refine (step_finish mrg evl 2 0 (TMerge 0 None) D [] [TMerge 0 None] (mkst [] [(0, 0); (1, 1)] [] [] [TMerge 0 None; TMerge 0 None] [] [(0, 0); (0, 1)] true) eq_refl eq_refl _); now constructor].
    eapply steps_step; [|exact (step_fill mrg evl 2 (mkst [(0, 0); (0, 1)] [] [] [] [] [] [(0, 0); (0, 1)] false) eq_refl eq_refl eq_refl)].
    eapply steps_step; [|refine (step_submit mrg evl 2 0 1 (mkst [(0, 0)] [] [] [] [] [] [(0, 0)] false) _); cbn; lia].
    eapply steps_step; [apply steps_refl|]. refine (step_submit mrg evl 2 0 0 initial _). cbn. tauto.
  - assert (Hfr : ~ In (List.length sub) (map snd sub)) by (rewrite Hs, in_seq; lia).
    pose proof (starving_cycle A B C m1 m2 f1 f2 m0 an sub x1 _ Hr Hm1 Hfr) as Hc. cbv zeta in Hc.
    do 12 eexists. split; [exact Hc|]. split; [exact Hm2|]. split.
    { instantiate (1 := 0).
      replace (((A ++ TEval m1 (Some (Scored x1)) :: B) ++ TEval m2 (Some (Scored x2)) :: C ++ [TMerge 0 (Some (Merged 0))])) with
        ((((A ++ TEval m1 (Some (Scored x1)) :: B) ++ TEval m2 (Some (Scored x2)) :: C) ++ [TMerge 0 (Some (Merged 0))])) by (now rewrite <- !app_assoc). 
      replace (List.length ((A ++ TEval m1 (Some (Scored x1)) :: B) ++ TEval m2 None :: C)) with (List.length ((A ++ TEval m1 (Some (Scored x1)) :: B) ++ TEval m2 (Some (Scored x2)) :: C)) by (rewrite !app_length; reflexivity).
      apply nth_mid. }
    split; [|split].
    + rewrite filter_app, app_length. cbn [filter]. unfold later_than_2 at 2. cbn [fst]. assert (He : early (List.length sub) = 0) by (unfold early; rewrite (proj2 (Nat.ltb_lt _ _)); lia).
      rewrite He. unfold early in *. destruct (Nat.ltb 2 f1); cbn [List.length]; lia.
    + rewrite map_app, app_length, Hs, seq_app. reflexivity.
    + rewrite app_length. cbn. lia.
Qed.

Theorem C43_starvation_refuted k : exists s : state nat nat nat,
  reach2 s /\ st_alive s = true /\ map snd (st_submitted s) = seq 0 (List.length (st_submitted s)) /\
  (k <= List.length (filter later_than_2 (st_answers s)))%nat /\ NoDup (map fst (st_answers s)) /\
  In 2 (map fst (st_merged s)) /\ ~ In 2 (map fst (st_answers s)).
Proof.
  destruct (starving_rounds (k + 2)) as (A & B & C & m1 & m2 & f1 & f2 & m0 & an & sub & x1 & x2 & Hr & _ & _ & Hk & Hs & Hl).
  eexists. split; [exact Hr|]. cbn [st_alive st_submitted st_answers st_merged map fst].
  destruct (C43_never_lost _ _ _ _ Hr eq_refl) as [Hnd Hp]. cbn [st_queue st_merging st_merged st_evaluating st_answers st_submitted map fst snd app] in Hp, Hnd.
  rewrite <- Hp in Hnd. repeat split; auto.
  - lia.
  - now do 3 apply NoDup_cons_iff in Hnd as [_ Hnd].
  - now left.
  - intros Hin. apply NoDup_cons_iff in Hnd as [Hni _]. apply Hni. right. now right.
Qed.
Print Assumptions C43_answer.
Print Assumptions C43_bounds.
Print Assumptions C43_never_lost.
Print Assumptions C43_all_answered_partial.
Print Assumptions C43_invalid_refuted.
Print Assumptions C43_starvation_refuted.

(** non-vacuity: the hypotheses of C43_all_answered hold for concrete runs; here a run that answers one request *)
Definition ex_run (i : nat) : state nat nat nat :=
  match i with
  | 0 => mkst [(7, 0)] [] [] [] [] [] [(7, 0)] false
  | 1 => mkst [] [(0, 0)] [] [] [TMerge 7 None] [] [(7, 0)] true
  | 2 => mkst [] [(0, 0)] [] [] [TMerge 7 (Some (Merged 7))] [] [(7, 0)] true
  | 3 => mkst [] [] [(0, 0)] [] [TMerge 7 (Some (Merged 7))] [] [(7, 0)] false
  | 4 => mkst [] [] [] [(1, 0)] [TMerge 7 (Some (Merged 7)); TEval 0 None] [] [(7, 0)] true
  | 5 => mkst [] [] [] [(1, 0)] [TMerge 7 (Some (Merged 7)); TEval 0 (Some (Scored 7))] [] [(7, 0)] true
  | S (S (S (S (S (S k))))) => mkst [] [] [] [] [TMerge 7 (Some (Merged 7)); TEval 0 (Some (Scored 7))] [(0, 7)] [(7, 0)] (Nat.odd k)
  end.
Definition ex_lab (i : nat) : label :=
  match i with
  | 0 | 3 => LFill | 1 | 4 => LFinish | 2 | 5 => LWait
  | S (S (S (S (S (S k))))) => if Nat.odd k then LWait else LFill
  end.
Example C43_nonvacuous : fair_run mrg evl 2 ex_run ex_lab /\ reach2 (ex_run 0) /\ no_failure mrg evl (ex_run 0).
Proof.
  split; [|split].
  - constructor.
    + intros i. split; [|do 6 (destruct i as [|i]; [cbn; tauto|]); cbn; destruct (Nat.odd i); tauto].
      destruct i as [|[|[|[|[|[|k]]]]]].
      * exact (step_fill mrg evl 2 (ex_run 0) eq_refl eq_refl eq_refl).
      * refine (step_finish mrg evl 2 0 (TMerge 7 None) (TMerge 7 (Some (Merged 7))) [] [] (ex_run 1) eq_refl eq_refl _). now constructor.
      * refine (step_wait_some mrg evl 2 0 (ex_run 2) eq_refl eq_refl _ eq_refl). now left.
      * exact (step_fill mrg evl 2 (ex_run 3) eq_refl eq_refl eq_refl).
      * refine (step_finish mrg evl 2 1 (TEval 0 None) (TEval 0 (Some (Scored 7))) [TMerge 7 (Some (Merged 7))] [] (ex_run 4) eq_refl eq_refl _).
        apply (ends_eval _ _ _ 0 7 7); reflexivity.
      * refine (step_wait_some mrg evl 2 1 (ex_run 5) eq_refl eq_refl _ eq_refl). now left.
      * unfold ex_run, ex_lab. replace (Nat.odd (S k)) with (negb (Nat.odd k)) by (now rewrite Nat.odd_succ, Nat.negb_odd). destruct (Nat.odd k); cbn [negb].
        -- refine (step_wait_none mrg evl 2 (mkst [] [] [] [] _ _ _ true) eq_refl eq_refl _). intros r [].
        -- exact (step_fill mrg evl 2 (mkst [] [] [] [] _ _ _ false) eq_refl eq_refl eq_refl).
    + intros i r Hr. exists (6 + i). split; [lia|]. assert (r = 0 \/ r = 1) as [-> | ->]; [|reflexivity..].
      do 6 (destruct i as [|i]; [cbn in Hr; lia|]). cbn in Hr. lia.
    + intros i l Hl. destruct (Nat.even i) eqn:Ei, Hl as [<-|[<-|[]]].
      * exists (6 + i). split; [lia|]. cbn. rewrite <- Nat.negb_even, Ei. reflexivity.
      * exists (7 + i). split; [lia|]. unfold ex_lab. cbn [Nat.add]. rewrite Nat.odd_succ, Ei. reflexivity.
      * exists (7 + i). split; [lia|]. unfold ex_lab. cbn [Nat.add]. rewrite Nat.odd_succ, Ei. reflexivity.
      * exists (6 + i). split; [lia|]. cbn. rewrite <- Nat.negb_even, Ei. reflexivity.
  - eapply steps_step; [apply steps_refl|]. refine (step_submit mrg evl 2 7 0 initial _). cbn. tauto.
  - split.
    + intros x f o _ ->. eauto.
    + intros x f p o _ _ ->. eauto.
Qed.
