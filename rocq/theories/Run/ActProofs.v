(** What the run does to the writer. *)
From Coq Require Import QArith Lia Permutation.
From Verif.Base Require Import Py PyStr PyFacts.
From Verif.Config Require Import Model.
From Verif.Arch Require Import Model.
From Verif.Plan Require Import Model.
From Verif.Graph Require Import Model Spec UniverseProofs ScheduleProofs ExecProofs Proofs.
From Verif.IO Require Import Model Spec FsProofs WriterProofs RunProofs.
From Verif.IO Require Props.
From Verif.Run Require Import Model Spec Proofs.
Local Open Scope string_scope.
Local Open Scope list_scope.

Section Acts.
Context {M : Type} `{Eqb M} {T K : Type}.
Variable E : env M T K.
Variable A : attrs (lbl M).

(** the tensors saved by a list of reported tasks *)
Definition saved (y : list (nat * value M T K)) : list (string * T) :=
  flat_map (fun hv => match snd hv with VSaved n (Some t) => [(n, t)] | _ => [] end) y.
Lemma saved_In y n t : In (n, t) (saved y) <-> exists h, In (h, VSaved n (Some t)) y.
Proof.
  unfold saved. rewrite in_flat_map. split.
  - intros ([h v] & Hin & Hv). cbn in Hv. destruct v; cbn in Hv; try easy. destruct x; [|easy].
    destruct Hv as [[= -> ->]|[]]. eauto.
  - intros (h & Hin). eexists. split; [exact Hin|]. cbn. auto.
Qed.
Lemma saved_NoDup y : NoDup (map fst y) ->
  (forall h1 h2 n t1 t2, In (h1, VSaved n (Some t1)) y -> In (h2, VSaved n (Some t2)) y -> h1 = h2) ->
  NoDup (map fst (saved y)).
Proof.
  induction y as [|[h v] y IH]; cbn; intros HN Hu; [constructor|]. inversion HN as [|? ? Hn HN']; subst.
  assert (IH' : NoDup (map fst (saved y))) by (apply IH; auto; intros; eapply Hu; right; eassumption).
  destruct v; cbn; auto. destruct x; cbn; auto. constructor; auto.
  intros Hin. apply in_map_iff in Hin as ([n' t'] & En & Hin). cbn in En. subst n'. apply saved_In in Hin as (h' & Hin).
  assert (h = h') by (eapply Hu; [left; reflexivity|right; exact Hin]). subst h'.
  apply Hn. apply in_map_iff. exists (h, VSaved name (Some t')). auto.
Qed.

Variable tok : bool.
Variable saves : list (save_task M).
Hypothesis good_saves : forall s, In s saves -> good_task E (sv_task s).
Hypothesis names_distinct : NoDup (map sv_name saves).
Variable choose : nat -> list nat -> nat.
Notation ts := (disk_targets E tok saves).
Notation r := (run E A choose ts).

Lemma name_inj s1 s2 : In s1 saves -> In s2 saves -> sv_name s1 = sv_name s2 -> s1 = s2.
Proof.
  clear good_saves. induction saves as [|s l IH]; cbn in *; [tauto|]. inversion names_distinct as [|? ? Hn HN]; subst.
  intros [->|H1] [->|H2] En; auto.
  - destruct Hn. rewrite En. now apply in_map.
  - destruct Hn. rewrite <- En. now apply in_map.
Qed.

Lemma outputs_In n t : In (n, t) (outputs E saves) <-> exists s, In s saves /\ sv_name s = n /\ output E s = Ok (Some t).
Proof.
  unfold outputs. rewrite in_flat_map. split.
  - intros (s & Hs & Hin). exists s. destruct (output E s) as [[x|]|]; try easy. destruct Hin as [[= -> ->]|[]]. auto.
  - intros (s & Hs & <- & Ho). exists s. rewrite Ho. cbn. auto.
Qed.
Lemma outputs_NoDup : NoDup (map fst (outputs E saves)).
Proof.
  clear good_saves. unfold outputs. induction saves as [|s l IH]; cbn in *; [constructor|].
  inversion names_distinct as [|? ? Hn HN]; subst. rewrite map_app. apply NoDup_app_intro.
  - destruct (output E s) as [[x|]|]; cbn; repeat constructor; auto.
  - auto.
  - intros n H1 H2. destruct (output E s) as [[x|]|]; cbn in H1; try easy. destruct H1 as [<-|[]].
    apply in_map_iff in H2 as ([n' t] & En & Hin). cbn in En. subst n'. apply Hn.
    apply in_flat_map in Hin as (s' & Hs' & Hin). apply in_map_iff. exists s'. split; auto.
    destruct (output E s') as [[y|]|]; cbn in Hin; try easy. destruct Hin as [[= -> ->]|[]]. reflexivity.
Qed.

(** which target gives which value *)
Lemma target_value t v : In t ts -> eval A (sem E) no_env t = Ok v ->
  (exists s x, In s saves /\ t = save_node E s /\ v = VSaved (sv_name s) x /\ output E s = Ok x) \/
  (t = finalize_node (map (save_node E) saves) /\ v = VFinalized) \/
  (t = tokenizer_task /\ exists k, v = VTok k).
Proof.
  intros Ht Ev. unfold disk_targets in Ht. rewrite !in_app_iff in Ht. destruct Ht as [Ht|[[<-|[]]|Ht]].
  - left. apply in_map_iff in Ht as (s & <- & Hs). rewrite eval_save in Ev by auto.
    destruct (output E s) as [x|] eqn:Eo; cbn in Ev; [|discriminate]. injection Ev as <-. eauto 10.
  - right. left. split; auto. unfold finalize_node in Ev. rewrite eval_node in Ev.
    destruct (rmapM _ _) as [vs|]; cbn [rbind exec] in Ev; [|discriminate].
    destruct (dget vs "writer") as [[]|]; try discriminate. congruence.
  - right. right. destruct tok; [|easy]. destruct Ht as [<-|[]]. split; auto. unfold tokenizer_task in Ev.
    rewrite eval_node in Ev. cbn [rmapM rbind exec] in Ev. destruct (e_tokenizer E); cbn in Ev; [|discriminate].
    injection Ev as <-. eauto.
Qed.

(** a run finishes exactly when everything can be computed *)
Lemma run_ok : snd r = None <-> computable E tok saves.
Proof.
  pose proof (run_tasks_spec A (sem E) choose ts (wf_targets E tok saves)) as HS. cbv zeta in HS. fold r in HS.
  destruct HS as (Hy & Hnd & Hall & Herr & Hok). split.
  - intros Est. split.
    + intros s Hs. destruct (Hall Est (save_node E s)) as (h & v & Hn & Hin).
      { unfold disk_targets. rewrite !in_app_iff. left. now apply in_map. }
      destruct (Hy _ _ Hin) as (t & Hn' & _ & Ev). unfold names in *. assert (t = save_node E s) by congruence. subst t.
      rewrite eval_save in Ev by auto. destruct (output E s) as [x|]; [eauto|discriminate].
    + intros Htok. destruct (Hall Est tokenizer_task) as (h & v & Hn & Hin).
      { unfold disk_targets. rewrite Htok, !in_app_iff. right. right. now left. }
      destruct (Hy _ _ Hin) as (t & Hn' & _ & Ev). unfold names in *. assert (t = tokenizer_task) by congruence. subst t.
      unfold tokenizer_task in Ev. rewrite eval_node in Ev. cbn [rmapM rbind exec] in Ev.
      destruct (e_tokenizer E) as [k|]; [eauto|discriminate].
  - intros [Hs Htok]. apply Hok. intros t Ht. unfold disk_targets in Ht. rewrite !in_app_iff in Ht.
    destruct Ht as [Ht|[[<-|[]]|Ht]].
    + apply in_map_iff in Ht as (s & <- & Hin). rewrite eval_save by auto. destruct (Hs s Hin) as (x & ->). cbn. eauto.
    + exists VFinalized. apply eval_finalize; auto.
    + destruct tok; [|easy]. destruct Ht as [<-|[]]. unfold tokenizer_task. rewrite eval_node. cbn [rmapM rbind exec].
      destruct (Htok eq_refl) as (k & ->). cbn. eauto.
Qed.

(** the calls on the writer: some saves, or all of them followed by finalize *)
Lemma run_acts : exists sv,
  (acts (fst r) = map (fun nt => ASave (fst nt) (snd nt)) sv ++ [AFinalize] /\ Permutation sv (outputs E saves) /\
   forall s, In s saves -> exists x, output E s = Ok x) \/
  (snd r <> None /\ acts (fst r) = map (fun nt => ASave (fst nt) (snd nt)) sv /\
   NoDup (map fst sv) /\ forall nt, In nt sv -> In nt (outputs E saves)).
Proof.
  unfold run, executor_run_tasks.
  destruct (run_tasks_good (V:=value M T K) ts (wf_targets E tok saves)) as (hs & Eh & HF2 & HG). rewrite Eh. cbn [snd].
  set (u := add_tasks ts empty_universe) in *.
  assert (Hts : forall h t, In h hs -> names u h t -> In t ts).
  { intros h t Hh Hn. clearbody u. clear -HF2 Hh Hn. induction HF2 as [|t' h' l l' Hn' HF IH]; [destruct Hh|].
    destruct Hh as [->|Hh]; [left; unfold names in *; congruence|right; auto]. }
  assert (Hhs : forall t, In t ts -> exists h, In h hs /\ names u h t).
  { intros t Ht. clearbody u. clear -HF2 Ht. induction HF2 as [|t' h' l l' Hn' HF IH]; [destruct Ht|].
    destruct Ht as [->|Ht]; [exists h'; split; [now left|auto]|]. destruct (IH Ht) as (h & ? & ?).
    exists h. split; [now right|auto]. }
  assert (HU : NoDup (u_tasks u)) by apply HG.
  set (evs := fst (executor_run A (sem E) choose u hs [])). set (st := snd (executor_run A (sem E) choose u hs [])).
  assert (HV : forall h v, In (h, v) (yields evs) -> exists t, names u h t /\ In t ts /\ eval A (sem E) no_env t = Ok v).
  { intros h v Hin. destruct (run_yield_value A (sem E) choose u hs [] no_env HG h v Hin) as (t & Hn & Hh & Hev). eauto. }
  assert (HY : NoDup (map fst (yields evs))) by exact (run_yield_nodup A (sem E) choose u hs [] no_env HG).
  assert (Huniq : forall h1 h2 n t1 t2, In (h1, VSaved n (Some t1)) (yields evs) -> In (h2, VSaved n (Some t2)) (yields evs) -> h1 = h2).
  { intros h1 h2 n t1 t2 H1 H2. destruct (HV _ _ H1) as (x1 & N1 & I1 & V1). destruct (HV _ _ H2) as (x2 & N2 & I2 & V2).
    destruct (target_value _ _ I1 V1) as [(s1 & y1 & S1 & -> & Ev1 & _)|[(-> & ?)|(-> & k & ?)]]; try discriminate.
    destruct (target_value _ _ I2 V2) as [(s2 & y2 & S2 & -> & Ev2 & _)|[(-> & ?)|(-> & k & ?)]]; try discriminate.
    assert (s1 = s2) by (apply name_inj; auto; congruence). subst s2. eapply names_inj; eauto. }
  assert (Hsave : forall n t, In (n, t) (saved (yields evs)) -> In (n, t) (outputs E saves)).
  { intros n t Hin. apply saved_In in Hin as (h & Hin). destruct (HV _ _ Hin) as (x & N & I & V).
    destruct (target_value _ _ I V) as [(s & y & S & -> & Ev & Eo)|[(-> & ?)|(-> & k & ?)]]; try discriminate.
    injection Ev as -> <-. apply outputs_In. eauto. }
  assert (Hfin : In (finalize_node (map (save_node E) saves)) ts).
  { unfold disk_targets. rewrite !in_app_iff. right. left. now left. }
  destruct (Hhs _ Hfin) as (hf & Hf & Nf).
  destruct (in_dec Nat.eq_dec hf (map fst (yields evs))) as [Hin|Hnin].
  - (* finalized *)
    apply in_map_iff in Hin as ([h v] & Eh' & Hin). cbn in Eh'. subst h.
    destruct (in_split _ _ Hin) as (y1 & y2 & Ey).
    destruct (HV _ _ Hin) as (x & N & I & V). assert (x = finalize_node (map (save_node E) saves)) by (unfold names in *; congruence).
    subst x. destruct (target_value _ _ I V) as [(s & y & _ & Et & _)|[(_ & ->)|(Et & _)]]; try discriminate.
    assert (Hbefore : forall s, In s saves -> exists h, names u h (save_node E s) /\ In h (map fst y1)).
    { intros s Hs. destruct (Hhs (save_node E s)) as (h & Hh & Nh).
      { unfold disk_targets. rewrite !in_app_iff. left. now apply in_map. }
      exists h. split; auto. eapply (yield_order A (sem E) choose u hs [] no_env HG); [exact Ey| |exact Hh|intros []].
      assert (Ht : In (save_node E s) (map (save_node E) saves)) by now apply in_map.
      rewrite <- (enum_snd _ 0) in Ht. apply in_map_iff in Ht as ([i t'] & Et & Hi). cbn in Et. subst t'.
      exists (finalize_node (map (save_node E) saves)), (unused i), (save_node E s). split; auto. split; auto.
      cbn. right. apply in_map_iff. exists (i, save_node E s). auto. }
    rewrite Ey, map_app in HY. cbn in HY.
    assert (H2 : forall h v, In (h, v) y2 -> exists k, v = VTok k).
    { intros h v Hin2. destruct (HV h v) as (x & N2 & I2 & V2); [rewrite Ey, in_app_iff; right; now right|].
      destruct (target_value _ _ I2 V2) as [(s & y & Hs & -> & _)|[(-> & _)|(_ & Hk)]]; auto; exfalso.
      - destruct (Hbefore s Hs) as (h' & N' & Hin'). assert (h' = h) by (eapply names_inj; eauto). subst h'.
        apply NoDup_remove_1 in HY. apply NoDup_app_inv in HY as (_ & _ & HY). apply (HY h Hin').
        apply in_map_iff. exists (h, v). auto.
      - assert (h = hf) by (eapply names_inj; eauto). subst h. apply NoDup_remove_2 in HY. apply HY.
        rewrite in_app_iff. right. apply in_map_iff. exists (hf, v). auto. }
    assert (H1 : forall h v, In (h, v) y1 -> v <> VFinalized).
    { intros h v Hin1 ->. destruct (HV h VFinalized) as (x & N1 & I1 & V1); [rewrite Ey, in_app_iff; now left|].
      destruct (target_value _ _ I1 V1) as [(s & y & _ & _ & Ev & _)|[(-> & _)|(_ & k & Ev)]]; try discriminate.
      assert (h = hf) by (eapply names_inj; eauto). subst h. apply NoDup_remove_2 in HY. apply HY.
      rewrite in_app_iff. left. apply in_map_iff. exists (hf, VFinalized). auto. }
    exists (saved y1). left. split; [|split].
    3: { intros s Hs. destruct (Hbefore s Hs) as (h & Nh & Hh).
         apply in_map_iff in Hh as ([h' v] & Eh' & Hh). cbn in Eh'. subst h'.
         destruct (HV h v) as (x & N1 & _ & V1); [rewrite Ey, in_app_iff; now left|].
         assert (x = save_node E s) by (unfold names in *; congruence). subst x. rewrite eval_save in V1 by auto.
         destruct (output E s) as [x|]; [eauto|discriminate]. }
    + unfold acts. fold evs. rewrite Ey, flat_map_app. cbn [flat_map snd acts_of app]. f_equal.
      * clear -H1. induction y1 as [|[h v] y IH]; cbn; auto. rewrite IH by (intros; eapply H1; right; eauto).
        specialize (H1 h v (or_introl eq_refl)). destruct v; cbn; auto; [|congruence]. now destruct x.
      * f_equal. clear -H2. induction y2 as [|[h v] y IH]; cbn; auto. rewrite IH by (intros; eapply H2; right; eauto).
        destruct (H2 h v (or_introl eq_refl)) as (k & ->). reflexivity.
    + assert (HN1 : NoDup (map fst (saved y1))).
      { apply saved_NoDup.
        - now apply NoDup_app_inv in HY.
        - intros h1 h2 n t1 t2 I1 I2. apply (Huniq h1 h2 n t1 t2); rewrite Ey, in_app_iff; now left. }
      apply NoDup_Permutation.
      * apply (NoDup_map_inv fst). exact HN1.
      * apply (NoDup_map_inv fst). apply outputs_NoDup.
      * intros [n t]. split.
        -- intros Hi. apply Hsave. rewrite Ey. unfold saved. rewrite flat_map_app, in_app_iff. left. exact Hi.
        -- intros Hi. apply outputs_In in Hi as (s & Hs & <- & Ho). destruct (Hbefore s Hs) as (h & Nh & Hh).
           apply in_map_iff in Hh as ([h' v] & Eh' & Hh). cbn in Eh'. subst h'.
           destruct (HV h v) as (x & N1 & _ & V1); [rewrite Ey, in_app_iff; now left|].
           assert (x = save_node E s) by (unfold names in *; congruence). subst x. rewrite eval_save in V1 by auto.
           rewrite Ho in V1. cbn in V1. injection V1 as <-. apply saved_In. eauto.
  - (* not finalized *)
    exists (saved (yields evs)). right. split; [|split; [|split]].
    + intros Est. apply Hnin. destruct (run_yield_all A (sem E) choose u hs [] no_env HG hf Est Hf) as (v & Hv); [intros []|].
      apply in_map_iff. exists (hf, v). auto.
    + unfold acts. fold evs.
      assert (H1 : forall h v, In (h, v) (yields evs) -> v <> VFinalized).
      { intros h v Hin1 ->. destruct (HV h VFinalized Hin1) as (x & N1 & I1 & V1).
        destruct (target_value _ _ I1 V1) as [(s & y & _ & _ & Ev & _)|[(-> & _)|(_ & k & Ev)]]; try discriminate.
        assert (h = hf) by (eapply names_inj; eauto). subst h. apply Hnin. apply in_map_iff. exists (hf, VFinalized). auto. }
      clear -H1. induction (yields evs) as [|[h v] y IH]; cbn; auto. rewrite IH by (intros; eapply H1; right; eauto).
      specialize (H1 h v (or_introl eq_refl)). destruct v; cbn; auto; [|congruence]. now destruct x.
    + apply saved_NoDup; auto.
    + intros [n t]. apply Hsave.
Qed.
End Acts.

(** ** the files *)
Section Files.
Context {T : Type} (nbytes : T -> nat).
Implicit Types w : writer T.
Notation save_acts sv := (map (fun nt : string * T => ASave (fst nt) (snd nt)) sv).

Fixpoint after_saves w (sv : list (string * T)) : writer T :=
  match sv with [] => w | (n, t) :: r => after_saves (fst (save_tensor nbytes w n t)) r end.
Lemma ops_app w sv l : ops_of nbytes w (save_acts sv ++ l) = ops_of nbytes w (save_acts sv) ++ ops_of nbytes (after_saves w sv) l.
Proof.
  revert w. induction sv as [|[n t] sv IH]; intros w; cbn [map app ops_of after_saves fst snd]; auto.
  destruct (save_tensor nbytes w n t) as [w' j]. cbn [fst]. now rewrite IH, app_assoc.
Qed.
Lemma ops_complete w sv : ops_of nbytes w (save_acts sv ++ [AFinalize]) =
  (let (w', jobs) := save_all nbytes w sv in flat_map (fun j => write_file (fst j) (snd j)) jobs ++ finalize_ops w').
Proof.
  revert w. induction sv as [|[n t] sv IH]; intros w; cbn [map app ops_of save_all fst snd].
  - destruct (flush w) as [w' [j|]]; cbn [job_ops flat_map app]; now rewrite ?app_nil_r.
  - destruct (save_tensor nbytes w n t) as [w1 j]. rewrite IH. destruct (save_all nbytes w1 sv) as [w2 js].
    destruct j; cbn [job_ops flat_map app]; now rewrite ?app_assoc.
Qed.
Lemma save_cur w n t : w_cur (fst (save_tensor nbytes w n t)) <> [].
Proof.
  unfold save_tensor. destruct (match w_cur w with [] => _ | _ => _ end) as [w' j]. cbn [fst w_cur].
  destruct (w_cur w') as [|[k v] d]; cbn; [discriminate|]. destruct (eqb n k); discriminate.
Qed.
Lemma after_cur sv : forall w, w_cur w <> [] -> w_cur (after_saves w sv) <> [].
Proof. induction sv as [|[n t] sv IH]; cbn; auto. intros w _. apply IH. apply save_cur. Qed.

Lemma unfinished safe max sv : exists f', apply_all (ops_of nbytes (new_writer safe None max) (save_acts sv)) [] = Ok f' /\ unreadable f'.
Proof.
  destruct sv as [|[n t] sv']; [exists []; split; [reflexivity|]; exists RuntimeError; reflexivity|].
  set (sv := (n, t) :: sv'). pose proof (ops_complete (new_writer safe None max) sv) as HC. rewrite ops_app in HC.
  destruct (save_all nbytes (new_writer safe None max) sv) as [w jobs] eqn:Es.
  destruct (cut_unreadable nbytes safe max sv w jobs _ _ _ Es (merged_seq _) (eq_trans (f_equal (fun l => l ++ _) (eq_sym (flat_map_concat_map _ _))) (eq_sym HC))) as (f1 & H1 & H2); eauto.
  cbn [ops_of]. assert (Hc : w_cur (after_saves (new_writer safe None max) sv) <> []).
  { cbn [after_saves sv]. apply after_cur, save_cur. }
  unfold flush. destruct (w_cur (after_saves (new_writer safe None max) sv)); [congruence|]. cbn. discriminate.
Qed.

Lemma last_saved_In (l : list (string * T)) n t : NoDup (map fst l) -> (last_saved l n t <-> In (n, t) l).
Proof.
  intros HN. split.
  - intros (l1 & l2 & -> & _). rewrite in_app_iff. right. now left.
  - intros Hin. destruct (in_split _ _ Hin) as (l1 & l2 & ->). exists l1, l2. split; auto.
    rewrite map_app in HN. cbn in HN. apply NoDup_remove_2 in HN. intros Hi. apply HN. rewrite in_app_iff. auto.
Qed.
Lemma loads_always_perm (f : fs T) l l' : Permutation l l' -> NoDup (map fst l) -> loads_always f l -> loads_always f l'.
Proof.
  intros HP HN (ix & H1 & H2 & H3). exists ix. split; auto. split.
  - intros n. rewrite H2. split; apply Permutation_in; apply Permutation_map; [auto|now apply Permutation_sym].
  - intros hist n t Hl. apply H3. apply last_saved_In; auto.
    apply last_saved_In in Hl; [|eapply Permutation_NoDup; [apply Permutation_map; exact HP|auto]].
    eapply Permutation_in; [apply Permutation_sym; exact HP|auto].
Qed.
End Files.
