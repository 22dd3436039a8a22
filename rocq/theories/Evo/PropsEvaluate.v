(** C73: evaluating the genotypes of an evolutionary search. *)
From Coq Require Import QArith Qabs Lqa Permutation.
From Verif.Base Require Import Py PyFacts PyStr.
From Verif.Config Require Import Model Spec Proofs.
From Verif.Common Require Import Model Lora LoraProofs.
From Verif.Evo Require Import Model Spec Proofs PropsGenome PropsGenomeMore Evaluate Examples.
Local Open Scope string_scope.
Local Open Scope list_scope.

(** ** Benchmarks *)
Definition benchmarks : list string :=
  ["mmlu"; "hendrycks"; "agieval"; "gsm8k"; "hellaswag"; "winogrande"; "arc_"; "ai2_arc"; "truthfulqa"; "bigbench"; "piqa";
   "openbookqa"; "leaderboard"].
Definition common_benchmark (name : string) : Prop :=
  (exists p rest, In p benchmarks /\ name = (p ++ rest)%string) /\ ~ exists stem, name = (stem ++ "_train")%string.

Lemma prefix_iff p s : String.prefix p s = true <-> exists r, s = (p ++ r)%string.
Proof.
  revert s. induction p as [|c p IH]; intros s; cbn [String.prefix String.append].
  - split; [eauto|intros _; now destruct s].
  - destruct s as [|c' s]; [split; [discriminate|intros (r & E); discriminate]|]. cbn [String.prefix]. destruct (ascii_dec c c') as [<-|Hc].
    + rewrite IH. split; intros (r & E); exists r; congruence.
    + split; [discriminate|intros (r & E); congruence].
Qed.
Lemma substring_app_end a b : substring (String.length a) (String.length b) (a ++ b)%string = b.
Proof.
  induction a as [|c a IH]; cbn [String.length String.append substring]; [|exact IH].
  induction b as [|c b IH]; cbn [String.length substring]; [reflexivity|]. now rewrite IH.
Qed.
Lemma take_drop_string s n : (n <= String.length s)%nat -> s = (substring 0 n s ++ substring n (String.length s - n) s)%string.
Proof.
  revert n. induction s as [|c s IH]; intros [|n] Hn; cbn [String.length substring String.append Nat.sub] in *; [reflexivity|lia| |].
  - f_equal. clear. induction s as [|c s IH]; cbn [String.length substring]; [reflexivity|]. now f_equal.
  - f_equal. apply IH. lia.
Qed.
Lemma ends_with_iff s suf : ends_with s suf = true <-> exists stem, s = (stem ++ suf)%string.
Proof.
  unfold ends_with. rewrite andb_true_iff, Nat.leb_le, String.eqb_eq. split.
  - intros (Hl & E). exists (substring 0 (String.length s - String.length suf) s). rewrite (take_drop_string s (String.length s - String.length suf)) at 1 by lia.
    f_equal. replace (String.length s - (String.length s - String.length suf))%nat with (String.length suf) by lia. exact E.
  - intros (stem & ->). rewrite len_app. split; [lia|]. replace (String.length stem + String.length suf - String.length suf)%nat with (String.length stem) by lia. apply substring_app_end.
Qed.
(** A configuration is refused exactly if it optimises for a common benchmark and this was not allowed explicitly. *)
Theorem C73_naughty tasks allow : check_naughty tasks allow = Ok tt <-> allow = true \/ forall t, In t tasks -> ~ common_benchmark (tk_name t).
Proof.
  assert (Hin : forall t ps acc, fold_left (fun acc p => let! _ := acc in if String.prefix p (tk_name t) then if ends_with (tk_name t) "_train" then Ok tt else if allow then Ok tt else Err ValueError else Ok tt) ps acc = Ok tt <->
            acc = Ok tt /\ (allow = true \/ ends_with (tk_name t) "_train" = true \/ forall p, In p ps -> String.prefix p (tk_name t) = false)).
  { intros t ps. induction ps as [|p ps IH]; intros acc; cbn [fold_left].
    - split; [intros ->; split; [reflexivity|right; right; intros p []]|now intros [-> _]].
    - rewrite IH. destruct acc as [[]|e]; cbn [rbind]; [|split; [intros [H _]; discriminate|intros [H _]; discriminate]].
      destruct (String.prefix p (tk_name t)) eqn:Ep; destruct (ends_with (tk_name t) "_train"), allow; cbn; split; intros [H1 H2]; split; auto; try discriminate.
      + destruct H2 as [H2|[H2|H2]]; try discriminate. now rewrite (H2 p (or_introl eq_refl)) in Ep.
      + destruct H2 as [H2|[H2|H2]]; try discriminate. now rewrite (H2 p (or_introl eq_refl)) in Ep.
      + destruct H2 as [H2|[H2|H2]]; try discriminate. right; right. intros p' [<-|Hp']; auto.
      + destruct H2 as [H2|[H2|H2]]; try discriminate. right; right. auto. }
  assert (Hout : forall ts acc, fold_left (fun acc t => fold_left (fun acc p => let! _ := acc in if String.prefix p (tk_name t) then if ends_with (tk_name t) "_train" then Ok tt else if allow then Ok tt else Err ValueError else Ok tt) naughty_prefixes acc) ts acc = Ok tt <->
            acc = Ok tt /\ forall t, In t ts -> allow = true \/ ends_with (tk_name t) "_train" = true \/ forall p, In p naughty_prefixes -> String.prefix p (tk_name t) = false).
  { induction ts as [|t ts IH]; intros acc; cbn [fold_left]; [split; [intros ->; split; [reflexivity|intros t []]|now intros [-> _]]|].
    rewrite IH, Hin. split; [intros ((H1 & H2) & H3); split; auto; intros t' [<-|Ht']; auto|intros (H1 & H2); split; [split; auto|]; intros; apply H2; cbn; auto]. }
  unfold check_naughty. rewrite Hout. destruct allow; [split; [auto|intros _; split; [reflexivity|auto]]|]. split.
  - intros (_ & H). right. intros t Ht ((p & rest & Hp & E) & Hn). destruct (H t Ht) as [H1|[H1|H1]]; [discriminate|apply Hn; now apply ends_with_iff|].
    specialize (H1 p Hp). assert (String.prefix p (tk_name t) = true) by (apply prefix_iff; eauto). congruence.
  - intros [H|H]; [discriminate|]. split; [reflexivity|]. intros t Ht. right. destruct (ends_with (tk_name t) "_train") eqn:Ee; [auto|]. right. intros p Hp.
    destruct (String.prefix p (tk_name t)) eqn:Ep; [|reflexivity]. exfalso. apply (H t Ht). split; [apply prefix_iff in Ep as (r & E); eauto|]. intros Hs. apply ends_with_iff in Hs. congruence.
Qed.

(** ** Scores *)
Definition metric_of (res : results) (t : task) : option Q := match dget res (tk_name t) with Some row => dget row (tk_metric t) | None => None end.
Definition qsum (l : list Q) : Q := fold_right Qplus 0%Q l.
(** The score is the weighted sum of the metrics asked for; it exists exactly if they are all reported. *)
Theorem C73_score tasks res :
  (forall ms, Forall2 (fun t m => metric_of res t = Some m) tasks ms -> exists s, score tasks res = Ok s /\ (s == qsum (map (fun tm => snd tm * tk_weight (fst tm)) (combine tasks ms)))%Q) /\
  ((exists t, In t tasks /\ metric_of res t = None) -> score tasks res = Err KeyError).
Proof.
  unfold score. set (stepf := fun (acc : result Q) (t : task) => let! s := acc in _).
  assert (Herr : forall ts e, fold_left stepf ts (Err e) = Err e) by (induction ts; cbn; auto).
  assert (Hstep : forall t a, stepf (Ok a) t = match metric_of res t with Some m => Ok (a + m * tk_weight t)%Q | None => Err KeyError end).
  { intros t a. unfold stepf, metric_of, dgetE. cbn [rbind]. destruct (dget res (tk_name t)) as [row|]; cbn [rbind]; [|reflexivity]. now destruct (dget row (tk_metric t)). }
  clearbody stepf. split.
  - intros ms H. assert (G : forall a, exists s, fold_left stepf tasks (Ok a) = Ok s /\ (s == a + qsum (map (fun tm => snd tm * tk_weight (fst tm)) (combine tasks ms)))%Q).
    { induction H as [|t m ts ms Hm _ IH]; intros a; cbn [fold_left combine map]; [exists a; split; [reflexivity|cbn; ring]|].
      rewrite Hstep, Hm. destruct (IH (a + m * tk_weight t)%Q) as (s & -> & E). exists s. split; [reflexivity|]. unfold qsum in *. cbn [fold_right fst snd]. rewrite E. ring. }
    destruct (G 0%Q) as (s & Hs & E). exists s. split; [exact Hs|]. rewrite E. ring.
  - intros (t & Ht & Hm). generalize 0%Q. induction tasks as [|t' ts IH]; intros a; [contradiction|]. cbn [fold_left]. rewrite Hstep. destruct Ht as [->|Ht]; [rewrite Hm; apply Herr|].
    destruct (metric_of res t'); [auto|apply Herr].
Qed.
(** The order in which the tasks are listed does not matter. *)
Theorem C73_score_order tasks tasks' res s : Permutation tasks tasks' -> score tasks res = Ok s -> exists s', score tasks' res = Ok s' /\ (s == s')%Q.
Proof.
  intros HP Hs. assert (Hall : forall t, In t tasks -> exists m, metric_of res t = Some m).
  { intros t Ht. destruct (metric_of res t) as [m|] eqn:Em; [eauto|]. destruct (C73_score tasks res) as (_ & H). rewrite H in Hs by eauto. discriminate. }
  set (val := fun t => match metric_of res t with Some m => m | None => 0%Q end).
  assert (HF : forall ts, (forall t, In t ts -> In t tasks) -> Forall2 (fun t m => metric_of res t = Some m) ts (map val ts)).
  { induction ts as [|t ts IH]; cbn [map]; intros H; constructor; [|apply IH; intros; apply H; now right]. destruct (Hall t (H t (or_introl eq_refl))) as (m & Hm). unfold val. now rewrite Hm. }
  assert (Hc : forall ts, map (fun tm : task * Q => (snd tm * tk_weight (fst tm))%Q) (combine ts (map val ts)) = map (fun t => (val t * tk_weight t)%Q) ts) by (induction ts; cbn; congruence).
  destruct (proj1 (C73_score tasks res) _ (HF tasks (fun t H => H))) as (s1 & E1 & Q1). destruct (proj1 (C73_score tasks' res) _ (HF tasks' (fun t H => Permutation_in _ (Permutation_sym HP) H))) as (s2 & E2 & Q2).
  rewrite Hc in Q1, Q2. exists s2. split; [exact E2|]. assert (s = s1) as -> by congruence. rewrite Q1, Q2.
  assert (G : forall l l' : list Q, Permutation l l' -> (qsum l == qsum l')%Q).
  { intros l l' H. unfold qsum. induction H; cbn [fold_right]; [reflexivity|now rewrite IHPermutation|ring|now rewrite IHPermutation1]. }
  apply G. now apply Permutation_map.
Qed.

(** The harness is asked for every task, once: of a harness that reports on what it is asked for and on nothing else, a model gets
    the weighted sum of its own metrics. *)
Theorem C73_asked {Content} (harness : Content -> list string -> result results) as_list tasks (reports : Content -> string -> dict string Q) x ms :
  (forall l, NoDup (as_list l) /\ forall n, In n (as_list l) <-> In n l) ->
  (forall names, NoDup names -> exists res, harness x names = Ok res /\
     forall n, dget res n = if mem n names then Some (reports x n) else None) ->
  Forall2 (fun t m => dget (reports x (tk_name t)) (tk_metric t) = Some m) tasks ms ->
  exists s, eval_model harness as_list tasks x = Ok s /\ (s == qsum (map (fun tm => snd tm * tk_weight (fst tm)) (combine tasks ms)))%Q.
Proof.
  intros Hl Hh Hm. unfold eval_model. destruct (Hl (map tk_name tasks)) as (Hnd & Hin). destruct (Hh _ Hnd) as (res & -> & Hres). cbn [rbind].
  apply C73_score. assert (Hk : forall t, In t tasks -> dget res (tk_name t) = Some (reports x (tk_name t))).
  { intros t Ht. rewrite Hres. assert (E : mem (tk_name t) (as_list (map tk_name tasks)) = true) by (apply mem_In, Hin, in_map, Ht). now rewrite E. }
  clear -Hm Hk. induction Hm as [|t m ts ms Hm _ IH]; constructor; [|apply IH; intros; apply Hk; now right].
  unfold metric_of. rewrite Hk by now left. exact Hm.
Qed.
Example C73_asked_nonvacuous :
  let harness := fun (x : Q) (names : list string) => Ok (map (fun n => (n, [("acc", x)])) names) in
  (forall names, NoDup names -> exists res, harness 3%Q names = Ok res /\ forall n, dget res n = if mem n names then Some [("acc", 3%Q)] else None) /\
  eval_model harness dedup [{| tk_name := "a"; tk_weight := 2; tk_metric := "acc" |}; {| tk_name := "b"; tk_weight := 1; tk_metric := "acc" |}] 3%Q = Ok 9%Q.
Proof.
  cbv zeta. split; [|reflexivity]. intros names _. eexists. split; [reflexivity|]. intros n. induction names as [|n' names IH]; [reflexivity|].
  cbn [map dget mem]. destruct (eqb n n'); [reflexivity|exact IH].
Qed.

(** ** The actor pool *)
Section Pool.
Context {Geno Cfg Content : Type}.
Variable configure : Geno -> result (option Cfg).
Variable run_merge : Cfg -> result Content.
Variable harness : Content -> list string -> result results.
Variable as_list : list string -> list string.
Variable tasks : list task.
Notation evalm := (eval_model harness as_list tasks).
Notation jstep := (job_step configure run_merge harness as_list tasks).
Notation run := (pool_run configure run_merge harness as_list tasks).
Notation pstep := (pool_step configure run_merge harness as_list tasks).
Notation disk := (dict nat (option Content)).

(** what evaluating one genotype alone gives *)
Definition alone (g : Geno) : result (option Q) :=
  let! oc := configure g in
  match oc with None => Ok None | Some c => let! x := run_merge c in let! s := evalm x in Ok (Some s) end.
Definition merge_fails (g : Geno) : Prop := exists c e, configure g = Ok (Some c) /\ run_merge c = Err e.

Definition dirs (j : job) : list nat := match j with Merging d | Merged d => [d] | _ => [] end.
Definition held (l : list (Geno * job)) : list nat := flat_map (fun gj => dirs (snd gj)) l.
Record inv (disk0 : disk) (gs : list Geno) (n : nat) (p : @pool Geno Content) : Prop := {
  i_gs : map fst (p_jobs p) = gs;
  i_old : forall d v, dget disk0 d = Some v -> dget (p_disk p) d = Some v;
  i_new : forall d, In d (held (p_jobs p)) -> dget disk0 d = None;
  i_unique : NoDup (held (p_jobs p));
  i_merging : forall g d, In (g, Merging d) (p_jobs p) -> dget (p_disk p) d = Some None /\ exists c, configure g = Ok (Some c);
  i_merged : forall g d, In (g, Merged d) (p_jobs p) -> exists c x, configure g = Ok (Some c) /\ run_merge c = Ok x /\ dget (p_disk p) d = Some (Some x);
  i_fin : forall g r, In (g, Finished r) (p_jobs p) -> r = alone g;
  i_leak : forall d v, dget (p_disk p) d = Some v -> dget disk0 d = None -> In d (held (p_jobs p)) \/ exists g, In g gs /\ merge_fails g;
  i_active : (active p <= n)%nat }.

Lemma held_app a b : held (a ++ b) = held a ++ held b. Proof. apply flat_map_app. Qed.
Lemma held_In l d : In d (held l) <-> exists g j, In (g, j) l /\ In d (dirs j).
Proof. unfold held. rewrite in_flat_map. split; [intros ((g & j) & H1 & H2); eauto|intros (g & j & H1 & H2); exists (g, j); auto]. Qed.
Lemma active_held (p : @pool Geno Content) : active p = List.length (held (p_jobs p)).
Proof. unfold active, held. induction (p_jobs p) as [|(g & j) l IH]; [reflexivity|]. cbn [filter flat_map snd]. destruct j; cbn [busy dirs app List.length]; auto. Qed.

Lemma init_inv n gs (disk0 : disk) : inv disk0 gs n (submit gs disk0).
Proof.
  unfold submit. assert (Hh : held (map (fun g : Geno => (g, Waiting)) gs) = []) by (induction gs; auto).
  constructor; cbn [p_jobs p_disk].
  - rewrite map_map. apply map_id.
  - auto.
  - rewrite Hh. contradiction.
  - rewrite Hh. constructor.
  - intros g d H. apply in_map_iff in H as (? & H & _). discriminate.
  - intros g d H. apply in_map_iff in H as (? & H & _). discriminate.
  - intros g d H. apply in_map_iff in H as (? & H & _). discriminate.
  - intros d v H1 H2. congruence.
  - rewrite active_held. cbn [p_jobs]. rewrite Hh. cbn. lia.
Qed.
Lemma step_inv n gs disk0 p q : inv disk0 gs n p -> pstep n p q -> inv disk0 gs n q.
Proof.
  intros I Hs. destruct Hs as [a g j b dk j' dk' Hj Hn]. destruct I as [Igs Iold Inew Iuniq Img Imd Ifin Ileak Iact]. rewrite active_held in Iact. cbn [p_jobs p_disk] in *.
  assert (Hold : forall x, In x (a ++ b) -> In x (a ++ (g, j) :: b)) by (intros x Hx; rewrite in_app_iff in *; cbn; tauto).
  assert (Hsplit : forall j0 x, In x (a ++ (g, j0) :: b) -> x = (g, j0) \/ In x (a ++ b)) by (intros j0 x; rewrite !in_app_iff; cbn; intuition congruence).
  assert (Hheld : forall j0, held (a ++ (g, j0) :: b) = held a ++ dirs j0 ++ held b) by (intros; now rewrite held_app).
  assert (Hgin : In g gs) by (rewrite <- Igs, map_app; apply in_or_app; right; now left).
  assert (Hother : forall x d0, In x (a ++ b) -> In d0 (dirs (snd x)) -> In d0 (held a ++ held b)).
  { intros (g0, j0) d0 Hx Hd. rewrite <- held_app. apply held_In. eauto. }
  destruct Hj as [Hc|e Hc|c d Hc Hfresh|c d e Hc Hm|c d x Hc Hm|d x Hd].
  - (* invalid *) constructor; cbn [p_jobs p_disk].
    + rewrite map_app in *. exact Igs.
    + exact Iold.
    + rewrite Hheld in *. exact Inew.
    + rewrite Hheld in *. exact Iuniq.
    + intros g0 d0 H. destruct (Hsplit _ _ H) as [[=]|H']; auto.
    + intros g0 d0 H. destruct (Hsplit _ _ H) as [[=]|H']; auto.
    + intros g0 r H. destruct (Hsplit _ _ H) as [[= -> ->]|H']; auto. unfold alone. now rewrite Hc.
    + rewrite Hheld in *. exact Ileak.
    + rewrite active_held. cbn [p_jobs]. rewrite Hheld in *. exact Iact.
  - constructor; cbn [p_jobs p_disk].
    + rewrite map_app in *. exact Igs.
    + exact Iold.
    + rewrite Hheld in *. exact Inew.
    + rewrite Hheld in *. exact Iuniq.
    + intros g0 d0 H. destruct (Hsplit _ _ H) as [[=]|H']; auto.
    + intros g0 d0 H. destruct (Hsplit _ _ H) as [[=]|H']; auto.
    + intros g0 r H. destruct (Hsplit _ _ H) as [[= -> ->]|H']; auto. unfold alone. now rewrite Hc.
    + rewrite Hheld in *. exact Ileak.
    + rewrite active_held. cbn [p_jobs]. rewrite Hheld in *. exact Iact.
  - (* start *) assert (Hf : dget dk d = None) by (unfold dmem in Hfresh; destruct (dget dk d); congruence).
    assert (Hnh : ~ In d (held a ++ held b)).
    { rewrite <- held_app. intros H. apply held_In in H as (g0 & j0 & H1 & H2). destruct j0; cbn in H2; try contradiction; destruct H2 as [->|[]].
      - destruct (Img g0 d (Hold _ H1)) as (E & _). congruence.
      - destruct (Imd g0 d (Hold _ H1)) as (? & ? & _ & _ & E). congruence. }
    rewrite Hheld in *. cbn [dirs app] in *. specialize (Hn eq_refl). rewrite active_held in Hn. cbn [p_jobs] in Hn. rewrite Hheld in Hn. cbn [dirs app] in Hn.
    constructor; cbn [p_jobs p_disk]; rewrite ?Hheld; cbn [dirs app].
    + rewrite map_app in *. exact Igs.
    + intros d0 v H0. rewrite dget_dset. destruct (eqb_spec d0 d) as [->|]; [|auto]. specialize (Iold d v H0). congruence.
    + intros d0 H. apply in_app_iff in H as [H|[<-|H]]; [apply Inew; apply in_or_app; auto| |apply Inew; apply in_or_app; auto].
      destruct (dget disk0 d) eqn:E0; [|reflexivity]. rewrite (Iold _ _ E0) in Hf. discriminate.
    + apply (Permutation_NoDup (l := d :: held a ++ held b)); [apply Permutation_middle|]. constructor; auto.
    + intros g0 d0 H. rewrite dget_dset. destruct (Hsplit _ _ H) as [[= -> ->]|H'].
      * rewrite eqb_refl. eauto.
      * destruct (Img g0 d0 (Hold _ H')) as (E1 & E2). destruct (eqb_spec d0 d) as [->|]; [congruence|auto].
    + intros g0 d0 H. destruct (Hsplit _ _ H) as [[=]|H']. destruct (Imd g0 d0 (Hold _ H')) as (c0 & x0 & E1 & E2 & E3). exists c0, x0. rewrite dget_dset. destruct (eqb_spec d0 d) as [->|]; [congruence|auto].
    + intros g0 r H. destruct (Hsplit _ _ H) as [[=]|H']. auto.
    + intros d0 v H1 H2. rewrite dget_dset in H1. destruct (eqb_spec d0 d) as [->|]; [left; apply in_or_app; right; now left|].
      destruct (Ileak d0 v H1 H2) as [H|H]; [left; rewrite in_app_iff in *; cbn; tauto|auto].
    + rewrite active_held. cbn [p_jobs]. rewrite Hheld. cbn [dirs app]. rewrite app_length in *. cbn [List.length]. lia.
  - (* merge raises *) rewrite Hheld in *. cbn [dirs app] in *.
    assert (Hp : Permutation (held a ++ d :: held b) (d :: held a ++ held b)) by (symmetry; apply Permutation_middle).
    constructor; cbn [p_jobs p_disk]; rewrite ?Hheld; cbn [dirs app].
    + rewrite map_app in *. exact Igs.
    + exact Iold.
    + intros d0 H. apply Inew. rewrite in_app_iff in *. cbn. tauto.
    + apply (NoDup_remove_1 _ _ _ Iuniq).
    + intros g0 d0 H. destruct (Hsplit _ _ H) as [[=]|H']; auto.
    + intros g0 d0 H. destruct (Hsplit _ _ H) as [[=]|H']; auto.
    + intros g0 r H. destruct (Hsplit _ _ H) as [[= -> ->]|H']; auto. unfold alone. rewrite Hc. cbn [rbind]. now rewrite Hm.
    + intros d0 v H1 H2. right. exists g. split; [exact Hgin|]. exists c, e. auto.
    + rewrite active_held. cbn [p_jobs]. rewrite Hheld. cbn [dirs app]. rewrite app_length in *. cbn [List.length] in Iact. lia.
  - (* merge *) rewrite Hheld in *. cbn [dirs app] in *.
    assert (Hnh : ~ In d (held a ++ held b)) by (apply (NoDup_remove_2 _ _ _ Iuniq)).
    assert (Hd0 : dget disk0 d = None) by (apply Inew; apply in_or_app; right; now left).
    constructor; cbn [p_jobs p_disk]; rewrite ?Hheld; cbn [dirs app].
    + rewrite map_app in *. exact Igs.
    + intros d0 v H0. rewrite dget_dset. destruct (eqb_spec d0 d) as [->|]; [congruence|auto].
    + exact Inew.
    + exact Iuniq.
    + intros g0 d0 H. rewrite dget_dset. destruct (Hsplit _ _ H) as [[=]|H']. destruct (eqb_spec d0 d) as [->|]; [exfalso; apply Hnh; apply (Hother _ d H'); now left|auto].
    + intros g0 d0 H. rewrite dget_dset. destruct (Hsplit _ _ H) as [[= -> ->]|H'].
      * rewrite eqb_refl. eauto.
      * destruct (eqb_spec d0 d) as [->|]; [exfalso; apply Hnh; apply (Hother _ d H'); now left|auto].
    + intros g0 r H. destruct (Hsplit _ _ H) as [[=]|H']; auto.
    + intros d0 v H1 H2. rewrite dget_dset in H1. destruct (eqb_spec d0 d) as [->|]; [left; apply in_or_app; right; now left|eauto].
    + rewrite active_held. cbn [p_jobs]. rewrite Hheld. exact Iact.
  - (* evaluate *) rewrite Hheld in *. cbn [dirs app] in *.
    assert (Hnh : ~ In d (held a ++ held b)) by (apply (NoDup_remove_2 _ _ _ Iuniq)).
    assert (Hd0 : dget disk0 d = None) by (apply Inew; apply in_or_app; right; now left).
    destruct (Imd g d ltac:(apply in_or_app; right; now left)) as (c & x' & Hc & Hm & Hx). assert (x' = x) as -> by congruence.
    constructor; cbn [p_jobs p_disk]; rewrite ?Hheld; cbn [dirs app].
    + rewrite map_app in *. exact Igs.
    + intros d0 v H0. rewrite dget_ddel. destruct (eqb_spec d0 d) as [->|]; [congruence|auto].
    + intros d0 H. apply Inew. rewrite in_app_iff in *. cbn. tauto.
    + apply (NoDup_remove_1 _ _ _ Iuniq).
    + intros g0 d0 H. rewrite dget_ddel. destruct (Hsplit _ _ H) as [[=]|H']. destruct (eqb_spec d0 d) as [->|]; [exfalso; apply Hnh; apply (Hother _ d H'); now left|auto].
    + intros g0 d0 H. rewrite dget_ddel. destruct (Hsplit _ _ H) as [[=]|H']. destruct (eqb_spec d0 d) as [->|]; [exfalso; apply Hnh; apply (Hother _ d H'); now left|auto].
    + intros g0 r H. destruct (Hsplit _ _ H) as [[= -> ->]|H']; auto. unfold alone. rewrite Hc. cbn [rbind]. now rewrite Hm.
    + intros d0 v H1 H2. rewrite dget_ddel in H1. destruct (eqb_spec d0 d) as [->|Hne]; [discriminate|].
      destruct (Ileak d0 v H1 H2) as [H|H]; [|auto]. left. rewrite in_app_iff in *. cbn in H. intuition congruence.
    + rewrite active_held. cbn [p_jobs]. rewrite Hheld. cbn [dirs app]. rewrite app_length in *. cbn [List.length] in Iact. lia.
Qed.
Lemma run_inv n gs disk0 p : run n (submit gs disk0) p -> inv disk0 gs n p.
Proof. intros H. induction H as [|q r _ IH Hs]; [apply init_inv|eapply step_inv; eauto]. Qed.

(** Whatever the interleaving, the pool returns for each genotype, in order, what evaluating it alone gives. *)
Theorem C73_pool_results n gs disk0 p r : run n (submit gs disk0) p -> collect p = Some r -> r = rmapM alone gs.
Proof.
  intros Hr Hc. destruct (run_inv _ _ _ _ Hr) as [Igs _ _ _ _ _ Ifin _ _]. unfold collect in Hc. destruct (forallb _ _) eqn:Ef; [|discriminate]. injection Hc as <-.
  subst gs. rewrite forallb_forall in Ef. revert Ef Ifin. generalize (p_jobs p). intros l. induction l as [|(g & j) l IH]; intros Ef Ifin; [reflexivity|]. cbn [rmapM map fst snd].
  assert (Hj : exists r, j = Finished r) by (specialize (Ef (g, j) (or_introl eq_refl)); cbn in Ef; destruct j; try discriminate; eauto). destruct Hj as (r & ->).
  rewrite <- (Ifin g r (or_introl eq_refl)). rewrite IH; [reflexivity| |]; intros; [apply Ef|apply Ifin]; now right.
Qed.
(** At most [n] merged models are on the disk at a time, and none is left in the end, unless a merge raised. *)
Theorem C73_pool_disk n gs (disk0 : disk) p : run n (submit gs disk0) p ->
  (forall d v, dget disk0 d = Some v -> dget (p_disk p) d = Some v) /\
  ((forall g, In g gs -> ~ merge_fails g) ->
   (exists ds, (List.length ds <= n)%nat /\ forall d, dget (p_disk p) d <> None -> dget disk0 d <> None \/ In d ds) /\
   (collect p <> None -> forall d, dget (p_disk p) d = dget disk0 d)).
Proof.
  intros Hr. destruct (run_inv _ _ _ _ Hr) as [Igs Iold Inew Iuniq Img Imd Ifin Ileak Iact]. split; [exact Iold|]. intros Hok.
  assert (Hl : forall d v, dget (p_disk p) d = Some v -> dget disk0 d = None -> In d (held (p_jobs p))).
  { intros d v H1 H2. destruct (Ileak d v H1 H2) as [H|(g & Hg & Hf)]; [exact H|]. now destruct (Hok g Hg). }
  split.
  - exists (held (p_jobs p)). split; [rewrite <- active_held; exact Iact|]. intros d Hd. destruct (dget (p_disk p) d) as [v|] eqn:E; [|congruence]. destruct (dget disk0 d) eqn:E0; [left; discriminate|right; eauto].
  - intros Hc d. assert (Hh : held (p_jobs p) = []).
    { unfold collect in Hc. destruct (forallb _ _) eqn:Ef; [|congruence]. rewrite forallb_forall in Ef. clear -Ef. unfold held. induction (p_jobs p) as [|(g & j) l IH]; [reflexivity|]. cbn [flat_map snd].
      rewrite IH by (intros x Hx; apply Ef; now right). specialize (Ef (g, j) (or_introl eq_refl)). cbn in Ef. now destruct j. }
    destruct (dget disk0 d) as [v|] eqn:E0; [now apply Iold|]. destruct (dget (p_disk p) d) as [v|] eqn:E; [|reflexivity]. specialize (Hl d v E E0). rewrite Hh in Hl. contradiction.
Qed.
(** With at least one actor the pool never gets stuck and always finishes, within three steps per genotype. *)
Definition weight_of (j : job) : nat := match j with Waiting => 3 | Merging _ => 2 | Merged _ => 1 | Finished _ => 0 end.
Definition remaining (p : @pool Geno Content) : nat := list_sum (map (fun gj => weight_of (snd gj)) (p_jobs p)).
Theorem C73_pool_finishes n gs (disk0 : disk) p : run n (submit gs disk0) p ->
  (forall q, pstep n p q -> (remaining q < remaining p)%nat) /\ remaining (submit gs disk0) = (3 * List.length gs)%nat /\
  ((0 < n)%nat -> collect p = None -> exists q, pstep n p q).
Proof.
  intros Hr. split; [|split].
  - intros q Hs. destruct Hs as [a g j b dk j' dk' Hj _]. unfold remaining. cbn [p_jobs]. rewrite !map_app, !list_sum_app. cbn [map list_sum fold_right snd].
    assert (weight_of j' < weight_of j)%nat by (destruct Hj; cbn; lia). unfold list_sum. cbn [fold_right]. lia.
  - unfold remaining, submit. cbn [p_jobs]. rewrite map_map. cbn [snd weight_of]. induction gs as [|g gs IH]; [reflexivity|]. cbn [map list_sum fold_right List.length].
    assert (IH' : list_sum (map (fun _ : Geno => 3%nat) gs) = (3 * List.length gs)%nat) by (clear; induction gs; cbn; [reflexivity|unfold list_sum in IHgs; rewrite IHgs; lia]).
    unfold list_sum in IH'. rewrite IH'. lia.
  - intros Hn Hc. destruct (run_inv _ _ _ _ Hr) as [Igs Iold Inew Iuniq Img Imd Ifin Ileak Iact]. destruct p as [jobs dk]. cbn [p_jobs p_disk] in *.
    (* a busy job can always go on *)
    destruct (existsb (fun gj => busy (snd gj)) jobs) eqn:Eb.
    + apply existsb_exists in Eb as ((g & j) & Hin & Hb). apply in_split in Hin as (a & b & ->). destruct j as [|d|d|r]; try discriminate.
      * destruct (Img g d ltac:(apply in_or_app; right; now left)) as (Hd & c & Hcf). destruct (run_merge c) as [x|e] eqn:Em.
        -- eexists. apply PStep; [eapply JMerge; eauto|discriminate].
        -- eexists. apply PStep; [eapply JMergeRaises; eauto|discriminate].
      * destruct (Imd g d ltac:(apply in_or_app; right; now left)) as (c & x & _ & _ & Hx). eexists. apply PStep; [eapply JEvaluate; eauto|discriminate].
    + assert (Ha : active {| p_jobs := jobs; p_disk := dk |} = 0%nat).
      { unfold active. cbn [p_jobs]. clear -Eb. induction jobs as [|(g & j) l IH]; [reflexivity|]. cbn [existsb filter snd] in *. apply orb_false_iff in Eb as [E1 E2]. rewrite E1. auto. }
      unfold collect in Hc. cbn [p_jobs] in Hc. destruct (forallb _ jobs) eqn:Ef; [discriminate|].
      assert (Hw : exists g, In (g, Waiting) jobs).
      { clear -Eb Ef. induction jobs as [|(g & j) l IH]; [discriminate|]. cbn [existsb forallb snd] in *. apply orb_false_iff in Eb as [E1 E2].
        destruct j; try discriminate; [exists g; now left|]. cbn [andb] in Ef. destruct (IH Ef E2) as (g0 & H0). exists g0. now right. }
      destruct Hw as (g & Hin). apply in_split in Hin as (a & b & ->). destruct (configure g) as [[c|]|e] eqn:Ecf.
      * assert (Hfresh : exists d, dmem dk d = false).
        { exists (S (fold_right Nat.max 0%nat (dkeys dk))). unfold dmem. destruct (dget dk _) eqn:E; [|reflexivity]. exfalso.
          assert (Hk : In (S (fold_right Nat.max 0%nat (dkeys dk))) (dkeys dk)) by (apply dget_Some_key; eauto).
          assert (Hb : forall l x, In x l -> (x <= fold_right Nat.max 0 l)%nat) by (induction l as [|y l IH]; intros x Hx; [contradiction|]; cbn; destruct Hx as [->|Hx]; [lia|specialize (IH _ Hx); lia]).
          specialize (Hb _ _ Hk). lia. }
        destruct Hfresh as (d & Hd). eexists. apply PStep; [eapply JStart; eauto|]. intros _. lia.
      * eexists. apply PStep; [apply JInvalid; exact Ecf|]. intros _. lia.
      * eexists. apply PStep; [eapply JConfigRaises; exact Ecf|]. intros _. lia.
Qed.

(** The serial strategy gives the same results except for an invalid genotype, for which it raises. *)
Theorem C73_serial g : (configure g <> Ok None -> serial configure run_merge harness as_list tasks g = alone g) /\
  (configure g = Ok None -> serial configure run_merge harness as_list tasks g = Err TypeError /\ alone g = Ok None).
Proof. unfold serial, alone. destruct (configure g) as [[c|]|e]; cbn [rbind]; split; intros H; try congruence; auto; discriminate. Qed.
(** Costs are the negated scores in order; an invalid genotype makes the computation of the costs raise. *)
Theorem C73_costs gs cs : costs (rmapM alone gs) = Ok cs <-> Forall2 (fun g c => exists s, alone g = Ok (Some s) /\ c = (- s)%Q) gs cs.
Proof.
  unfold costs. split.
  - destruct (rmapM alone gs) as [l|] eqn:El; cbn [rbind]; [|discriminate]. intros H. pose proof (proj1 (rmapM_Ok_Forall2 _ _ _) El) as F1. pose proof (proj1 (rmapM_Ok_Forall2 _ _ _) H) as F2.
    clear El H. revert cs F2. induction F1 as [|g o gs l Hg _ IH]; intros cs F2; inversion F2 as [|? ? ? ? Hc Hr]; subst; constructor; [|auto].
    destruct o as [s|]; [|discriminate]. injection Hc as <-. eauto.
  - intros H. assert (El : rmapM alone gs = Ok (map (fun c => Some (- - c)%Q) cs) \/ True) by auto. clear El.
    assert (G : exists l, rmapM alone gs = Ok l /\ rmapM (fun s => match s with Some q => Ok (- q)%Q | None => Err TypeError end) l = Ok cs).
    { induction H as [|g c gs cs (s & Hs & ->) _ (l & H1 & H2)]; [exists []; auto|]. exists (Some s :: l). cbn [rmapM]. rewrite Hs, H1, H2. auto. }
    destruct G as (l & -> & Hl). exact Hl.
Qed.
End Pool.

(** Finding: a merge that raises leaves its directory behind. *)
Theorem C73_leak_refuted : exists (gs : list nat) (p : @pool nat unit),
  pool_run (fun g => Ok (Some g)) (fun _ : nat => Err RuntimeError) (fun _ _ => Err RuntimeError) (fun l => l) [] 1 (submit gs []) p /\
  collect p <> None /\ dget (p_disk p) 0%nat <> None.
Proof.
  exists [7%nat], {| p_jobs := [(7%nat, Finished (Err RuntimeError))]; p_disk := [(0%nat, None)] |}. split; [|split; discriminate].
  eapply run_snoc; [eapply run_snoc; [apply run_nil|]|].
  - apply (PStep _ _ _ _ _ _ [] 7%nat Waiting [] [] (Merging 0) [(0%nat, None)]); [apply (JStart _ _ _ _ _ [] 7%nat 7%nat 0%nat); reflexivity|]. intros _. cbn. lia.
  - apply (PStep _ _ _ _ _ _ [] 7%nat (Merging 0) [] [(0%nat, None)] (Finished (Err RuntimeError)) [(0%nat, None)]); [apply (JMergeRaises _ _ _ _ _ _ 7%nat 7%nat 0%nat RuntimeError); reflexivity|discriminate].
Qed.

(** ** A search over a genome *)
(** The vectors the optimiser asks for have the length of the initial genotype: none is invalid, so the costs of a population are
    the negated scores whenever the merges and evaluations succeed. *)
Theorem C73_search {M} {E : Eqb M} topk2 softmax1 (g : genome M) l :
  topk_ok topk2 -> validate g = Ok tt -> g_models g <> [] -> (0 < g_layers g)%Z -> (g_method g = "slerp" -> (2 <= List.length (g_models g))%nat) ->
  List.length l = genotype_length g -> exists c, configure_genome topk2 softmax1 g (Flat l) = Ok (Some c).
Proof.
  intros Ht Hv Hne HL Hs Hl. destruct (proj2 (C42_total topk2 softmax1 g l Ht Hv Hne HL Hs) Hl) as (c & Hc). exists c. unfold configure_genome. now rewrite Hc.
Qed.

(** ** The best genotype *)
(** After any callbacks the genotype kept is one with the least cost seen and the file holds its configuration. *)
Theorem C73_best {X Y} (to_yaml : X -> Y) x0 rs : let b := fold_left (callback to_yaml) rs {| b_x := x0; b_cost := None; b_file := None |} in
  match b_cost b with
  | None => rs = [] /\ b_x b = x0 /\ b_file b = None
  | Some c => In (b_x b, c) rs /\ b_file b = Some (to_yaml (b_x b)) /\ forall x q, In (x, q) rs -> (c <= q)%Q
  end.
Proof.
  cbv zeta. induction rs as [|(x & q) rs IH] using rev_ind; [cbn; auto|]. rewrite fold_left_app. cbn [fold_left].
  set (b := fold_left (callback to_yaml) rs {| b_x := x0; b_cost := None; b_file := None |}) in *. unfold callback. cbn [fst snd].
  destruct (b_cost b) as [c|] eqn:Ec.
  - destruct IH as (H1 & H2 & H3). destruct (Qle_bool c q) eqn:El; cbn [negb].
    + rewrite Ec. split; [apply in_or_app; auto|]. split; [exact H2|]. intros x' q' H. apply in_app_iff in H as [H|[[= <- <-]|[]]]; [eauto|]. now apply Qle_bool_iff.
    + cbn [b_cost b_x b_file]. split; [apply in_or_app; right; now left|]. split; [reflexivity|]. intros x' q' H.
      assert (Hlt : (q < c)%Q) by (destruct (Qlt_le_dec q c) as [Hq|Hq]; [exact Hq|]; apply Qle_bool_iff in Hq; congruence).
      apply in_app_iff in H as [H|[[= <- <-]|[]]]; [|apply Qle_refl]. specialize (H3 _ _ H). lra.
  - destruct IH as (-> & _ & _). cbn [b_cost b_x b_file app]. split; [now left|]. split; [reflexivity|]. intros x' q' [[= <- <-]|[]]. apply Qle_refl.
Qed.

(** ** Converted models *)
(** If conversions succeed, models have names of their own and the directory holds only complete conversions of them, each model's
    directory holds its conversion, on the first and on every later run. *)
Theorem C73_reshard {C} (convert : model_path -> C) storage (fs : dict string (option C)) ms :
  (forall m m', In m (map fst ms) -> In m' (map fst ms) -> reshard_path storage m = reshard_path storage m' -> convert m = convert m') ->
  (forall m v, In m (map fst ms) -> dget fs (reshard_path storage m) = Some v -> v = Some (convert m)) ->
  (forall m fails, In (m, fails) ms -> fails = false) ->
  exists fs', reshard_all convert storage fs ms = (fs', Ok (map (fun mf => reshard_path storage (fst mf)) ms)) /\
    (forall m, In m (map fst ms) -> dget fs' (reshard_path storage m) = Some (Some (convert m))) /\
    (forall k v, dget fs k = Some v -> dget fs' k = Some v) /\
    reshard_all convert storage fs' ms = (fs', Ok (map (fun mf => reshard_path storage (fst mf)) ms)).
Proof.
  revert fs. induction ms as [|(m & fails) ms IH]; intros fs Hid Hfs Hok; cbn [reshard_all map fst].
  - exists fs. repeat split; auto. contradiction.
  - assert (fails = false) as -> by (eapply Hok; now left). unfold reshard at 1 2. set (out := reshard_path storage m) in *.
    set (fs1 := if dmem fs out then fs else dset fs out (Some (convert m))).
    assert (E1 : (if dmem fs out then (fs, Ok out) else (dset fs out (Some (convert m)), Ok out)) = (fs1, Ok out)) by (unfold fs1; now destruct (dmem fs out)). rewrite E1.
    assert (Hout : dget fs1 out = Some (Some (convert m))).
    { unfold fs1, dmem. destruct (dget fs out) as [v|] eqn:Eo; [|apply dget_dset_eq]. rewrite Eo. f_equal. apply (Hfs m v); [now left|exact Eo]. }
    assert (Hmono : forall k v, dget fs k = Some v -> dget fs1 k = Some v).
    { intros k v Hk. unfold fs1, dmem. destruct (dget fs out) as [w|] eqn:Eo; [exact Hk|]. rewrite dget_dset. destruct (eqb_spec k out) as [->|]; [congruence|exact Hk]. }
    destruct (IH fs1) as (fs' & H1 & H2 & H3 & H4).
    + intros a b Ha Hb. apply Hid; now right.
    + intros a v Ha Hv. unfold fs1, dmem in Hv. destruct (dget fs out) as [w|] eqn:Eo; [apply (Hfs a v); [now right|exact Hv]|].
      rewrite dget_dset in Hv. destruct (eqb_spec (reshard_path storage a) out) as [Ea|]; [|apply (Hfs a v); [now right|exact Hv]].
      injection Hv as <-. f_equal. symmetry. apply Hid; [now right|now left|exact Ea].
    + intros a fl Ha. eapply Hok. right. exact Ha.
    + exists fs'. rewrite H1. split; [reflexivity|]. split; [|split; [eauto|]].
      * intros a [<-|Ha]; [apply H3; exact Hout|auto].
      * unfold dmem. rewrite (H3 _ _ Hout). rewrite H4. reflexivity.
Qed.
(** Finding: what an interrupted conversion leaves is used as the model ever after. *)
Theorem C73_reshard_refuted {C} (convert : model_path -> C) storage m : exists fs,
  reshard convert storage [] m true = (fs, Err OSError_) /\ reshard convert storage fs m false = (fs, Ok (reshard_path storage m)) /\
  dget fs (reshard_path storage m) = Some None.
Proof.
  exists [(reshard_path storage m, None)]. unfold reshard. cbn [dmem dget dset]. split; [reflexivity|]. unfold dmem. cbn [dget]. rewrite eqb_refl. auto.
Qed.

(** ** The final configuration *)
Definition rename_source {M N} (f : M -> N) (s : input_slice M) : input_slice N :=
  {| is_model := f (is_model s); is_start := is_start s; is_end := is_end s; is_params := is_params s |}.
Definition rename_slice {M N} (f : M -> N) (s : output_slice M) : output_slice N :=
  {| os_sources := map (rename_source f) (os_sources s); os_base := option_map f (os_base s); os_params := os_params s |}.
Definition rename_model {M N} (f : M -> N) (m : input_model M) : input_model N := {| im_model := f (im_model m); im_params := im_params m |}.
(** [c'] is [c] with the models renamed *)
Definition renamed {M N} (f : M -> N) (c : merge_config M) (c' : merge_config N) : Prop :=
  mc_modules c = None /\ mc_modules c' = None /\
  mc_slices c' = option_map (map (rename_slice f)) (mc_slices c) /\ mc_models c' = option_map (map (rename_model f)) (mc_models c) /\
  mc_base c' = option_map f (mc_base c) /\ mc_params c' = mc_params c /\ mc_dtype c' = mc_dtype c /\ mc_out_dtype c' = mc_out_dtype c.

Section Final.
Context {M N : Type} {EM : Eqb M} {EN : Eqb N}.
Variables (topk2 : list Q -> nat * nat) (softmax1 : Q -> Q -> Q) (f : M -> N).
Implicit Types g : genome M.

Lemma extra_rename g : (forall b, g_base g = Some b -> In (f b) (map f (g_models g)) -> In b (g_models g)) ->
  extra_base (rename_genome f g) = option_map f (extra_base g).
Proof.
  intros Hinj. unfold extra_base, rename_genome. cbn [g_base g_models]. destruct (g_base g) as [b|]; cbn [option_map]; [|reflexivity].
  destruct (mem b (g_models g)) eqn:Em.
  - apply mem_In in Em. assert (Hf : In (f b) (map f (g_models g))) by now apply in_map. apply mem_In in Hf. now rewrite Hf.
  - destruct (mem (f b) (map f (g_models g))) eqn:Ef; [|reflexivity]. apply mem_In in Ef. specialize (Hinj b eq_refl Ef). apply mem_In in Hinj. congruence.
Qed.
Lemma rmapM_rel {A B B'} (h : B -> B') (k : A -> result B) (k' : A -> result B') l :
  (forall a, k' a = let! b := k a in Ok (h b)) -> rmapM k' l = let! out := rmapM k l in Ok (map h out).
Proof.
  intros H. induction l as [|a l IH]; cbn [rmapM]; [reflexivity|]. rewrite H, IH. destruct (k a); cbn [rbind]; [|reflexivity]. now destruct (rmapM k l).
Qed.
Lemma combine_map_r {A B C} (h : B -> C) (l : list A) (m : list B) : combine l (map h m) = map (fun ab => (fst ab, h (snd ab))) (combine l m).
Proof. revert m. induction l as [|a l IH]; intros [|b m]; cbn; [reflexivity..|]. now rewrite IH. Qed.
Lemma rmapM_map {A A' B} (h : A' -> A) (k : A -> result B) l : rmapM k (map h l) = rmapM (fun a => k (h a)) l.
Proof. induction l as [|a l IH]; cbn [map rmapM]; [reflexivity|]. now rewrite IH. Qed.

(** The search runs on converted models and the result is written for the original ones: the two configurations are the same up to
    the names of the models, provided the conversion does not identify the base with another model. *)
Theorem C73_final_config g x c :
  (forall b, g_base g = Some b -> In (f b) (map f (g_models g)) -> In b (g_models g)) ->
  genotype_merge_config topk2 softmax1 g x = Ok c ->
  exists c', genotype_merge_config topk2 softmax1 (rename_genome f g) x = Ok c' /\ renamed f c c'.
Proof.
  intros Hinj Hc. pose proof (extra_rename g Hinj) as Hx. set (g' := rename_genome f g) in *.
  assert (Hset : forall sets ps value, settings g' sets ps value = settings g sets ps value) by reflexivity.
  assert (Hlen : List.length (g_models g') = List.length (g_models g)) by (cbn; apply map_length).
  assert (Hsl : forall t, slerp_slices topk2 softmax1 g' t = let! s := slerp_slices topk2 softmax1 g t in Ok (map (rename_slice f) s)).
  { intros t. unfold slerp_slices. apply rmapM_rel. intros k. change (layer_step g') with (layer_step g). change (g_tokenizer g') with (g_tokenizer g). cbv zeta. rewrite Hx.
    destruct (Nat.eqb (t_sets t) 0); [reflexivity|]. destruct (Nat.ltb (t_models t) 2); [reflexivity|]. destruct (topk2 _) as [i j].
    assert (Hn : forall i, nthE (g_models g') i = let! m := nthE (g_models g) i in Ok (f m)) by (intros i0; unfold nthE; cbn [g_models g' rename_genome]; rewrite nth_error_map; now destruct (nth_error (g_models g) i0)).
    rewrite !Hn. destruct (nthE (g_models g) i) as [mi|]; cbn [rbind]; [|reflexivity]. destruct (nthE (g_models g) j) as [mj|]; cbn [rbind]; [|reflexivity].
    unfold rename_slice. cbn [os_sources os_base os_params option_map]. rewrite map_app. now destruct (extra_base g). }
  assert (Hdi : forall t ps, discrete_slices g' t ps = let! s := discrete_slices g t ps in Ok (map (rename_slice f) s)).
  { intros t ps. unfold discrete_slices. apply rmapM_rel. intros k. change (layer_step g') with (layer_step g). cbv zeta. rewrite Hx, Hlen. cbn [g_models g' rename_genome]. rewrite combine_map_r, rmapM_map.
    rewrite (rmapM_rel (rename_source f) (fun im : nat * M => let! params := settings g (t_sets t) ps (fun i p name => PNum (adjust g name (t_at t k (fst im) i p))) in
      Ok {| is_model := snd im; is_start := (Z.of_nat k * layer_step g)%Z; is_end := ((Z.of_nat k + 1) * layer_step g)%Z; is_params := Some params |})).
    - destruct (rmapM _ _) as [srcs|]; cbn [rbind]; [|reflexivity]. unfold rename_slice. cbn [os_sources os_base os_params option_map]. rewrite map_app. now destruct (extra_base g).
    - intros (j & m). cbn [fst snd]. change (settings g') with (settings g). change (adjust g') with (adjust g). destruct (settings g (t_sets t) ps _); reflexivity. }
  assert (Hsm : forall t ps, smooth_models g' t ps = let! s := smooth_models g t ps in Ok (map (rename_model f) s)).
  { intros t ps. unfold smooth_models. rewrite Hx, Hlen. cbn [g_models g' rename_genome]. rewrite combine_map_r, rmapM_map.
    rewrite (rmapM_rel (rename_model f) (fun im : nat * M => let! params := settings g (t_sets t) ps (fun i p name => unpack_single (map (fun k => adjust g name (t_at t k (fst im) i p)) (seq 0 (t_groups t)))) in
      Ok {| im_model := snd im; im_params := Some params |})).
    - destruct (rmapM _ _) as [ms|]; cbn [rbind]; [|reflexivity]. rewrite map_app. now destruct (extra_base g).
    - intros (j & m). cbn [fst snd]. change (settings g') with (settings g). change (adjust g') with (adjust g). destruct (settings g (t_sets t) ps _); reflexivity. }
  unfold genotype_merge_config in *. assert (Ht : to_torch g' x = to_torch g x) by (destruct x; cbn [to_torch]; rewrite ?Hlen; reflexivity). rewrite Ht. destruct (to_torch g x) as [t|]; cbn [rbind] in *; [|discriminate].
  change (g_granularity g') with (g_granularity g). change (g_layers g') with (g_layers g). change (g_method g') with (g_method g). change (g_normalize g') with (g_normalize g). change (g_smooth g') with (g_smooth g). rewrite Hlen.
  destruct (_ && _); [discriminate|]. destruct (negb _); [discriminate|]. destruct (dgetE _ _) as [ps|]; cbn [rbind] in *; [|discriminate]. destruct (negb _); [discriminate|].
  rewrite Hsl, Hdi, Hsm. destruct (String.eqb (g_method g) "slerp").
  - destruct (slerp_slices topk2 softmax1 g t) as [s|]; cbn [rbind] in *; [|discriminate]. unfold validate_config in *. cbn [mc_modules mc_slices mc_models truthy] in *. destruct s as [|s0 s]; [discriminate|]. cbn in Hc |- *. injection Hc as <-.
    eexists. split; [reflexivity|]. repeat split.
  - destruct (g_smooth g).
    + destruct (smooth_models g t ps) as [s|]; cbn [rbind] in *; [|discriminate]. unfold validate_config in *. cbn [mc_modules mc_slices mc_models truthy] in *. destruct s as [|s0 s]; [discriminate|]. cbn in Hc |- *. injection Hc as <-.
      eexists. split; [reflexivity|]. repeat split.
    + destruct (discrete_slices g t ps) as [s|]; cbn [rbind] in *; [|discriminate]. unfold validate_config in *. cbn [mc_modules mc_slices mc_models truthy] in *. destruct s as [|s0 s]; [discriminate|]. cbn in Hc |- *. injection Hc as <-.
      eexists. split; [reflexivity|]. repeat split.
Qed.
End Final.

(** ** Instances *)
Example C73_search_nonvacuous : topk_ok ex_topk /\ validate ex_genome = Ok tt /\ g_models ex_genome <> [] /\ (0 < g_layers ex_genome)%Z /\
  (g_method ex_genome = "slerp" -> (2 <= List.length (g_models ex_genome))%nat) /\ List.length ex_flat = genotype_length ex_genome.
Proof. split; [apply ex_topk_ok|]. split; [reflexivity|]. split; [discriminate|]. split; [reflexivity|]. split; [discriminate|reflexivity]. Qed.
Example C73_pool_nonvacuous : exists (p : @pool nat nat),
  let configure g := if Nat.eqb g 5 then Ok None else Ok (Some g) in
  let harness x (_ : list string) := Ok [("a", [("acc", inject_Z (Z.of_nat x))])] in
  let tasks := [{| tk_name := "a"; tk_weight := 2; tk_metric := "acc" |}] in
  pool_run configure Ok harness (fun l => l) tasks 2 (submit [3; 5; 4]%nat [(0%nat, None)]) p /\
  collect p = Some (Ok [Some (0 + 3 * 2); None; Some (0 + 4 * 2)])%Q /\ p_disk p = [(0%nat, None)].
Proof.
  eexists. cbv zeta. split; [|split].
  - eapply run_snoc; [eapply run_snoc; [eapply run_snoc; [eapply run_snoc; [eapply run_snoc; [eapply run_snoc; [eapply run_snoc; [apply run_nil|]|]|]|]|]|]|].
    + (* start 4 *) apply (PStep _ _ _ _ _ _ [(3, Waiting); (5, Waiting)]%nat 4%nat Waiting []); [eapply (JStart _ _ _ _ _ _ _ 4%nat 1%nat); reflexivity|intros _; cbn; lia].
    + (* start 3 *) apply (PStep _ _ _ _ _ _ [] 3%nat Waiting [(5, Waiting); (4, Merging 1)]%nat); [eapply (JStart _ _ _ _ _ _ _ 3%nat 2%nat); reflexivity|intros _; cbn; lia].
    + apply (PStep _ _ _ _ _ _ [(3, Merging 2); (5, Waiting)]%nat 4%nat (Merging 1) []); [eapply (JMerge _ _ _ _ _ _ _ 4%nat 1%nat 4%nat); reflexivity|discriminate].
    + apply (PStep _ _ _ _ _ _ [] 3%nat (Merging 2) [(5, Waiting); (4, Merged 1)]%nat); [eapply (JMerge _ _ _ _ _ _ _ 3%nat 2%nat 3%nat); reflexivity|discriminate].
    + apply (PStep _ _ _ _ _ _ [] 3%nat (Merged 2) [(5, Waiting); (4, Merged 1)]%nat); [eapply (JEvaluate _ _ _ _ _ _ _ 2%nat 3%nat); reflexivity|discriminate].
    + apply (PStep _ _ _ _ _ _ [(3%nat, Finished _)] 5%nat Waiting [(4, Merged 1)]%nat); [apply JInvalid; reflexivity|intros _; cbn; lia].
    + apply (PStep _ _ _ _ _ _ [(3%nat, Finished _); (5%nat, Finished _)] 4%nat (Merged 1) []); [eapply (JEvaluate _ _ _ _ _ _ _ 1%nat 4%nat); reflexivity|discriminate].
  - reflexivity.
  - reflexivity.
Qed.
Example C73_final_nonvacuous : exists c c', genotype_merge_config ex_topk ex_softmax ex_smooth (Flat [1; -2; 3; -4; 5; -6]%Q) = Ok c /\
  genotype_merge_config ex_topk ex_softmax (rename_genome (fun n => n + 100)%nat ex_smooth) (Flat [1; -2; 3; -4; 5; -6]%Q) = Ok c' /\
  renamed (fun n => n + 100)%nat c c' /\ mc_base c' = Some 109%nat.
Proof.
  do 2 eexists. split; [vm_compute; reflexivity|]. split; [vm_compute; reflexivity|]. split; [repeat split|reflexivity].
Qed.

Print Assumptions C73_naughty.
Print Assumptions C73_score.
Print Assumptions C73_score_order.
Print Assumptions C73_asked.
Print Assumptions C73_pool_results.
Print Assumptions C73_pool_disk.
Print Assumptions C73_pool_finishes.
Print Assumptions C73_serial.
Print Assumptions C73_costs.
Print Assumptions C73_leak_refuted.
Print Assumptions C73_search.
Print Assumptions C73_best.
Print Assumptions C73_reshard.
Print Assumptions C73_reshard_refuted.
Print Assumptions C73_final_config.
