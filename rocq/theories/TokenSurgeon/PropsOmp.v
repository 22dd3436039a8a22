(** * C53: orthogonal matching pursuit *)
From Coq Require Import Reals Lra.
From Verif.Base Require Import LinAlg RList Py PyFacts.
From Verif.TokenSurgeon Require Import Approx ApproxSpec ApproxInst OmpProofs.
Local Open Scope list_scope.
Local Open Scope R_scope.

(** the j-th chosen point; what the coefficients make of the chosen points (in the donor's space or, with other rows, the original's) *)
Definition chosen (pts : list row) (sel : list nat) (j : nat) : row := nth (nth j sel 0%nat) pts rzero.
Definition combine_rows (pts : list row) (sel : list nat) (cs : list R) : row := fun x => Sum (length cs) (fun j => nth j cs 0 * chosen pts sel j x).

Section C53.
Variables (D : nat) (pts : list row) (eps : R) (interval : nat) (target : row).
Variable pick : row -> list nat -> nat.
Variable qr : nat -> (nat -> row) -> (nat -> row) * (nat -> nat -> R).
Variable solve : nat -> (nat -> nat -> R) -> (nat -> R) -> (nat -> R).
Hypothesis Hpick : is_pick D pts pick.
Hypothesis Hqr : is_qr D qr.
Hypothesis Hsolve : is_solve solve.
Hypothesis Heps : 0 < eps.
Notation pursuit k := (omp D pts eps interval target pick qr solve k).

(** more points than there are *)
Theorem C53_too_many : forall k, (length pts < k)%nat -> pursuit k = Err ValueError.
Proof. intros k H. unfold omp. destruct (Nat.ltb_spec (length pts) k); [reflexivity|lia]. Qed.

(** k different points are chosen *)
Theorem C53_distinct : forall k, (k <= length pts)%nat -> exists sel cs, pursuit k = Ok (sel, cs) /\
  length sel = k /\ length cs = k /\ NoDup sel /\ forall i, In i sel -> (i < length pts)%nat.
Proof.
  intros k H. unfold omp. destruct (Nat.ltb_spec (length pts) k); [lia|]. cbv zeta. eexists _, _. split; [reflexivity|].
  destruct (sel_facts D pts eps interval target pick qr Hpick k H) as (L & N & I). split; [exact L|]. split; [now rewrite map_length, seq_length|]. split; [exact N|exact I].
Qed.

Lemma inv_omp k sel cs : pursuit k = Ok (sel, cs) -> (k <= length pts)%nat /\ length cs = k /\ sel = o_sel (omp_run D pts eps interval target pick qr k) /\
  (forall j, chosen pts sel j = atom D pts eps interval target pick qr k j) /\
  forall j, (j < k)%nat -> nth j cs 0 = solve k (o_r (omp_run D pts eps interval target pick qr k)) (fun i => ip D (o_q (omp_run D pts eps interval target pick qr k) i) target) j.
Proof.
  unfold omp. destruct (Nat.ltb_spec (length pts) k); [discriminate|]. cbv zeta. intros E.
  set (st := omp_run D pts eps interval target pick qr k) in *. assert (Es : sel = o_sel st) by congruence. assert (Ec : cs = map (solve k (o_r st) (fun i => ip D (o_q st i) target)) (seq 0 k)) by congruence.
  subst. split; [assumption|]. split; [now rewrite map_length, seq_length|]. split; [reflexivity|]. split; [reflexivity|].
  intros j Hj. rewrite (map_nth_in _ _ _ 0%nat) by (rewrite seq_length; lia). now rewrite seq_nth.
Qed.
Lemma combined k sel cs : pursuit k = Ok (sel, cs) -> independent D eps k (chosen pts sel) ->
  forall x, (x < D)%nat -> target x - combine_rows pts sel cs x = o_res (omp_run D pts eps interval target pick qr k) x.
Proof.
  intros E Hi x Hx. destruct (inv_omp k sel cs E) as (Hk & Lc & Es & Hc & Hcs). assert (Hi' : independent D eps k (atom D pts eps interval target pick qr k)) by (intros j d Hj; rewrite <- Hc; erewrite nrm_ext; [apply (Hi j d Hj)|]; intros y Hy; cbv beta; f_equal; apply Sum_ext; intros; now rewrite Hc).
  destruct (run_inv D pts eps interval target pick qr Hpick Hqr Heps k k (Nat.le_refl k) Hk Hi') as (_ & _ & _ & _ & I5). rewrite I5 by exact Hx. f_equal.
  rewrite <- (combination D pts eps interval target pick qr solve Hpick Hqr Hsolve Heps k Hk Hi' x Hx). unfold combine_rows. rewrite Lc. apply Sum_ext. intros j Hj. now rewrite Hcs, Hc.
Qed.
Lemma indep k sel cs : pursuit k = Ok (sel, cs) -> independent D eps k (chosen pts sel) -> independent D eps k (atom D pts eps interval target pick qr k).
Proof.
  intros E Hi. destruct (inv_omp k sel cs E) as (_ & _ & _ & Hc & _). intros j d Hj. rewrite <- Hc. erewrite nrm_ext; [apply (Hi j d Hj)|].
  intros y Hy. cbv beta. f_equal. apply Sum_ext. intros. now rewrite Hc.
Qed.

(** the coefficients solve the least-squares problem on the chosen points *)
Theorem C53_least_squares : forall k sel cs, pursuit k = Ok (sel, cs) -> independent D eps k (chosen pts sel) ->
  forall d, nrm D (fun x => target x - combine_rows pts sel cs x) <= nrm D (fun x => target x - Sum k (fun j => d j * chosen pts sel j x)).
Proof.
  intros k sel cs E Hi d. pose proof (indep k sel cs E Hi) as Hi'. destruct (inv_omp k sel cs E) as (Hk & _ & _ & Hc & _).
  rewrite (nrm_ext D _ _ (combined k sel cs E Hi)). eapply Rle_trans; [apply (res_best D pts eps interval target pick qr Hpick Hqr Heps k Hk Hi' d)|].
  right. apply nrm_ext. intros x Hx. f_equal. apply Sum_ext. intros. now rewrite Hc.
Qed.
(** what is left over is orthogonal to every chosen point *)
Theorem C53_orthogonal : forall k sel cs, pursuit k = Ok (sel, cs) -> independent D eps k (chosen pts sel) ->
  forall j, (j < k)%nat -> ip D (fun x => target x - combine_rows pts sel cs x) (chosen pts sel j) = 0.
Proof.
  intros k sel cs E Hi j Hj. pose proof (indep k sel cs E Hi) as Hi'. destruct (inv_omp k sel cs E) as (Hk & _ & _ & Hc & _). rewrite Hc.
  erewrite ip_ext; [|exact (combined k sel cs E Hi)|reflexivity]. now apply (res_atom D pts eps interval target pick qr Hpick Hqr Heps).
Qed.
(** a target that is a combination of the chosen points is reproduced *)
Theorem C53_exact : forall k sel cs, pursuit k = Ok (sel, cs) -> independent D eps k (chosen pts sel) ->
  forall d, (forall x, (x < D)%nat -> target x = Sum k (fun j => d j * chosen pts sel j x)) ->
  forall x, (x < D)%nat -> combine_rows pts sel cs x = target x.
Proof.
  intros k sel cs E Hi d Hd. pose proof (C53_least_squares k sel cs E Hi d) as H.
  rewrite (nrm_ext D (fun x => target x - Sum k _) (fun _ => 0)) in H by (intros x Hx; rewrite <- Hd by exact Hx; ring).
  replace (nrm D (fun _ => 0)) with 0 in H by (unfold nrm, ip; rewrite Sum_0 by (intros; ring); now rewrite sqrt_0).
  pose proof (nrm_nonneg D (fun x => target x - combine_rows pts sel cs x)) as H0. pose proof (nrm_sq D (fun x => target x - combine_rows pts sel cs x)) as H1.
  replace (nrm D (fun x => target x - combine_rows pts sel cs x)) with 0 in H1 by lra. rewrite Rmult_0_l in H1. symmetry in H1.
  intros x Hx. pose proof (ip_zero D _ H1 x Hx) as Z. cbv beta in Z. lra.
Qed.
(** hence, if the original model's shared rows are a linear image of the donor's, so is the new row *)
Theorem C53_transfer : forall k sel cs, pursuit k = Ok (sel, cs) -> independent D eps k (chosen pts sel) ->
  forall d, (forall x, (x < D)%nat -> target x = Sum k (fun j => d j * chosen pts sel j x)) ->
  forall orig (w : nat -> nat -> R), length orig = length pts ->
  (forall i y, (i < length pts)%nat -> nth i orig rzero y = Sum D (fun x => w y x * nth i pts rzero x)) ->
  forall y, combine_rows orig sel cs y = Sum D (fun x => w y x * target x).
Proof.
  intros k sel cs E Hi d Hd orig w Lo Hw y. pose proof (C53_exact k sel cs E Hi d Hd) as H. destruct (inv_omp k sel cs E) as (Hk & Lc & Es & _).
  destruct (sel_facts D pts eps interval target pick qr Hpick k Hk) as (L & _ & I). rewrite <- Es in L, I. unfold combine_rows in *.
  rewrite (Sum_ext D _ (fun x => Sum (length cs) (fun j => w y x * (nth j cs 0 * chosen pts sel j x)))) by (intros x Hx; rewrite <- (H x Hx), Sum_scal; reflexivity).
  rewrite Sum_swap. apply Sum_ext. intros j Hj. unfold chosen. rewrite Hw by (apply I, nth_In; lia). rewrite <- Sum_scal. apply Sum_ext. intros. ring.
Qed.
(** another point never makes the approximation worse *)
Theorem C53_improves : forall k k' sel cs sel' cs', (k <= k')%nat -> pursuit k = Ok (sel, cs) -> pursuit k' = Ok (sel', cs') -> independent D eps k' (chosen pts sel') ->
  sel = firstn k sel' /\
  nrm D (fun x => target x - combine_rows pts sel' cs' x) <= nrm D (fun x => target x - combine_rows pts sel cs x).
Proof.
  intros k k' sel cs sel' cs' Hkk E E' Hi. pose proof (indep k' sel' cs' E' Hi) as Hi'. destruct (inv_omp k' sel' cs' E') as (Hk' & _ & Es' & _ & _). destruct (inv_omp k sel cs E) as (Hk & _ & Es & Hc & _).
  split.
  - destruct (sel_prefix D pts eps interval target pick qr k' k Hkk) as (l & X). destruct (sel_facts D pts eps interval target pick qr Hpick k Hk) as (L & _). rewrite Es', X, <- Es, firstn_app. rewrite <- Es in L.
    rewrite L, Nat.sub_diag, firstn_all2 by lia. cbn. now rewrite app_nil_r.
  - pose proof (independent_prefix D pts eps interval target pick qr Hpick k k' Hkk Hk' Hi') as Hp.
    assert (Hi2 : independent D eps k (chosen pts sel)) by (intros j d Hj; rewrite Hc; erewrite nrm_ext; [apply (Hp j d Hj)|]; intros y Hy; cbv beta; f_equal; apply Sum_ext; intros; now rewrite Hc).
    rewrite (nrm_ext D _ _ (combined k' sel' cs' E' Hi)), (nrm_ext D _ _ (combined k sel cs E Hi2)).
    apply (res_decreasing D pts eps interval target pick qr solve Hpick Hqr Hsolve Heps); assumption.
Qed.
(** each point is chosen greedily: of all points not chosen before it, it has the largest inner product with what the points
    before it leave over, which is orthogonal to all of them *)
Theorem C53_greedy : forall k sel cs, pursuit k = Ok (sel, cs) -> independent D eps k (chosen pts sel) ->
  forall t, (t < k)%nat -> exists left d, (forall x, (x < D)%nat -> left x = target x - Sum t (fun j => d j * chosen pts sel j x)) /\
  (forall j, (j < t)%nat -> ip D left (chosen pts sel j) = 0) /\
  forall i, (i < length pts)%nat -> ~ In i (firstn t sel) -> Rabs (ip D left (nth i pts rzero)) <= Rabs (ip D left (chosen pts sel t)).
Proof.
  intros k sel cs E Hi t Ht. pose proof (indep k sel cs E Hi) as Hi'. destruct (inv_omp k sel cs E) as (Hk & _ & Es & Hc & _).
  set (run := omp_run D pts eps interval target pick qr) in *.
  assert (Hp : independent D eps t (atom D pts eps interval target pick qr t)) by (apply (independent_prefix D pts eps interval target pick qr Hpick t k); (assumption || lia)).
  assert (Ha : forall j, (j < t)%nat -> chosen pts sel j = atom D pts eps interval target pick qr t j) by (intros j Hj; rewrite Hc; apply (atom_prefix D pts eps interval target pick qr Hpick); lia).
  destruct (sel_facts D pts eps interval target pick qr Hpick t ltac:(lia)) as (L & N & I).
  destruct (run_inv D pts eps interval target pick qr Hpick Hqr Heps t t (Nat.le_refl t) ltac:(lia) Hp) as (_ & _ & _ & _ & I5).
  exists (o_res (run t)), (solve t (o_r (run t)) (fun i => ip D (o_q (run t) i) target)). split; [|split].
  - intros x Hx. unfold run. rewrite I5 by exact Hx. f_equal. rewrite <- (combination D pts eps interval target pick qr solve Hpick Hqr Hsolve Heps t ltac:(lia) Hp x Hx).
    apply Sum_ext. intros j Hj. now rewrite Ha.
  - intros j Hj. rewrite Ha by exact Hj. apply (res_atom D pts eps interval target pick qr Hpick Hqr Heps); (assumption || lia).
  - destruct (sel_prefix D pts eps interval target pick qr k (S t) ltac:(lia)) as (l & X). fold run in X, L. rewrite <- Es in X.
    unfold run in X. cbn [omp_run] in X. rewrite step_sel in X. fold run in X. rewrite <- app_assoc in X. cbn [app] in X.
    assert (Hf : firstn t sel = o_sel (run t)) by (rewrite X, firstn_app, L, Nat.sub_diag; cbn [firstn]; rewrite app_nil_r; apply firstn_all2; lia).
    assert (Hn : nth t sel 0%nat = pick (o_res (run t)) (o_sel (run t))) by (rewrite X, app_nth2 by lia; rewrite L, Nat.sub_diag; reflexivity).
    destruct (Hpick (o_res (run t)) (o_sel (run t)) N I ltac:(fold run in L; lia)) as (_ & _ & P). intros i Hi2 Hni. unfold chosen. rewrite Hn. apply P; [exact Hi2|]. now rewrite <- Hf.
Qed.
End C53.

(** the diagonal entry of the first point is not clamped, unlike all others: a zero vector gives a singular system *)
Theorem C53_zero_point_refuted : forall D eps interval target pick qr, (forall res sel, pick res sel = 0%nat) -> 0 < eps ->
  o_r (omp_run D [rzero] eps interval target pick qr 1) 0 0 = 0.
Proof.
  intros D eps interval target pick qr Hp He. cbn. unfold omp_step. rewrite Hp. cbn. unfold set2. cbn. unfold nrm, ip. rewrite Sum_0 by (intros; unfold pt, rzero; cbn; ring). apply sqrt_0.
Qed.

(** two points (1,0) and (1,1) in the plane, target (3,2): everything required holds, and the target is reproduced *)
Definition ex_pts : list row := [fun x => if Nat.eqb x 0 then 1 else 0; fun x => 1].
Definition ex_target : row := fun x => if Nat.eqb x 0 then 3 else 2.
Lemma ex_independent sel : length sel = 2%nat -> NoDup sel -> (forall i, In i sel -> (i < 2)%nat) -> independent 2 (/ 10 ^ 8) 2 (chosen ex_pts sel).
Proof.
  intros L N I. destruct sel as [|a [|b [|]]]; try discriminate. apply NoDup_cons_iff in N as (N1 & _).
  assert (a < 2)%nat by (apply I; now left). assert (b < 2)%nat by (apply I; right; now left). assert (a <> b) by (intros ->; apply N1; now left).
  assert (Low : forall v, / 4 <= ip 2 v v -> / 10 ^ 8 <= nrm 2 v).
  { intros v Hv. apply Rle_trans with (/ 2); [cbn; lra|]. unfold nrm. replace (/ 2) with (sqrt (/ 2 * / 2)) by (apply sqrt_square; lra). apply sqrt_le_1_alt. lra. }
  intros j d Hj. pose proof (Rle_0_sqr (d 0%nat - / 2)) as S1. pose proof (Rle_0_sqr (1 - d 0%nat)) as S2. unfold Rsqr in S1, S2. apply Low. destruct j as [|[|]]; [| |lia]; (assert (Hab : (a = 0 /\ b = 1 \/ a = 1 /\ b = 0)%nat) by lia); destruct Hab as [[-> ->]|[-> ->]]; unfold ip, chosen; cbn; lra.
Qed.
Example C53_nonvacuous : exists sel cs, omp 2 ex_pts (/ 10 ^ 8) 256 ex_target (greedy_pick 2 ex_pts) same_qr back_solve 2 = Ok (sel, cs) /\
  independent 2 (/ 10 ^ 8) 2 (chosen ex_pts sel) /\ forall x, (x < 2)%nat -> combine_rows ex_pts sel cs x = ex_target x.
Proof.
  destruct (C53_distinct 2 ex_pts (/ 10 ^ 8) 256 ex_target (greedy_pick 2 ex_pts) same_qr back_solve (greedy_is_pick 2 ex_pts) 2 ltac:(cbn; lia)) as (sel & cs & E & L & _ & N & I).
  exists sel, cs. split; [exact E|]. pose proof (ex_independent sel L N I) as Hi. split; [exact Hi|].
  assert (He : 0 < / 10 ^ 8) by (apply Rinv_0_lt_compat, pow_lt; lra).
  destruct sel as [|a [|b [|]]]; try discriminate. apply NoDup_cons_iff in N as (N1 & _).
  assert (a < 2)%nat by (apply I; now left). assert (b < 2)%nat by (apply I; right; now left). assert (a <> b) by (intros ->; apply N1; now left).
  assert (Hab : (a = 0 /\ b = 1 \/ a = 1 /\ b = 0)%nat) by lia.
  apply (C53_exact 2 ex_pts _ 256 ex_target (greedy_pick 2 ex_pts) same_qr back_solve (greedy_is_pick 2 ex_pts) (same_is_qr 2) back_is_solve He 2 _ cs E Hi
    (fun j => if Nat.eqb a j then 1 else 2)).
  intros x Hx. destruct Hab as [[-> ->]|[-> ->]]; destruct x as [|[|]]; try lia; unfold chosen, ex_target; cbn; lra.
Qed.
Print Assumptions C53_least_squares.
Print Assumptions C53_transfer.
Print Assumptions C53_greedy.
