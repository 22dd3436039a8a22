(** Orthogonal matching pursuit. *)
From Coq Require Import Reals Lra.
From Verif.Base Require Import LinAlg RList Py PyFacts.
From Verif.TokenSurgeon Require Import Approx ApproxSpec.
Local Open Scope list_scope.
Local Open Scope R_scope.

(** [v] is a combination of the first n rows of [a] *)
Definition in_span (D n : nat) (a : nat -> row) (v : row) : Prop := exists d, forall x, (x < D)%nat -> v x = Sum n (fun j => d j * a j x).

Lemma span_ext D n a v w : (forall x, (x < D)%nat -> v x = w x) -> in_span D n a v -> in_span D n a w.
Proof. intros H (d & Hd). exists d. intros x Hx. now rewrite <- H, Hd. Qed.
Lemma span_mono D n m a v : (n <= m)%nat -> in_span D n a v -> in_span D m a v.
Proof.
  intros H (d & Hd). exists (fun j => if (j <? n)%nat then d j else 0). intros x Hx. rewrite Hd by exact Hx. rewrite (Sum_split m n) by exact H.
  rewrite (Sum_0 (m - n)); [rewrite Rplus_0_r|intros i Hi; destruct (Nat.ltb_spec (n + i) n); [lia|ring]].
  apply Sum_ext. intros j Hj. destruct (Nat.ltb_spec j n); [reflexivity|lia].
Qed.
Lemma span_elt D n a j : (j < n)%nat -> in_span D n a (a j).
Proof.
  intros Hj. exists (fun i => if Nat.eqb i j then 1 else 0). intros x Hx. rewrite (Sum_single n j); [rewrite Nat.eqb_refl; ring|exact Hj|].
  intros i _ Hi. destruct (Nat.eqb_spec i j); [congruence|ring].
Qed.
Lemma span_scal D n a c v : in_span D n a v -> in_span D n a (fun x => c * v x).
Proof. intros (d & Hd). exists (fun j => c * d j). intros x Hx. rewrite Hd by exact Hx. rewrite <- Sum_scal. apply Sum_ext. intros. ring. Qed.
Lemma span_plus D n a v w : in_span D n a v -> in_span D n a w -> in_span D n a (fun x => v x + w x).
Proof.
  intros (d & Hd) (e & He). exists (fun j => d j + e j). intros x Hx. rewrite Hd, He by exact Hx. rewrite <- Sum_plus. apply Sum_ext. intros. ring.
Qed.
Lemma span_sum D n a m c (v : nat -> row) : (forall i, (i < m)%nat -> in_span D n a (v i)) -> in_span D n a (fun x => Sum m (fun i => c i * v i x)).
Proof.
  induction m as [|m IH]; intros H; cbn [Sum].
  - exists (fun _ => 0). intros x _. symmetry. apply Sum_0. intros. ring.
  - apply span_plus; [apply IH; auto|]. apply span_scal. apply H. lia.
Qed.

(** a triangular combination with non-zero diagonal can be undone *)
Lemma tri_span D t a q r : (forall j x, (j < t)%nat -> (x < D)%nat -> a j x = Sum t (fun i => r i j * q i x)) ->
  (forall i j, (j < i)%nat -> (i < t)%nat -> r i j = 0) -> (forall j, (j < t)%nat -> r j j <> 0) ->
  forall i, (i < t)%nat -> in_span D (S i) a (q i).
Proof.
  intros Ha Hu Hd i. induction i as [i IH] using lt_wf_ind. intros Hi.
  apply (span_ext D (S i) a (fun x => / r i i * (a i x + (-1) * Sum i (fun l => r l i * q l x)))).
  - intros x Hx. rewrite (Ha i x Hi Hx), (Sum_split t (S i)) by lia. cbn [Sum].
    rewrite (Sum_0 (t - S i)); [field; auto|]. intros l Hl. rewrite (Hu (S i + l)%nat i) by lia. ring.
  - apply span_scal, span_plus; [apply span_elt; lia|]. apply span_scal, span_sum. intros l Hl. apply (span_mono D (S l)); [lia|]. apply IH; lia.
Qed.

Lemma nrm_nonneg D x : 0 <= nrm D x.
Proof. apply sqrt_pos. Qed.
Lemma nrm_sq D x : nrm D x * nrm D x = ip D x x.
Proof. apply sqrt_sqrt, ip_nonneg. Qed.
Lemma nrm_ext D x y : (forall i, (i < D)%nat -> x i = y i) -> nrm D x = nrm D y.
Proof. intros H. unfold nrm. now rewrite (ip_ext D x x y y H H). Qed.

Section Run.
Variables (D : nat) (pts : list row) (eps : R) (interval : nat) (target : row).
Variable pick : row -> list nat -> nat.
Variable qr : nat -> (nat -> row) -> (nat -> row) * (nat -> nat -> R).
Variable solve : nat -> (nat -> nat -> R) -> (nat -> R) -> (nat -> R).
Hypothesis Hpick : is_pick D pts pick.
Hypothesis Hqr : is_qr D qr.
Hypothesis Hsolve : is_solve solve.
Hypothesis Heps : 0 < eps.
Notation run := (omp_run D pts eps interval target pick qr).

Lemma step_sel t st : o_sel (omp_step D pts eps interval target pick qr t st) = o_sel st ++ [pick (o_res st) (o_sel st)].
Proof.
  unfold omp_step. destruct (Nat.eqb t 0); destruct (Nat.ltb 0 t && Nat.eqb (Nat.modulo t interval) 0); try reflexivity.
  all: destruct (qr _ _); reflexivity.
Qed.

Lemma sel_facts : forall k, (k <= length pts)%nat -> length (o_sel (run k)) = k /\ NoDup (o_sel (run k)) /\ forall i, In i (o_sel (run k)) -> (i < length pts)%nat.
Proof.
  induction k as [|k IH]; intros Hk; [repeat split; [constructor|intros ? []]|]. destruct (IH ltac:(lia)) as (L & N & I). clear IH.
  cbn [omp_run]. rewrite step_sel. destruct (Hpick (o_res (run k)) (o_sel (run k)) N I ltac:(lia)) as (P1 & P2 & _). split; [|split].
  - rewrite app_length. cbn. lia.
  - apply NoDup_snoc; assumption.
  - intros i Hi. apply in_app_iff in Hi as [Hi|[<-|[]]]; auto.
Qed.
Lemma sel_prefix : forall k j, (j <= k)%nat -> exists l, o_sel (run k) = o_sel (run j) ++ l.
Proof.
  induction k as [|k IH]; intros j Hj; [replace j with 0%nat by lia; exists []; now rewrite app_nil_r|].
  destruct (Nat.eq_dec j (S k)) as [->|]; [exists []; now rewrite app_nil_r|]. destruct (IH j ltac:(lia)) as (l & E). cbn [omp_run]. rewrite step_sel, E, <- app_assoc. eauto.
Qed.

Definition atom (k j : nat) : row := pt pts (nth j (o_sel (run k)) 0%nat).
Lemma atom_prefix k k' j : (j < k)%nat -> (k <= k')%nat -> (k' <= length pts)%nat -> atom k' j = atom k j.
Proof.
  intros Hj Hk Hk'. unfold atom. destruct (sel_prefix k' k Hk) as (l & E). rewrite E, app_nth1; [reflexivity|].
  destruct (sel_facts k ltac:(lia)) as (L & _). lia.
Qed.

Notation independent := (ApproxSpec.independent D eps).

Definition inv (t : nat) (st : omp_state) (a : nat -> row) : Prop :=
  orthonormal D t (o_q st) /\
  (forall j x, (j < t)%nat -> (x < D)%nat -> a j x = Sum t (fun i => o_r st i j * o_q st i x)) /\
  (forall i j, (j < i)%nat -> (j < t)%nat -> o_r st i j = 0) /\ (forall j, (j < t)%nat -> o_r st j j <> 0) /\
  (forall x, (x < D)%nat -> o_res st x = target x - Sum t (fun i => ip D (o_q st i) target * o_q st i x)).

Lemma inv_ext t st a a' : (forall j, (j < t)%nat -> a j = a' j) -> inv t st a -> inv t st a'.
Proof. intros H (I1 & I2 & I3). split; [exact I1|]. split; [|exact I3]. intros j x Hj Hx. rewrite <- H by exact Hj. auto. Qed.

Lemma step_inv t st a : inv t st a -> a t = pt pts (pick (o_res st) (o_sel st)) ->
  (forall d, eps <= nrm D (fun x => a t x - Sum t (fun i => d i * a i x))) ->
  inv (S t) (omp_step D pts eps interval target pick qr t st) a.
Proof.
  intros (I1 & I2 & I3 & I4 & _) Ea Hind. unfold omp_step. rewrite <- Ea.
  set (w := fun x => a t x - Sum t (fun i => ip D (o_q st i) (a t) * o_q st i x)).
  assert (Hw : eps <= nrm D w).
  { assert (Hs : in_span D t a (fun x => Sum t (fun i => ip D (o_q st i) (a t) * o_q st i x))).
    { apply span_sum. intros i Hi. apply (span_mono D (S i)); [lia|]. apply (tri_span D t a (o_q st) (o_r st) I2); [intros b c Hb Hc; apply I3; lia|exact I4|exact Hi]. }
    destruct Hs as (d & Hd). specialize (Hind d). rewrite (nrm_ext D w (fun x => a t x - Sum t (fun i => d i * a i x))); [exact Hind|].
    intros x Hx. unfold w. now rewrite Hd. }
  assert (Hw0 : 0 < nrm D w) by lra.
  assert (Hwq : forall i, (i < t)%nat -> ip D (o_q st i) w = 0).
  { intros i Hi. unfold w. rewrite ip_minus_r, ip_comm, (ip_comm D (o_q st i)). rewrite (ip_ortho D t (o_q st) (fun i => ip D (o_q st i) (a t)) i I1 Hi).
    rewrite (ip_comm D (a t)). ring. }
  (* column and new direction, before the reorthogonalisation *)
  assert (Hmid : exists col q_t, (if Nat.eqb t 0 then ((fun i => if Nat.eqb i 0 then nrm D (a t) else 0), rscale (/ Rmax (nrm D (a t)) eps) (a t))
       else ((fun i => if Nat.ltb i t then ip D (o_q st i) (a t) else if Nat.eqb i t then Rmax (nrm D w) eps else 0), rscale (/ Rmax (nrm D w) eps) w)) = (col, q_t) /\
       (forall i, (i < t)%nat -> col i = ip D (o_q st i) (a t)) /\ col t = nrm D w /\ (forall i, (t < i)%nat -> col i = 0) /\ (forall x, (x < D)%nat -> q_t x = / nrm D w * w x)).
  { destruct (Nat.eqb_spec t 0) as [->|Ht].
    - assert (E0 : nrm D w = nrm D (a 0%nat)) by (apply nrm_ext; intros x Hx; unfold w; cbn; ring). rewrite E0 in *.
      eexists _, _. split; [reflexivity|]. split; [intros; lia|]. split; [reflexivity|]. split; [intros i Hi; destruct (Nat.eqb_spec i 0); [lia|reflexivity]|]. intros x Hx. unfold rscale, w. cbn [Sum]. rewrite Rmax_left by lra. ring.
    - eexists _, _. split; [reflexivity|]. split; [|split; [|split]].
      + intros i Hi. destruct (Nat.ltb_spec i t); [reflexivity|lia].
      + destruct (Nat.ltb_spec t t); [lia|]. rewrite Nat.eqb_refl. apply Rmax_left. lra.
      + intros i Hi. destruct (Nat.ltb_spec i t); [lia|]. destruct (Nat.eqb_spec i t); [lia|reflexivity].
      + intros x Hx. unfold rscale. now rewrite Rmax_left by lra. }
  destruct Hmid as (col & q_t & E & Hc1 & Hc2 & Hc3 & Hq). cbv zeta. fold w.
  match goal with |- context [let '(col, q_t) := ?X in _] => change X with
    (if Nat.eqb t 0 then ((fun i => if Nat.eqb i 0 then nrm D (a t) else 0), rscale (/ Rmax (nrm D (a t)) eps) (a t))
       else ((fun i => if Nat.ltb i t then ip D (o_q st i) (a t) else if Nat.eqb i t then Rmax (nrm D w) eps else 0), rscale (/ Rmax (nrm D w) eps) w)) end.
  rewrite E. clear E.
  set (r := set2 (o_r st) t col). set (q := set1 (o_q st) t q_t).
  assert (Qo : forall i, (i < t)%nat -> q i = o_q st i) by (intros i Hi; unfold q, set1; destruct (Nat.eqb_spec i t); [lia|reflexivity]).
  assert (Qt : q t = q_t) by (unfold q, set1; now rewrite Nat.eqb_refl).
  assert (Ro : forall i j, (j < t)%nat -> r i j = o_r st i j) by (intros i j Hj; unfold r, set2; destruct (Nat.eqb_spec j t); [lia|reflexivity]).
  assert (Rt : forall i, r i t = col i) by (intros i; unfold r, set2; now rewrite Nat.eqb_refl).
  assert (Qort : orthonormal D (S t) q).
  { assert (Hqt : forall i, (i < t)%nat -> ip D (o_q st i) q_t = 0).
    { intros i Hi. rewrite (ip_ext D _ _ (o_q st i) (fun x => / nrm D w * w x)); [|reflexivity|exact Hq].
      rewrite ip_comm, ip_scal_l, ip_comm, Hwq by exact Hi. ring. }
    intros b c Hb Hc. destruct (Nat.eq_dec b t) as [->|Hb'], (Nat.eq_dec c t) as [->|Hc'].
    - rewrite Qt, Nat.eqb_refl. rewrite (ip_ext D _ _ (fun x => / nrm D w * w x) (fun x => / nrm D w * w x)) by exact Hq.
      rewrite ip_scal_l, ip_comm, ip_scal_l, <- nrm_sq. field. lra.
    - rewrite Qt, (Qo c), ip_comm, Hqt by lia. destruct (Nat.eqb_spec t c); [lia|reflexivity].
    - rewrite Qt, (Qo b), Hqt by lia. destruct (Nat.eqb_spec b t); [lia|reflexivity].
    - rewrite !Qo by lia. apply I1; lia. }
  assert (Aeq : forall j x, (j < S t)%nat -> (x < D)%nat -> a j x = Sum (S t) (fun i => r i j * q i x)).
  { intros j x Hj Hx. cbn [Sum]. rewrite Qt. destruct (Nat.eq_dec j t) as [->|Hj'].
    - rewrite Rt, Hc2, Hq by exact Hx. rewrite (Sum_ext t _ (fun i => ip D (o_q st i) (a t) * o_q st i x)).
      + replace (nrm D w * (/ nrm D w * w x)) with (w x) by (field; lra). unfold w. ring.
      + intros i Hi. now rewrite Rt, Hc1, Qo.
    - rewrite (I2 j x) by lia. rewrite (Sum_ext t (fun i => r i j * q i x) (fun i => o_r st i j * o_q st i x)).
      + rewrite Ro, (I3 t j) by lia. ring.
      + intros i Hi. now rewrite Ro, Qo by lia. }
  assert (Rup : forall i j, (j < i)%nat -> (j < S t)%nat -> r i j = 0).
  { intros i j Hij Hj. destruct (Nat.eq_dec j t) as [->|]; [rewrite Rt; apply Hc3; exact Hij|]. rewrite Ro by lia. apply I3; lia. }
  assert (Rd : forall j, (j < S t)%nat -> r j j <> 0).
  { intros j Hj. destruct (Nat.eq_dec j t) as [->|]; [rewrite Rt, Hc2; lra|]. rewrite Ro by lia. apply I4; lia. }
  clearbody r q. clear Hc1 Hc2 Hc3 Hq Qo Qt Ro Rt.
  destruct (Nat.ltb 0 t && Nat.eqb (Nat.modulo t interval) 0).
  - specialize (Hqr (S t) q Qort). destruct (qr (S t) q) as [qn rn]. destruct Hqr as (N1 & N2 & N3 & N4).
    split; [exact N1|]. cbn [o_q o_r o_res]. split; [|split; [|split]].
    + intros j x Hj Hx. rewrite (Aeq j x Hj Hx).
      rewrite (Sum_ext (S t) (fun i => (if Nat.leb i t && Nat.leb j t then Sum (S t) (fun l => rn i l * r l j) else r i j) * qn i x)
                 (fun i => Sum (S t) (fun l => rn i l * r l j * qn i x))).
      * rewrite Sum_swap. apply Sum_ext. intros l Hl. rewrite (N2 l x Hl Hx), <- Sum_scal. apply Sum_ext. intros. ring.
      * intros i Hi. destruct (Nat.leb_spec i t); [|lia]. destruct (Nat.leb_spec j t); [|lia]. cbn [andb]. now rewrite Sum_scal_r.
    + intros i j Hij Hj. destruct (Nat.leb_spec i t); destruct (Nat.leb_spec j t); cbn [andb]; try (apply Rup; lia).
      apply Sum_0. intros l Hl. destruct (Nat.lt_ge_cases l i); [rewrite N3 by lia; ring|rewrite Rup by lia; ring].
    + intros j Hj. destruct (Nat.leb_spec j t); [|lia]. cbn [andb]. rewrite (Sum_single (S t) j); [|exact Hj|].
      * apply Rmult_integral_contrapositive; auto.
      * intros l Hl Hlj. destruct (Nat.lt_ge_cases l j); [rewrite N3 by lia; ring|rewrite Rup by lia; ring].
    + intros x Hx. reflexivity.
  - split; [exact Qort|]. cbn [o_q o_r o_res]. split; [exact Aeq|]. split; [exact Rup|]. split; [exact Rd|]. intros x Hx. reflexivity.
Qed.

Lemma run_inv : forall t k, (t <= k)%nat -> (k <= length pts)%nat -> independent k (atom k) -> inv t (run t) (atom k).
Proof.
  induction t as [|t IH]; intros k Ht Hk Hi.
  - cbn. split; [intros b c Hb; lia|]. split; [intros; lia|]. split; [intros; lia|]. split; [intros; lia|]. intros x _. cbn. ring.
  - cbn [omp_run]. apply step_inv.
    + apply IH; [lia|lia|exact Hi].
    + rewrite (atom_prefix (S t) k t) by lia. unfold atom. cbn [omp_run]. rewrite step_sel.
      destruct (sel_facts t ltac:(lia)) as (L & _). rewrite app_nth2 by lia. rewrite L, Nat.sub_diag. reflexivity.
    + intros d. apply Hi. lia.
Qed.

(** the combination the coefficients describe is the projection of the target *)
Lemma combination k : (k <= length pts)%nat -> independent k (atom k) ->
  forall x, (x < D)%nat -> Sum k (fun j => solve k (o_r (run k)) (fun i => ip D (o_q (run k) i) target) j * atom k j x) =
    Sum k (fun i => ip D (o_q (run k) i) target * o_q (run k) i x).
Proof.
  intros Hk Hi x Hx. destruct (run_inv k k (Nat.le_refl k) Hk Hi) as (I1 & I2 & I3 & I4 & I5).
  set (c := solve k _ _). rewrite (Sum_ext k _ (fun j => Sum k (fun i => c j * (o_r (run k) i j * o_q (run k) i x)))).
  - rewrite Sum_swap. apply Sum_ext. intros i Hi'.
    rewrite (Sum_ext k _ (fun j => (o_r (run k) i j * c j) * o_q (run k) i x)) by (intros; ring).
    rewrite Sum_scal_r. f_equal. unfold c.
    apply (Hsolve k (o_r (run k)) (fun i => ip D (o_q (run k) i) target)); [intros a b Ha Hb; apply I3; lia|exact I4|exact Hi'].
  - intros j Hj. rewrite (I2 j x Hj Hx), <- Sum_scal. reflexivity.
Qed.

Lemma res_ortho k : (k <= length pts)%nat -> independent k (atom k) -> forall i, (i < k)%nat -> ip D (o_res (run k)) (o_q (run k) i) = 0.
Proof.
  intros Hk Hi i Hi'. destruct (run_inv k k (Nat.le_refl k) Hk Hi) as (I1 & I2 & I3 & I4 & I5).
  rewrite (ip_ext D _ _ (fun x => target x - Sum k (fun i => ip D (o_q (run k) i) target * o_q (run k) i x)) (o_q (run k) i)); [|exact I5|reflexivity].
  rewrite ip_minus_l, (ip_ortho D k (o_q (run k)) (fun i => ip D (o_q (run k) i) target) i I1 Hi'), (ip_comm D target). ring.
Qed.
Lemma res_atom k : (k <= length pts)%nat -> independent k (atom k) -> forall j, (j < k)%nat -> ip D (o_res (run k)) (atom k j) = 0.
Proof.
  intros Hk Hi j Hj. destruct (run_inv k k (Nat.le_refl k) Hk Hi) as (I1 & I2 & I3 & I4 & I5).
  rewrite (ip_ext D _ _ (o_res (run k)) (fun x => Sum k (fun i => o_r (run k) i j * o_q (run k) i x))); [|reflexivity|intros x Hx; exact (I2 j x Hj Hx)].
  rewrite ip_comb_r. apply Sum_0. intros i Hi'. rewrite res_ortho by assumption. ring.
Qed.
(** no combination of the chosen points comes closer *)
Lemma res_best k : (k <= length pts)%nat -> independent k (atom k) ->
  forall d, nrm D (o_res (run k)) <= nrm D (fun x => target x - Sum k (fun j => d j * atom k j x)).
Proof.
  intros Hk Hi d. apply sqrt_le_1_alt. set (e := fun x => o_res (run k) x - (target x - Sum k (fun j => d j * atom k j x))).
  destruct (run_inv k k (Nat.le_refl k) Hk Hi) as (I1 & I2 & I3 & I4 & I5).
  set (y := fun x => target x - Sum k (fun j => d j * atom k j x)).
  (* e is a combination of the chosen points, hence orthogonal to the residual *)
  assert (Hs : in_span D k (atom k) e).
  { apply (span_ext D k (atom k) (fun x => Sum k (fun j => d j * atom k j x) + (-1) * Sum k (fun i => ip D (o_q (run k) i) target * o_q (run k) i x))).
    - intros x Hx. unfold e. rewrite I5 by exact Hx. ring.
    - apply span_plus; [exists d; reflexivity|]. apply span_scal, span_sum. intros i Hi'. apply (span_mono D (S i)); [lia|].
      apply (tri_span D k (atom k) (o_q (run k)) (o_r (run k)) I2); [intros a b Ha Hb; apply I3; lia|exact I4|exact Hi']. }
  assert (He : ip D (o_res (run k)) e = 0).
  { destruct Hs as (f & Hf). rewrite (ip_ext D _ _ (o_res (run k)) (fun x => Sum k (fun j => f j * atom k j x))); [|reflexivity|exact Hf].
    rewrite ip_comb_r. apply Sum_0. intros j Hj. rewrite res_atom by assumption. ring. }
  rewrite (ip_ext D y y (fun x => o_res (run k) x - e x) (fun x => o_res (run k) x - e x)); try (intros x Hx; unfold e, y; ring).
  rewrite ip_minus_l, !ip_minus_r, (ip_comm D e (o_res (run k))), He. pose proof (ip_nonneg D e). lra.
Qed.
Lemma independent_prefix k k' : (k <= k')%nat -> (k' <= length pts)%nat -> independent k' (atom k') -> independent k (atom k).
Proof.
  intros Hk Hk' H j d Hj. specialize (H j d ltac:(lia)). rewrite (atom_prefix k k' j Hj Hk Hk') in H.
  erewrite nrm_ext; [exact H|]. intros x Hx. cbv beta. f_equal. apply Sum_ext. intros i Hi. now rewrite (atom_prefix k k' i) by lia.
Qed.
Lemma res_decreasing k k' : (k <= k')%nat -> (k' <= length pts)%nat -> independent k' (atom k') -> nrm D (o_res (run k')) <= nrm D (o_res (run k)).
Proof.
  intros Hk Hk' H. pose proof (independent_prefix k k' Hk Hk' H) as H'.
  destruct (run_inv k k (Nat.le_refl k) ltac:(lia) H') as (I1 & I2 & I3 & I4 & I5).
  pose (c := solve k (o_r (run k)) (fun i => ip D (o_q (run k) i) target)).
  rewrite (nrm_ext D (o_res (run k)) (fun x => target x - Sum k' (fun j => (if Nat.ltb j k then c j else 0) * atom k' j x))); [apply res_best; assumption|].
  intros x Hx. rewrite I5, <- combination by (assumption || lia). fold c. f_equal. rewrite (Sum_split k' k) by lia.
  rewrite (Sum_0 (k' - k)).
  - rewrite Rplus_0_r. apply Sum_ext. intros j Hj. destruct (Nat.ltb_spec j k); [|lia]. now rewrite (atom_prefix k k' j) by lia.
  - intros i Hi. destruct (Nat.ltb_spec (k + i) k); [lia|ring].
Qed.
End Run.
