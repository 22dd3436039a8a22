(** Proofs for C81. *)
From Coq Require Import Reals Lra Permutation.
From Verif.Base Require Import LinAlg RList Py PyFacts.
From Verif.TokenSurgeon Require Import Model Spec Approx ApproxSpec ApproxInst ApproxProofs OmpProofs LeastSquares Weights Rope PropsOmp PropsWeights Transplant TransplantSpec.
Local Open Scope list_scope.

Lemma insert_perm key t l : Permutation (insert_by key t l) (t :: l).
Proof.
  induction l as [|s l IH]; cbn [insert_by]; [reflexivity|]. destruct (Nat.leb (key t) (key s)); [reflexivity|].
  rewrite IH. apply perm_swap.
Qed.
Lemma sort_perm key l : Permutation (sort_by key l) l.
Proof. induction l as [|t l IH]; cbn; [reflexivity|]. rewrite insert_perm. now constructor. Qed.

Inductive ascending (key : ntok -> nat) : list ntok -> Prop :=
| asc_nil : ascending key []
| asc_cons t l : (forall s, In s l -> key t <= key s) -> ascending key l -> ascending key (t :: l).
Lemma insert_asc key t l : ascending key l -> ascending key (insert_by key t l).
Proof.
  induction 1 as [|s l Hs Hl IH]; cbn [insert_by]; [constructor; [intros ? []|constructor]|].
  destruct (Nat.leb_spec (key t) (key s)).
  - constructor; [|now constructor]. intros x [<-|Hx]; [assumption|]. specialize (Hs x Hx). lia.
  - constructor; [|exact IH]. intros x Hx. apply (Permutation_in _ (insert_perm key t l)) in Hx as [<-|Hx]; [lia|auto].
Qed.
Lemma sort_asc key l : ascending key (sort_by key l).
Proof. induction l; cbn; [constructor|now apply insert_asc]. Qed.
Lemma asc_unique key : forall l l', ascending key l -> ascending key l' -> Permutation l l' -> NoDup l ->
  (forall a b, In a l -> In b l -> key a = key b -> a = b) -> l = l'.
Proof.
  induction l as [|t l IH]; intros l' H H' P N Hk.
  - apply Permutation_nil in P. now subst.
  - destruct l' as [|t' l']; [symmetry in P; apply Permutation_nil in P; discriminate|].
    inversion H as [|? ? A1 A2]; subst. inversion H' as [|? ? B1 B2]; subst.
    assert (In t (t' :: l')) as I1 by (eapply Permutation_in; [exact P|now left]).
    assert (In t' (t :: l)) as I2 by (eapply Permutation_in; [symmetry; exact P|now left]).
    assert (t = t') as <-.
    { apply Hk; [now left|exact I2|]. destruct I1 as [->|I1]; [reflexivity|]. destruct I2 as [->|I2]; [reflexivity|]. specialize (A1 _ I2). specialize (B1 _ I1). lia. }
    f_equal. apply IH; auto; [eapply Permutation_cons_inv; exact P|now inversion N|]. intros; apply Hk; auto; now right.
Qed.

Lemma dmem_In {V} (d : dict ntok V) t : dmem d t = true <-> In t (dkeys d).
Proof.
  rewrite dget_Some_key. unfold dmem. destruct (dget d t) as [v|]; split; eauto; [discriminate|]. intros (? & [=]).
Qed.
Lemma id_of_In (v : dict ntok nat) t i : NoDup (dkeys v) -> In (t, i) v -> id_of v t = i.
Proof. intros N H. unfold id_of. now rewrite (dget_In_NoDup _ _ _ N H). Qed.
Lemma key_In (v : dict ntok nat) t : In t (dkeys v) -> exists i, In (t, i) v.
Proof. intros H. unfold dkeys in H. apply in_map_iff in H as ((t' & i) & <- & H). eauto. Qed.
Lemma vals_inj (v : dict ntok nat) a b i : NoDup (dvals v) -> In (a, i) v -> In (b, i) v -> a = b.
Proof.
  unfold dvals. induction v as [|[k x] v IH]; intros N H1 H2; [destruct H1|]. cbn [map snd] in N. inversion N as [|? ? Hn N']; subst.
  destruct H1 as [E1|H1], H2 as [E2|H2]; [congruence| | |now apply IH].
  - injection E1 as -> ->. exfalso. apply Hn. change i with (snd (b, i)). now apply in_map.
  - injection E2 as -> ->. exfalso. apply Hn. change i with (snd (a, i)). now apply in_map.
Qed.

Section Shared.
Variables (w : world) (orig donor : dict ntok nat).
Hypothesis Hl : is_listing (w_listing w).
Hypothesis Hd : is_vocab donor.
Lemma shared_perm : Permutation (shared_vocab w orig donor) (filter (dmem orig) (dkeys donor)).
Proof. unfold shared_vocab. rewrite sort_perm. apply Hl. Qed.
Lemma shared_In t : In t (shared_vocab w orig donor) <-> in_both orig donor t.
Proof.
  unfold in_both. rewrite <- dmem_In. split; intros H.
  - apply (Permutation_in _ shared_perm), filter_In in H. tauto.
  - apply (Permutation_in _ (Permutation_sym shared_perm)), filter_In. tauto.
Qed.
Lemma shared_NoDup : NoDup (shared_vocab w orig donor).
Proof. eapply Permutation_NoDup; [symmetry; apply shared_perm|]. apply NoDup_filter, Hd. Qed.
Lemma shared_is : shared_list orig donor (shared_vocab w orig donor).
Proof.
  split; [apply shared_NoDup|]. split; [apply shared_In|]. intros a b i j p q Hpq Ha Hb Hi Hj.
  pose proof (sort_asc (id_of donor) (w_listing w (filter (dmem orig) (dkeys donor)))) as HA. fold (shared_vocab w orig donor) in HA.
  assert (Hle : i <= j).
  { rewrite <- (id_of_In donor a i), <- (id_of_In donor b j) by (assumption || apply Hd). clear Hi Hj.
    revert p q Hpq Ha Hb. induction HA as [|t l Ht _ IH]; intros p q Hpq Ha Hb; [destruct p; discriminate|].
    destruct q as [|q]; [lia|]. cbn in Hb. destruct p as [|p]; cbn in Ha.
    - injection Ha as ->. apply Ht. eapply nth_error_In; eassumption.
    - eapply (IH p q); eauto; lia. }
  destruct (Nat.eq_dec i j) as [->|]; [|lia]. assert (a = b) by (eapply vals_inj; [apply Hd| |]; eassumption). subst b.
  pose proof shared_NoDup as N. rewrite NoDup_nth_error in N. assert (p = q); [|lia]. apply N; [apply nth_error_Some|]; congruence.
Qed.
End Shared.
Lemma shared_list_asc orig donor s : is_vocab donor -> shared_list orig donor s -> ascending (id_of donor) s.
Proof.
  intros Hd (N & I & O). assert (K : forall t, In t s -> In t (dkeys donor)) by (intros t Ht; now apply I in Ht as [_ ?]).
  clear I N. induction s as [|t s IH]; constructor.
  - intros x Hx. apply In_nth_error in Hx as Hx'. destruct Hx' as (q & Hq). destruct (key_In donor t (K t (or_introl eq_refl))) as (i & Hi).
    destruct (key_In donor x (K x (or_intror Hx))) as (j & Hj). rewrite (id_of_In donor t i), (id_of_In donor x j) by (assumption || apply Hd).
    apply Nat.lt_le_incl, (O t x i j 0 (S q)); auto; lia.
  - apply IH; [intros a b i j p q Hpq Ha Hb; apply (O a b i j (S p) (S q)); auto; lia|]. intros; apply K; now right.
Qed.
Lemma shared_unique orig donor orig' donor' s s' : is_vocab donor -> is_vocab donor' ->
  (forall t, in_both orig donor t <-> in_both orig' donor' t) -> (forall t i, In (t, i) donor <-> In (t, i) donor') ->
  shared_list orig donor s -> shared_list orig' donor' s' -> s = s'.
Proof.
  intros Hd Hd' Ho Hdd H H'.
  assert (Hs : shared_list orig donor s').
  { destruct H' as (N & I & O). split; [exact N|]. split; [intros t; now rewrite I, Ho|].
    intros a b i j p q Hpq Ha Hb Hi Hj. eapply (O a b i j p q); auto; now apply Hdd. }
  destruct H as (N & I & O) eqn:E. clear E. apply (asc_unique (id_of donor)).
  - eapply shared_list_asc; [exact Hd|]. now split.
  - eapply shared_list_asc; eassumption.
  - apply NoDup_Permutation; [exact N|apply Hs|]. intros t. rewrite I. symmetry. apply Hs.
  - exact N.
  - intros a b Ha Hb Hk. apply I in Ha as [_ Ha]. apply I in Hb as [_ Hb]. apply key_In in Ha as (i & Ha), Hb as (j & Hb).
    rewrite (id_of_In donor a i), (id_of_In donor b j) in Hk by (assumption || apply Hd). subst j. eapply vals_inj; [apply Hd| |]; eassumption.
Qed.

Lemma rows_of_ok m v ts : is_vocab v -> within m v -> ts <> [] -> (forall t, In t ts -> In t (dkeys v)) -> rows_of m v ts = Ok (map (row_of m v) ts).
Proof.
  intros Hv Hw Hne Hin. unfold rows_of. destruct ts as [|t0 ts0] eqn:Et; [congruence|]. rewrite <- Et in *. clear Et t0 ts0 Hne.
  induction ts as [|t ts IH]; [reflexivity|]. cbn [rmapM map]. rewrite IH by (intros; apply Hin; now right).
  destruct (key_In v t (Hin t (or_introl eq_refl))) as (i & Hi). pose proof (dget_In_NoDup _ _ _ (proj1 Hv) Hi) as E.
  assert (Er : row_of m v t = nth i m rzero) by (unfold row_of; now rewrite E). rewrite Er. unfold dgetE. rewrite E. cbn [rbind].
  unfold nthE. rewrite (nth_error_nth' m rzero) by exact (Hw t i Hi). reflexivity.
Qed.

(** the methods that work with the shared tokens *)
Definition by_shared (a : approximation) : bool := match a with ACommon _ _ | AOmp | APca | ARope => true | _ => false end.
Section Compute.
Variables (w : world) (o : options) (dd dor : nat) (head : bool) (orig_embed donor_embed : list row) (orig donor : dict ntok nat).
Hypothesis Hl : is_listing (w_listing w).
Hypothesis Ho : is_vocab orig.
Hypothesis Hd : is_vocab donor.
Hypothesis Hwo : within orig_embed orig.
Hypothesis Hwd : within donor_embed donor.
Lemma compute_shared ts : by_shared (op_method o) = true -> (forall t, In t ts -> In t (dkeys donor)) -> ts <> [] ->
  (exists t, in_both orig donor t) ->
  let s := shared_vocab w orig donor in
  compute_new w o dd dor head orig_embed donor_embed orig donor ts =
  rmapM (fun t => approximate w o dd dor (map (row_of donor_embed donor) s) (map (row_of orig_embed orig) s) (row_of donor_embed donor t)) ts.
Proof.
  intros Hm Ht Hne (t0 & H0) s. unfold compute_new.
  assert (Ef : forallb (dmem donor) ts = true) by (apply forallb_forall; intros t Hi; now apply dmem_In, Ht). rewrite Ef. cbn [negb].
  assert (Hs : s <> []) by (intros E; apply (shared_In w orig donor Hl) in H0; fold s in H0; rewrite E in H0; destruct H0).
  assert (R1 : rows_of donor_embed donor s = Ok (map (row_of donor_embed donor) s)) by (apply rows_of_ok; auto; intros t Hi; now apply shared_In in Hi as [_ ?]).
  assert (R2 : rows_of orig_embed orig s = Ok (map (row_of orig_embed orig) s)) by (apply rows_of_ok; auto; intros t Hi; now apply shared_In in Hi as [? _]).
  assert (R3 : rows_of donor_embed donor ts = Ok (map (row_of donor_embed donor) ts)) by (apply rows_of_ok; auto).
  assert (RM : forall f : row -> result row, rmapM f (map (row_of donor_embed donor) ts) = rmapM (fun t => f (row_of donor_embed donor t)) ts).
  { intros f. clear. induction ts as [|t ts IH]; cbn [map rmapM]; [reflexivity|]. now rewrite IH. }
  destruct (op_method o) eqn:Em; try discriminate Hm; cbv zeta; fold s; rewrite R1; cbn [rbind]; rewrite R2; cbn [rbind]; rewrite R3; cbn [rbind]; apply RM.
Qed.
(** without shared tokens there is nothing to work with *)
Lemma compute_none ts : by_shared (op_method o) = true -> (forall t, In t ts -> In t (dkeys donor)) -> (forall t, ~ in_both orig donor t) ->
  compute_new w o dd dor head orig_embed donor_embed orig donor ts = Err IndexError.
Proof.
  intros Hm Ht Hn. unfold compute_new.
  assert (Ef : forallb (dmem donor) ts = true) by (apply forallb_forall; intros t Hi; now apply dmem_In, Ht). rewrite Ef. cbn [negb].
  assert (Hs : shared_vocab w orig donor = []).
  { destruct (shared_vocab w orig donor) as [|t l] eqn:E; [reflexivity|]. exfalso. apply (Hn t), (shared_In w orig donor Hl). rewrite E. now left. }
  destruct (op_method o); try discriminate Hm; cbv zeta; rewrite Hs; reflexivity.
Qed.
End Compute.

(** ** as many independent vectors as dimensions reach everything *)
Local Open Scope R_scope.
Lemma complete D q r : orthonormal D D q -> (forall b, (b < D)%nat -> ip D r (q b) = 0) -> forall x, (x < D)%nat -> r x = 0.
Proof.
  intros Hq Hr. set (e := fun x i : nat => if Nat.eqb i x then 1 else 0).
  assert (He : forall x v, (x < D)%nat -> ip D v (e x) = v x).
  { intros x v Hx. unfold ip. rewrite (Sum_single D x); [unfold e; rewrite Nat.eqb_refl; ring|exact Hx|]. intros i _ Hi. unfold e. destruct (Nat.eqb_spec i x); [contradiction|ring]. }
  assert (Hs : Sum D (fun x => 1 - Sum D (fun b => q b x * q b x)) = 0).
  { rewrite Sum_minus, Sum_const, Rmult_1_r, Sum_swap. rewrite (Sum_ext D (fun j => Sum D (fun i => q j i * q j i)) (fun _ => 1)).
    - rewrite Sum_const. ring.
    - intros b Hb. pose proof (Hq b b Hb Hb) as H. rewrite Nat.eqb_refl in H. exact H. }
  assert (Hx1 : forall x, (x < D)%nat -> Sum D (fun b => q b x * q b x) = 1).
  { intros x Hx. assert (H : forall x, (x < D)%nat -> 0 <= 1 - Sum D (fun b => q b x * q b x)).
    { clear x Hx. intros x Hx. pose proof (bessel D D q (e x) Hq) as B. rewrite (He x (e x) Hx) in B.
      replace (e x x) with 1 in B by (unfold e; now rewrite Nat.eqb_refl). rewrite (Sum_ext D _ (fun b => q b x * q b x)) in B; [lra|].
      intros b _. rewrite ip_comm, He by exact Hx. reflexivity. }
    pose proof (Sum_zero_inv D _ H Hs x Hx). cbv beta in *. lra. }
  intros x Hx. pose proof (dist_ortho D D q (e x) (fun b => ip D (e x) (q b)) Hq) as E. cbv beta in E.
  rewrite (Sum_0 D (fun b => (ip D (e x) (q b) - ip D (e x) (q b)) * _)) in E by (intros; ring).
  rewrite (He x (e x) Hx) in E. replace (e x x) with 1 in E by (unfold e; now rewrite Nat.eqb_refl).
  rewrite (Sum_ext D (fun b => ip D (e x) (q b) * ip D (e x) (q b)) (fun b => q b x * q b x)) in E by (intros b _; rewrite ip_comm, He by exact Hx; reflexivity).
  rewrite (Hx1 x Hx) in E. replace (1 - 1 + 0) with 0 in E by ring. pose proof (ip_zero D _ E) as Z. cbv beta in Z.
  rewrite <- (He x r Hx). rewrite (ip_ext D r (e x) r (fun i => Sum D (fun b => ip D (e x) (q b) * q b i))) by (auto; intros i Hi; specialize (Z i Hi); lra).
  rewrite ip_comb_r. apply Sum_0. intros b Hb. rewrite Hr by exact Hb. ring.
Qed.
Lemma full_span D eps a b : 0 < eps -> independent D eps D a -> forall x, (x < D)%nat -> b x = Sum D (fun j => lsq D D a b j * a j x).
Proof.
  intros He Hi. set (v := fun j => left_over j a (lsq D j a (a j)) (a j)).
  assert (Hv : forall j, (j < D)%nat -> 0 < nrm D (v j)) by (intros j Hj; pose proof (Hi j (lsq D j a (a j)) Hj) as H; change (eps <= nrm D (v j)) in H; lra).
  assert (Hva : forall i j, (i < j)%nat -> ip D (v j) (a i) = 0) by (intros i j Hij; unfold v; now apply lsq_normal).
  assert (Hr : forall (r : row) m, (m <= D)%nat -> (forall j, (j < m)%nat -> ip D r (a j) = 0) -> forall j, (j < m)%nat -> ip D r (v j) = 0).
  { intros r m Hm H j Hj. unfold v, left_over. rewrite ip_minus_r, ip_comb_r, H, Sum_0 by (auto; intros l Hl; rewrite H by lia; ring). ring. }
  set (q := fun j x => / nrm D (v j) * v j x).
  assert (Hq : orthonormal D D q).
  { assert (Hlt : forall i j, (i < j)%nat -> (j < D)%nat -> ip D (q j) (q i) = 0).
    { intros i j Hij Hj. unfold q. rewrite ip_scal_l, ip_scal_r. rewrite (Hr (v j) j) by (auto; lia). ring. }
    intros i j Hi' Hj. destruct (Nat.eqb_spec i j) as [->|Hne].
    - unfold q. rewrite ip_scal_l, ip_scal_r, <- nrm_sq. specialize (Hv j Hj). field. lra.
    - destruct (Nat.lt_ge_cases i j); [rewrite ip_comm|]; apply Hlt; lia. }
  intros x Hx. enough (left_over D a (lsq D D a b) b x = 0) as Z by (unfold left_over in Z; lra).
  apply (complete D q); [exact Hq| |exact Hx]. intros j Hj. unfold q. rewrite ip_scal_r. rewrite (Hr _ D); [ring|lia| |exact Hj]. intros; now apply lsq_normal.
Qed.
