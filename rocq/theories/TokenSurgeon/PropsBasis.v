(** * C83: sparse token bases *)
From Coq Require Import Reals Lra Permutation.
From Verif.Base Require Import LinAlg RList Py PyFacts.
From Verif.TokenSurgeon Require Import Model Spec Proofs Approx ApproxSpec ApproxInst ApproxProofs OmpProofs LeastSquares
  PropsOmp PropsPca PropsWeights Transplant TransplantSpec TransplantProofs PropsTransplant Basis BasisSpec.
Local Open Scope list_scope.
Local Open Scope R_scope.

Lemma average_perm f s s' x : Permutation s s' -> average f s x = average f s' x.
Proof. intros H. unfold average. rewrite (Permutation_length H). f_equal. apply rsum_Permutation. now apply Permutation_map. Qed.
Lemma usable_perm orig donor junk s s' : usable_list orig donor junk s -> usable_list orig donor junk s' -> Permutation s s'.
Proof. intros (N & H) (N' & H'). apply NoDup_Permutation; auto. intros t. now rewrite H, H'. Qed.

Lemma F2_right {A B} (P : A -> B -> Prop) l m y : Forall2 P l m -> In y m -> exists x, In x l /\ P x y.
Proof. induction 1 as [|a b l m H _ IH]; intros Hy; [destruct Hy|]. destruct Hy as [<-|Hy]; [exists a; split; [now left|exact H]|]. destruct (IH Hy) as (x & Hx & Hp). exists x. split; [now right|exact Hp]. Qed.
Lemma F2_nth {A B} (P : A -> B -> Prop) d d' l m : Forall2 P l m -> forall n, (n < length l)%nat -> P (nth n l d) (nth n m d').
Proof. induction 1 as [|a b l m H _ IH]; intros n Hn; cbn in *; [lia|]. destruct n; [exact H|]. apply IH. lia. Qed.
Lemma F2_len {A B} (P : A -> B -> Prop) l m : Forall2 P l m -> length l = length m.
Proof. induction 1; cbn; congruence. Qed.
Lemma rmapM_all {A B} (f : A -> result B) l : (forall x, In x l -> exists y, f x = Ok y) -> exists m, rmapM f l = Ok m.
Proof. induction l as [|a l IH]; intros H; cbn [rmapM]; [eauto|]. destruct (H a (or_introl eq_refl)) as (y & ->). destruct IH as (m & ->); [intros; apply H; now right|]. cbn. eauto. Qed.

Lemma orthonormal_independent D n q : orthonormal D n q -> independent D 1 n q.
Proof.
  intros Hq j d Hj. rewrite <- sqrt_1. unfold nrm. apply sqrt_le_1_alt.
  assert (Hj' : orthonormal D j q) by (intros a b Ha Hb; apply Hq; lia). rewrite (dist_ortho D j q (q j) d Hj').
  pose proof (Hq j j Hj Hj) as E1. rewrite Nat.eqb_refl in E1. change (ip D (q j) (q j) = 1) in E1. rewrite E1.
  rewrite (Sum_0 j (fun b => ip D (q j) (q b) * ip D (q j) (q b))).
  - match goal with |- 1 <= 1 - 0 + ?t => assert (0 <= t) by (apply Sum_nonneg; intros; apply Rle_0_sqr); lra end.
  - intros i Hi. pose proof (Hq j i Hj ltac:(lia)) as E. destruct (Nat.eqb_spec j i); [lia|]. change (ip D (q j) (q i) = 0) in E. rewrite E. ring.
Qed.
Lemma cauchy D a b : ip D a b * ip D a b <= ip D a a * ip D b b.
Proof.
  pose proof (ip_nonneg D b) as H0. destruct (Req_dec (ip D b b) 0) as [Z|Z].
  - assert (E : ip D a b = 0) by (apply Sum_0; intros i Hi; rewrite (ip_zero D b Z i Hi); ring). rewrite E, Z. lra.
  - pose proof (ip_nonneg D (fun i => a i - ip D a b / ip D b b * b i)) as H. rewrite ip_minus_l, !ip_minus_r, ip_scal_l, !ip_scal_r, ip_scal_l, (ip_comm D b a) in H.
    replace (ip D a a - ip D a b / ip D b b * ip D a b - (ip D a b / ip D b b * ip D a b - ip D a b / ip D b b * (ip D a b / ip D b b * ip D b b))) with (ip D a a - ip D a b * ip D a b / ip D b b) in H by (field; exact Z).
    apply Rmult_le_compat_r with (r := ip D b b) in H; [|exact H0]. rewrite Rmult_0_l, Rmult_minus_distr_r in H. unfold Rdiv in H. rewrite Rmult_assoc, Rinv_l in H by exact Z. lra.
Qed.
(** a linear map does not stretch without bound *)
Lemma image_bound D n (f : nat -> nat -> R) : exists M, 0 < M /\ forall z, ip n (fun y => Sum D (fun x => f y x * z x)) (fun y => Sum D (fun x => f y x * z x)) <= M * M * ip D z z.
Proof.
  set (m := Sum n (fun y => ip D (f y) (f y))). assert (Hm : 0 <= m) by (apply Sum_nonneg; intros; apply ip_nonneg).
  exists (m + 1). split; [lra|]. intros z. pose proof (ip_nonneg D z) as Hz. apply Rle_trans with (m * ip D z z).
  - unfold m. rewrite <- Sum_scal_r. apply Sum_le. intros y _. apply (cauchy D (f y) z).
  - apply Rmult_le_compat_r; [exact Hz|]. nra.
Qed.

Lemma Sum_rsum {A} D (f : nat -> A -> R) l : Sum D (fun x => rsum (map (f x) l)) = rsum (map (fun a => Sum D (fun x => f x a)) l).
Proof. induction l as [|a l IH]; cbn [map]; [now apply Sum_0|]. rewrite rsum_cons, <- IH, <- Sum_plus. apply Sum_ext. intros. now rewrite rsum_cons. Qed.
(** the left singular vectors of a symmetric positive matrix are its eigenvectors *)
Lemma svd_axes D (C u v : nat -> nat -> R) s : orthogonal D u -> orthogonal D v -> (forall l, (l < D)%nat -> 0 <= s l) ->
  (forall i j, (i < D)%nat -> (j < D)%nat -> C i j = Sum D (fun l => u i l * s l * v j l)) ->
  (forall i j, (i < D)%nat -> (j < D)%nat -> C i j = C j i) -> (forall z, 0 <= Sum D (fun x => z x * Sum D (fun y => C x y * z y))) ->
  forall i x, (i < D)%nat -> (x < D)%nat -> Sum D (fun y => C x y * u y i) = s i * u x i.
Proof.
  intros (Hu & _) (Hv & _) Hs HC Hsym Hpos i x Hi Hx.
  assert (Cv : forall x, (x < D)%nat -> Sum D (fun y => C x y * v y i) = s i * u x i).
  { clear x Hx. intros x Hx. rewrite (Sum_ext D _ (fun y => Sum D (fun l => u x l * s l * (v y l * v y i)))).
    2: { intros y Hy. rewrite (HC x y Hx Hy), <- Sum_scal_r. apply Sum_ext. intros. ring. }
    rewrite Sum_swap, (Sum_ext D _ (fun l => u x l * s l * (if Nat.eqb l i then 1 else 0))) by (intros l Hl; rewrite Sum_scal; now rewrite (Hv l i Hl Hi)).
    rewrite (Sum_single D i) by (first [assumption|intros l Hl Hne; destruct (Nat.eqb_spec l i); [contradiction|ring]]). rewrite Nat.eqb_refl. ring. }
  assert (Cu : forall x, (x < D)%nat -> Sum D (fun y => C x y * u y i) = s i * v x i).
  { clear x Hx. intros x Hx. rewrite (Sum_ext D _ (fun y => Sum D (fun l => v x l * s l * (u y l * u y i)))).
    2: { intros y Hy. rewrite (Hsym x y Hx Hy), (HC y x Hy Hx), <- Sum_scal_r. apply Sum_ext. intros. ring. }
    rewrite Sum_swap, (Sum_ext D _ (fun l => v x l * s l * (if Nat.eqb l i then 1 else 0))) by (intros l Hl; rewrite Sum_scal; now rewrite (Hu l i Hl Hi)).
    rewrite (Sum_single D i) by (first [assumption|intros l Hl Hne; destruct (Nat.eqb_spec l i); [contradiction|ring]]). rewrite Nat.eqb_refl. ring. }
  rewrite (Cu x Hx). set (d := fun x => u x i - v x i).
  assert (H0 : 0 <= - s i * ip D d d).
  { pose proof (Hpos d) as H. rewrite (Sum_ext D _ (fun x => - s i * (d x * d x))) in H; [rewrite Sum_scal in H; exact H|].
    intros y Hy. rewrite (Sum_ext D _ (fun z => C y z * u z i - C y z * v z i)) by (intros; unfold d; ring). rewrite Sum_minus, (Cu y Hy), (Cv y Hy). unfold d. ring. }
  pose proof (Hs i Hi) as Hsi. pose proof (ip_nonneg D d) as Hd. destruct (Req_dec (s i) 0) as [->|Hne]; [ring|].
  assert (Z : ip D d d = 0) by nra. pose proof (ip_zero D d Z x Hx) as Hz. unfold d in Hz. replace (v x i) with (u x i) by lra. reflexivity.
Qed.

Section C83.
Variables (w : world) (dd dor : nat) (orig_embed donor_embed : list row) (orig donor : dict ntok nat) (junk : list nat) (k : nat).
Hypothesis Hlist : is_listing (w_listing w).
Hypothesis Ho : is_vocab orig.
Hypothesis Hd : is_vocab donor.
Hypothesis Hwo : within orig_embed orig.
Hypothesis Hwd : within donor_embed donor.
Notation basis := (token_basis w dd dor orig_embed donor_embed orig donor junk (KNumber k)).
Notation DR := (row_of donor_embed donor).
Notation OR := (row_of orig_embed orig).
Notation NR := (narrow dd dor orig_embed donor_embed orig donor).
Notation s := (basis_vocab w orig donor junk).
Notation e := (Nat.min dd dor).

Lemma vocab_usable : usable_list orig donor junk s.
Proof.
  unfold basis_vocab. assert (HP := Hlist (filter (dmem orig) (dkeys donor))). destruct Hd as (Hk & _). split.
  - apply NoDup_filter. eapply Permutation_NoDup; [symmetry; exact HP|]. apply NoDup_filter, Hk.
  - intros t. rewrite filter_In. assert (Hin : In t (w_listing w (filter (dmem orig) (dkeys donor))) <-> in_both orig donor t).
    { transitivity (In t (filter (dmem orig) (dkeys donor))); [split; apply Permutation_in; [|symmetry]; exact HP|]. rewrite filter_In, dmem_In. unfold in_both. tauto. }
    rewrite Hin. unfold usable, in_both. split.
    + intros ((H1 & H2) & E). split; [exact H1|]. destruct (key_In donor t H2) as (i & Hi). exists i. split; [exact Hi|]. rewrite (id_of_In donor t i Hk Hi) in E. apply negb_true_iff in E. now apply mem_nIn.
    + intros (H1 & i & Hi & Hn). rewrite (id_of_In donor t i Hk Hi). split; [split; [exact H1|]|].
      * apply in_map_iff. now exists (t, i).
      * apply negb_true_iff. now apply mem_nIn.
Qed.
Lemma usable_orig u : usable orig donor junk u -> In u (dkeys orig).
Proof. now intros (H & _). Qed.
Lemma usable_donor u : usable orig donor junk u -> In u (dkeys donor).
Proof. intros (_ & i & Hi & _). apply in_map_iff. now exists (u, i). Qed.

Definition centred (f : ntok -> row) (t : ntok) : row := fun x => f t x - mean_row (map f s) x.
Lemma center_map f : center (mean_row (map f s)) (map f s) = map (centred f) s.
Proof. unfold center. now rewrite map_map. Qed.
Lemma mean_average f S x : usable_list orig donor junk S -> mean_row (map f s) x = average f S x.
Proof.
  intros HS. rewrite (average_perm f S s x (usable_perm _ _ _ _ _ HS vocab_usable)). unfold mean_row, average. now rewrite map_map, map_length.
Qed.

(** the tokens of one direction *)
Lemma rows_exists : s <> [] -> rows_of orig_embed orig s = Ok (map OR s) /\ rows_of donor_embed donor s = Ok (map DR s).
Proof.
  intros Hs. destruct vocab_usable as (_ & H). split; apply rows_of_ok; auto; intros t Ht; apply H in Ht; [now apply usable_orig|now apply usable_donor].
Qed.
Lemma rows_none : s = [] -> basis = Err IndexError.
Proof. intros E. unfold token_basis. cbv zeta. now rewrite E. Qed.

Lemma combine_map f tb : (forall ic, In ic tb -> forall i, In i (fst ic) -> (i < length s)%nat) ->
  combine (map f s) tb = Ok (map (fun ic => wsum (snd ic) (map f (tokens_at s (fst ic)))) tb).
Proof.
  induction tb as [|ic tb IH]; intros H; [reflexivity|]. unfold combine in *. cbn [rmapM map]. rewrite (rmapM_nthE _ _ rzero) by (intros i Hi; rewrite map_length; apply (H ic (or_introl eq_refl) i Hi)).
  cbn [rbind]. rewrite IH by (intros; eapply H; [right|]; eassumption). cbn [rbind]. do 3 f_equal. unfold tokens_at. rewrite map_map. apply map_ext_in. intros i Hi.
  apply map_nth_in. apply (H ic (or_introl eq_refl) i Hi).
Qed.

(** what a choice of tokens with coefficients is worth *)
Definition pursued (i : nat) (ic : list nat * list R) : Prop :=
  let P := map (centred NR) s in
  let u := fst (w_svd w e (covariance (map NR s))) in
  omp e P eps_omp 256 (fun x => u x i) (w_pick w P) (w_qr w) (w_solve w) k = Ok ic.
Lemma min_case : (if Nat.ltb dd dor then dd else dor) = e.
Proof. destruct (Nat.ltb_spec dd dor); lia. Qed.
Lemma narrow_map : (if Nat.ltb dd dor then map DR s else map OR s) = map NR s.
Proof. unfold narrow. now destruct (Nat.ltb dd dor). Qed.
Lemma sparse_narrow ka : (if Nat.ltb dd dor then sparse_basis w dd ka (Nat.min dor dd) (map DR s) else sparse_basis w dor ka (Nat.min dor dd) (map OR s)) = sparse_basis w e ka e (map NR s).
Proof. rewrite (Nat.min_comm dor dd). rewrite <- min_case, <- narrow_map. now destruct (Nat.ltb dd dor). Qed.
Lemma basis_inv db ob : basis = Ok (db, ob) -> s <> [] /\ exists tb, Forall2 pursued (seq 0 e) tb /\ combine (map DR s) tb = Ok db /\ combine (map OR s) tb = Ok ob.
Proof.
  intros E. destruct s as [|t l] eqn:Es; [rewrite rows_none in E by exact Es; discriminate|]. rewrite <- Es in *. assert (Hs : s <> []) by (rewrite Es; discriminate). split; [exact Hs|].
  destruct (rows_exists Hs) as (E1 & E2). unfold token_basis in E. cbv zeta in E. rewrite E1, E2 in E. cbn [rbind] in E.
  rewrite sparse_narrow in E. apply rbind_Ok in E as (tb & Et & E). apply rbind_Ok in E as (b1 & Eb1 & E). apply rbind_Ok in E as (b2 & Eb2 & E). injection E as -> ->.
  exists tb. split; [|now split]. unfold sparse_basis in Et. destruct (Nat.ltb _ k); [discriminate|]. destruct (Nat.ltb e e); [discriminate|]. cbv zeta in Et. rewrite center_map in Et.
  now apply rmapM_Ok_Forall2 in Et.
Qed.

Section Fit.
Hypothesis Hpick : forall pts, is_pick e pts (w_pick w pts).
Hypothesis Hqr : is_qr e (w_qr w).
Hypothesis Hsolve : is_solve (w_solve w).
Hypothesis Hsvd : forall pts, is_svd (w_svd w) e (covariance pts).

Lemma pursued_facts i sel cs : pursued i (sel, cs) -> length sel = k /\ length cs = k /\ NoDup sel /\ (forall j, In j sel -> (j < length s)%nat).
Proof.
  unfold pursued. cbv zeta. set (P := map (centred NR) s). set (u := fst _). intros E.
  assert (Hk : (k <= length P)%nat) by (unfold omp in E; destruct (Nat.ltb_spec (length P) k); [discriminate|lia]).
  destruct (C53_distinct e P eps_omp 256 (fun x => u x i) (w_pick w P) (w_qr w) (w_solve w) (Hpick P) k Hk) as (sel' & cs' & E' & L1 & L2 & N & I).
  rewrite E in E'. injection E' as <- <-. repeat split; auto. intros j Hj. apply I in Hj. unfold P in Hj. now rewrite map_length in Hj.
Qed.
Lemma wsum_tokens m v sel cs y : length cs = length sel -> wsum cs (map (row_of m v) (tokens_at s sel)) y = token_comb m v (tokens_at s sel) cs y.
Proof. intros L. rewrite wsum_Sum by (now rewrite map_length, tokens_length). unfold token_comb. now rewrite tokens_length, L. Qed.

Lemma cov_centred x y : covariance (map NR s) x y = rsum (map (fun t => centred NR t x * centred NR t y) s) / INR (length s).
Proof. unfold covariance. now rewrite center_map, map_map, map_length. Qed.
Lemma cov_mul z x : Sum e (fun y => covariance (map NR s) x y * z y) = rsum (map (fun t => ip e z (centred NR t) * centred NR t x) s) / INR (length s).
Proof.
  rewrite (Sum_ext e _ (fun y => rsum (map (fun t => centred NR t x * centred NR t y * z y) s) / INR (length s))).
  2: { intros y _. rewrite cov_centred. unfold Rdiv. rewrite (rsum_ext (fun t => centred NR t x * centred NR t y * z y) (fun t => z y * (centred NR t x * centred NR t y))) by (intros; ring). rewrite rsum_mul. ring. }
  unfold Rdiv. rewrite Sum_scal_r, Sum_rsum. f_equal. apply rsum_ext. intros t _. rewrite Rmult_comm. unfold ip. rewrite <- Sum_scal. apply Sum_ext. intros. ring.
Qed.
Lemma axes_principal S : usable_list orig donor junk S -> principal e NR S (fun i x => fst (w_svd w e (covariance (map NR s))) x i).
Proof.
  intros HS. destruct (Hsvd (map NR s)) as (HU & HV & v & Hv & HC). exists v. intros i Hi. split; [now apply Hv|]. intros x Hx.
  assert (HP := usable_perm _ _ _ _ _ HS vocab_usable). rewrite (Permutation_length HP), (rsum_Permutation _ _ (Permutation_map _ HP)).
  rewrite (rsum_ext _ (fun t => ip e (fun x => fst (w_svd w e (covariance (map NR s))) x i) (centred NR t) * centred NR t x)).
  2: { intros t _. unfold centred. rewrite (mean_average NR S x HS). f_equal. apply ip_ext; [reflexivity|]. intros y _. now rewrite (mean_average NR S y HS). }
  rewrite <- cov_mul. apply (svd_axes e _ _ _ v HU HV Hv HC); auto.
  - intros a b _ _. rewrite !cov_centred. f_equal. apply rsum_ext. intros. ring.
  - intros z. rewrite (Sum_ext e _ (fun a => rsum (map (fun t => ip e z (centred NR t) * (z a * centred NR t a)) s) / INR (length s))).
    2: { intros a _. rewrite cov_mul. unfold Rdiv. rewrite <- Rmult_assoc. f_equal. rewrite <- rsum_mul. apply rsum_ext. intros. ring. }
    unfold Rdiv. rewrite Sum_scal_r, Sum_rsum. apply Rmult_le_pos.
    + apply rsum_nonneg. intros y Hy. apply in_map_iff in Hy as (t & <- & _). rewrite Sum_scal. fold (ip e z (centred NR t)). apply Rle_0_sqr.
    + destruct s as [|t l]; [cbn; rewrite Rinv_0; lra|]. left. apply Rinv_0_lt_compat, lt_0_INR. cbn. lia.
Qed.

(** There are as many basis rows as the narrower model is wide. Those of the two models come in pairs: the same combination of the rows
    that the two models have for the same k tokens, its coefficients chosen to come as near as possible to one of the orthonormal
    principal axes [dirs] of the rows of the narrower model, when applied to these rows less their average; the first token is the one of largest
    inner product with the direction. *)
Theorem C83_bases S db ob : usable_list orig donor junk S -> basis = Ok (db, ob) -> exists dirs, (orthonormal e e dirs /\ principal e NR S dirs) /\ length db = e /\ length ob = e /\
  forall i, (i < e)%nat -> exists used cs, some_usable orig donor junk k used /\ length cs = k /\
    (forall x, nth i db rzero x = token_comb donor_embed donor used cs x) /\
    (forall y, nth i ob rzero y = token_comb orig_embed orig used cs y) /\
    let c := fun u x => NR u x - average NR S x in
    (forall t u, usable orig donor junk t -> hd_error used = Some u -> Rabs (ip e (dirs i) (c t)) <= Rabs (ip e (dirs i) (c u))) /\
    (independent e eps_omp k (fun j => nth j (map c used) rzero) -> forall ds,
     nrm e (fun x => dirs i x - Sum k (fun j => nth j cs 0 * nth j (map c used) rzero x)) <= nrm e (fun x => dirs i x - Sum k (fun j => ds j * nth j (map c used) rzero x))).
Proof.
  intros HS E. destruct (basis_inv db ob E) as (_ & tb & Ht & E1 & E2). destruct (Hsvd (map NR s)) as ((HU & _) & _).
  set (u := fst (w_svd w e (covariance (map NR s)))) in *. exists (fun i x => u x i). split; [split; [intros a b Ha Hb; apply (HU a b Ha Hb)|exact (axes_principal S HS)]|].
  assert (Hin : forall ic, In ic tb -> forall i, In i (fst ic) -> (i < length s)%nat).
  { intros ic Hic. destruct (F2_right _ _ _ _ Ht Hic) as (i & _ & Hp). destruct ic as (sel & cs). cbn [fst]. now destruct (pursued_facts i sel cs Hp) as (_ & _ & _ & H). }
  rewrite (combine_map DR tb Hin) in E1. rewrite (combine_map OR tb Hin) in E2. injection E1 as <-. injection E2 as <-. rewrite !map_length.
  assert (Lt : length tb = e) by (apply F2_len in Ht; now rewrite seq_length in Ht). split; [exact Lt|]. split; [exact Lt|].
  intros i Hi. destruct (nth i tb ([], [])) as (sel & cs) eqn:Eic.
  assert (Hp : pursued i (sel, cs)).
  { rewrite <- Eic. pose proof (F2_nth _ 0%nat ([], []) _ _ Ht i) as Hp. rewrite seq_length, seq_nth in Hp by exact Hi. now apply Hp. }
  destruct (pursued_facts i sel cs Hp) as (L1 & L2 & N & I).
  assert (Hu : some_usable orig donor junk k (tokens_at s sel)).
  { split; [now rewrite tokens_length|]. split; [apply tokens_NoDup; auto; apply vocab_usable|]. intros t Htk. apply (proj2 vocab_usable). eapply tokens_In; eassumption. }
  exists (tokens_at s sel), cs. split; [exact Hu|]. split; [exact L2|].
  split; [intros x; rewrite (map_nth_in _ _ _ ([], [])) by lia; rewrite Eic; cbn [fst snd]; apply wsum_tokens; lia|].
  split; [intros x; rewrite (map_nth_in _ _ _ ([], [])) by lia; rewrite Eic; cbn [fst snd]; apply wsum_tokens; lia|].
  cbv zeta. set (c := fun u x => NR u x - average NR S x).
  set (P := map (centred NR) s) in *.
  assert (Ecc : forall t x, c t x = centred NR t x) by (intros t x; unfold c, centred; now rewrite (mean_average NR S x HS)).
  split.
  { intros t v Hut Hv. assert (Hk : (1 <= k)%nat) by (destruct sel; [discriminate Hv|cbn in L1; lia]).
    unfold pursued in Hp. cbv zeta in Hp. fold P u in Hp.
    assert (Es : sel = o_sel (omp_run e P eps_omp 256 (fun x => u x i) (w_pick w P) (w_qr w) k)).
    { unfold omp in Hp. destruct (Nat.ltb (length P) k); [discriminate|]. cbv zeta in Hp. now injection Hp. }
    destruct (sel_prefix e P eps_omp 256 (fun x => u x i) (w_pick w P) (w_qr w) k 1 Hk) as (l & El). cbn [omp_run] in El. rewrite step_sel in El. cbn [o_sel o_res app] in El. rewrite <- Es in El.
    set (p := w_pick w P (fun x => u x i) []) in *. rewrite El in Hv. cbn in Hv. injection Hv as <-.
    assert (LP : length P = length s) by (unfold P; now rewrite map_length).
    assert (Ls : (0 < length s)%nat) by (rewrite El in I; specialize (I p (or_introl eq_refl)); lia).
    destruct (Hpick P (fun x => u x i) [] (NoDup_nil _) (fun _ (H : False) => match H with end) ltac:(cbn; lia)) as (P1 & _ & P3). fold p in P1, P3. rewrite LP in P1, P3.
    apply (proj2 vocab_usable) in Hut. apply (In_nth _ _ (TPlain [])) in Hut as (n & Hn & <-). specialize (P3 n Hn (fun H => H)). unfold pt, P in P3.
    rewrite !(map_nth_in _ _ _ (TPlain [])) in P3 by (exact Hn || exact P1).
    rewrite (ip_ext e (fun x => u x i) (c (nth n s (TPlain []))) (fun x => u x i) (centred NR (nth n s (TPlain [])))) by (intros; auto).
    rewrite (ip_ext e (fun x => u x i) (c (nth p s (TPlain []))) (fun x => u x i) (centred NR (nth p s (TPlain [])))) by (intros; auto). exact P3. }
  intros Hi' ds.
  assert (Ec : forall j x, (j < k)%nat -> nth j (map c (tokens_at s sel)) rzero x = chosen P sel j x).
  { intros j x Hj. unfold chosen, P. rewrite (map_nth_in _ _ _ (TPlain [])) by (rewrite tokens_length; lia). unfold tokens_at. rewrite (map_nth_in _ _ _ 0%nat) by lia.
    rewrite (map_nth_in _ _ _ (TPlain [])) by (apply I, nth_In; lia). unfold c, centred. now rewrite (mean_average NR S x HS). }
  assert (Hi2 : independent e eps_omp k (chosen P sel)).
  { intros j d Hj. pose proof (Hi' j d Hj) as H. rewrite (nrm_ext e _ (fun x => chosen P sel j x - Sum j (fun i => d i * chosen P sel i x))) in H; [exact H|].
    intros x _. rewrite Ec by exact Hj. f_equal. apply Sum_ext. intros l Hl. rewrite Ec by lia. reflexivity. }
  pose proof (C53_least_squares e P eps_omp 256 (fun x => u x i) (w_pick w P) (w_qr w) (w_solve w) (Hpick P) Hqr Hsolve eps_pos k sel cs Hp Hi2 ds) as H.
  rewrite (nrm_ext e (fun x => u x i - Sum k (fun j => nth j cs 0 * nth j (map c (tokens_at s sel)) rzero x)) (fun x => u x i - combine_rows P sel cs x)).
  2:{ intros x _. unfold combine_rows. rewrite L2. f_equal. apply Sum_ext. intros j Hj. now rewrite Ec. }
  rewrite (nrm_ext e (fun x => u x i - Sum k (fun j => ds j * nth j (map c (tokens_at s sel)) rzero x)) (fun x => u x i - Sum k (fun j => ds j * chosen P sel j x))); [exact H|].
  intros x _. f_equal. apply Sum_ext. intros j Hj. now rewrite Ec.
Qed.

(** Bases are found exactly if there are usable tokens, and at least k of them. *)
Theorem C83_succeeds S : usable_list orig donor junk S -> ((exists db ob, basis = Ok (db, ob)) <-> S <> [] /\ (k <= length S)%nat).
Proof.
  intros HS. pose proof (usable_perm _ _ _ _ _ HS vocab_usable) as HP. rewrite (Permutation_length HP).
  assert (Hne : S <> [] <-> s <> []).
  { split; intros H E; apply H; [rewrite E in HP; now apply Permutation_sym, Permutation_nil in HP|rewrite E in HP; now apply Permutation_nil in HP]. }
  rewrite Hne. clear HP Hne HS S. split.
  - intros (db & ob & E). destruct (basis_inv db ob E) as (Hs & tb & Ht & _). split; [exact Hs|].
    destruct (rows_exists Hs) as (E1 & E2). unfold token_basis in E. cbv zeta in E. rewrite E1, E2 in E. cbn [rbind] in E. rewrite sparse_narrow in E. unfold sparse_basis in E. rewrite map_length in E.
    destruct (Nat.ltb_spec (length s) k); [discriminate E|assumption].
  - intros (Hs & Hk). destruct (rows_exists Hs) as (E1 & E2). unfold token_basis. cbv zeta. rewrite E1, E2. cbn [rbind]. rewrite sparse_narrow. unfold sparse_basis. rewrite map_length, center_map.
    destruct (Nat.ltb_spec (length s) k); [lia|]. rewrite Nat.ltb_irrefl. cbv zeta. set (P := map (centred NR) s). set (u := fst _).
    destruct (rmapM_all (fun i => omp e P eps_omp 256 (fun x => u x i) (w_pick w P) (w_qr w) (w_solve w) k) (seq 0 e)) as (tb & Et).
    { intros i _. assert (HkP : (k <= length P)%nat) by (unfold P; now rewrite map_length). destruct (C53_distinct e P eps_omp 256 (fun x => u x i) (w_pick w P) (w_qr w) (w_solve w) (Hpick P) k HkP) as (sel & cs & E & _). eauto. }
    rewrite Et. cbn [rbind]. apply rmapM_Ok_Forall2 in Et.
    assert (Hin : forall ic, In ic tb -> forall i, In i (fst ic) -> (i < length s)%nat).
    { intros ic Hic. destruct (F2_right _ _ _ _ Et Hic) as (i & _ & Hp). destruct ic as (sel & cs). cbn [fst]. now destruct (pursued_facts i sel cs Hp) as (_ & _ & _ & H'). }
    rewrite (combine_map DR tb Hin), (combine_map OR tb Hin). cbn [rbind]. eauto.
Qed.

(** ** new rows *)
Hypothesis Hls : is_lstsq (w_lstsq w).
Notation compute db ob := (compute_stb w dd db ob orig_embed donor_embed donor).
(** The new row of a token is the average of the original rows plus the combination of the original basis that comes nearest to the
    donor's row less its average when applied to the donor's basis. *)
Theorem C83_rows db ob ts es : length ob = length db -> compute db ob ts = Ok es -> Forall2 (fun t v => exists a,
  (forall y, v y = mean_row orig_embed y + comb ob a y) /\
  forall b, nrm dd (fun x => DR t x - mean_row donor_embed x - comb db a x) <= nrm dd (fun x => DR t x - mean_row donor_embed x - comb db b x)) ts es.
Proof.
  intros Hl E. unfold compute_stb in E. destruct (forallb (dmem donor) ts) eqn:Ef; [|discriminate]. cbn [negb] in E. apply rbind_Ok in E as (tg & E & Ev). injection Ev as <-.
  assert (Hne : ts <> []) by (intros ->; discriminate E). rewrite forallb_forall in Ef.
  rewrite rows_of_ok in E by (auto; intros t Ht; now apply dmem_In, Ef). injection E as <-. rewrite map_map.
  clear Hne Ef. induction ts as [|t ts IH]; cbn [map]; constructor; [|exact IH]. clear IH.
  eexists. split; [intros y; unfold stb_row, comb; rewrite Rplus_comm; reflexivity|]. intros b. unfold comb. exact (Hls dd (length db) (fun i => nth i db rzero) (fun x => DR t x - mean_row donor_embed x) b).
Qed.
Theorem C83_rows_succeed db ob ts : (exists es, compute db ob ts = Ok es) <-> ts <> [] /\ forall t, In t ts -> In t (dkeys donor).
Proof.
  unfold compute_stb. destruct (forallb (dmem donor) ts) eqn:Ef; cbn [negb].
  - rewrite forallb_forall in Ef. assert (Hk : forall t, In t ts -> In t (dkeys donor)) by (intros t Ht; now apply dmem_In, Ef). split.
    + intros (es & E). split; [intros ->; discriminate E|exact Hk].
    + intros (Hne & _). rewrite rows_of_ok by auto. cbn. eauto.
  - split; [intros (? & [=])|]. intros (_ & H). enough (forallb (dmem donor) ts = true) by congruence. apply forallb_forall. intros t Ht. now apply dmem_In, H.
Qed.

Notation usable_image f := (usable_image dd f orig_embed donor_embed orig donor junk).
Lemma basis_image f db ob i y : usable_image f -> basis = Ok (db, ob) -> (i < e)%nat -> nth i ob rzero y = Sum dd (fun x => f y x * nth i db rzero x).
Proof.
  intros Hf E Hi. destruct (C83_bases s db ob vocab_usable E) as (dirs & _ & _ & _ & H). destruct (H i Hi) as (used & cs & (Lu & _ & Hu) & _ & Hx & Hy & _). clear H.
  rewrite Hy. rewrite (Sum_ext dd _ (fun x => Sum (length used) (fun j => f y x * (nth j cs 0 * nth j (map DR used) rzero x)))) by (intros x _; rewrite Hx; unfold token_comb; now rewrite <- Sum_scal).
  rewrite Sum_swap. unfold token_comb. apply Sum_ext. intros j Hj. rewrite !(map_nth_in _ _ _ (TPlain [])) by exact Hj. rewrite Hf by (apply Hu, nth_In, Hj).
  rewrite <- Sum_scal. apply Sum_ext. intros. ring.
Qed.
Lemma comb_image f db ob a y : usable_image f -> basis = Ok (db, ob) -> comb ob a y = Sum dd (fun x => f y x * comb db a x).
Proof.
  intros Hf E. destruct (C83_bases s db ob vocab_usable E) as (dirs & _ & L1 & L2 & _). unfold comb. rewrite L1, L2.
  rewrite (Sum_ext dd _ (fun x => Sum e (fun i => f y x * (a i * nth i db rzero x)))) by (intros x _; now rewrite <- Sum_scal). rewrite Sum_swap. apply Sum_ext. intros i Hi.
  rewrite (basis_image f db ob i y Hf E Hi). rewrite <- Sum_scal. apply Sum_ext. intros. ring.
Qed.
(** If the original rows of the usable tokens are the image of the donor's under a linear map, the new row is the original average plus
    the image of what the donor's basis can make of the donor's row less its average. *)
Theorem C83_linear f db ob ts es : usable_image f -> basis = Ok (db, ob) -> compute db ob ts = Ok es -> Forall2 (fun t v => exists a,
  (forall b, nrm dd (fun x => DR t x - mean_row donor_embed x - comb db a x) <= nrm dd (fun x => DR t x - mean_row donor_embed x - comb db b x)) /\
  forall y, v y = mean_row orig_embed y + Sum dd (fun x => f y x * comb db a x)) ts es.
Proof.
  intros Hf E Ec. destruct (C83_bases s db ob vocab_usable E) as (dirs & _ & L1 & L2 & _). eapply Forall2_impl; [|apply (C83_rows db ob ts es); [congruence|exact Ec]].
  intros t v (a & Hv & Ha). exists a. split; [exact Ha|]. intros y. rewrite Hv. f_equal. now apply comb_image.
Qed.
(** If also the donor is not wider than the original model and its basis is independent, it is the original average plus the image of the
    donor's row less its average. *)
Theorem C83_exact f db ob ts es eps : usable_image f -> basis = Ok (db, ob) -> compute db ob ts = Ok es -> (dd <= dor)%nat ->
  0 < eps -> independent dd eps dd (fun i => nth i db rzero) ->
  Forall2 (fun t v => forall y, v y = mean_row orig_embed y + Sum dd (fun x => f y x * (DR t x - mean_row donor_embed x))) ts es.
Proof.
  intros Hf E Ec Hle He Hi. destruct (C83_bases s db ob vocab_usable E) as (dirs & _ & L1 & L2 & _). replace e with dd in L1 by lia.
  eapply Forall2_impl; [|exact (C83_linear f db ob ts es Hf E Ec)]. intros t v (a & Ha & Hv) y. rewrite Hv. f_equal. apply Sum_ext. intros x Hx. f_equal.
  set (b := fun x => DR t x - mean_row donor_embed x). specialize (Ha (lsq dd dd (fun i => nth i db rzero) b)). apply nrm_le_sq in Ha.
  rewrite (ip_ext dd (fun x => DR t x - mean_row donor_embed x - comb db (lsq dd dd (fun i => nth i db rzero) b) x) _ (fun _ => 0) (fun _ => 0)) in Ha
    by (intros z Hz; unfold comb; rewrite L1; rewrite <- (full_span dd eps _ b He Hi z Hz); unfold b; ring).
  replace (ip dd (fun _ => 0) (fun _ => 0)) with 0 in Ha by (symmetry; apply Sum_0; intros; ring).
  match type of Ha with ip dd ?r ?r <= 0 => pose proof (ip_nonneg dd r) as H0; assert (Z : ip dd r r = 0) by lra; pose proof (ip_zero dd r Z x Hx) as Zx end. cbv beta in Zx. lra.
Qed.

(** The donor's basis is independent when the rows of the narrower model average to zero and there are as many tokens in a combination as
    it is wide, any of them independent: *)
Theorem C83_centred f S db ob ts es : usable_image f -> usable_list orig donor junk S -> basis = Ok (db, ob) -> compute db ob ts = Ok es -> (dd <= dor)%nat -> k = dd ->
  (forall x, (x < dd)%nat -> average NR S x = 0) ->
  (forall used, some_usable orig donor junk k used -> independent dd eps_omp dd (fun j => nth j (map NR used) rzero)) ->
  orthonormal dd dd (fun i => nth i (if Nat.ltb dd dor then db else ob) rzero) /\
  Forall2 (fun t v => forall y, v y = mean_row orig_embed y + Sum dd (fun x => f y x * (DR t x - mean_row donor_embed x))) ts es.
Proof.
  intros Hf HS E Ec Hle Hk Hz Hind. assert (Ee : e = dd) by lia.
  assert (X : exists dirs, orthonormal dd dd dirs /\ length db = dd /\ length ob = dd /\ forall i x, (i < dd)%nat -> (x < dd)%nat -> nth i (if Nat.ltb dd dor then db else ob) rzero x = dirs i x).
  { destruct (C83_bases S db ob HS E) as (dirs & (Hq & _) & L1 & L2 & H). rewrite Ee in *. exists dirs. split; [exact Hq|]. split; [exact L1|]. split; [exact L2|].
    intros i x Hi Hx. destruct (H i Hi) as (used & cs & Hu & Lc & Hdb & Hob & _ & Hb). clear H. cbv zeta in Hb. set (c := fun u x => NR u x - average NR S x) in *.
    assert (Lu : length used = k) by apply Hu. rewrite Hk in *.
    assert (Ec' : forall j z, (j < dd)%nat -> (z < dd)%nat -> nth j (map c used) rzero z = nth j (map NR used) rzero z).
    { intros j z Hj Hzz. rewrite !(map_nth_in _ _ _ (TPlain [])) by lia. unfold c. rewrite Hz by exact Hzz. ring. }
    assert (Hi' : independent dd eps_omp dd (fun j => nth j (map c used) rzero)).
    { intros j d Hj. pose proof (Hind used Hu j d Hj) as HH. rewrite (nrm_ext dd _ (fun x => nth j (map NR used) rzero x - Sum j (fun i => d i * nth i (map NR used) rzero x))); [exact HH|].
      intros z Hzz. rewrite Ec' by auto. f_equal. apply Sum_ext. intros l Hl. rewrite Ec' by (auto; lia). reflexivity. }
    specialize (Hb Hi' (lsq dd dd (fun j => nth j (map c used) rzero) (dirs i))). apply nrm_le_sq in Hb.
    rewrite (ip_ext dd (fun x => dirs i x - Sum dd (fun j => lsq dd dd (fun j => nth j (map c used) rzero) (dirs i) j * nth j (map c used) rzero x)) _ (fun _ => 0) (fun _ => 0)) in Hb
      by (intros z Hzz; rewrite <- (full_span dd eps_omp _ (dirs i) eps_pos Hi' z Hzz); ring).
    replace (ip dd (fun _ => 0) (fun _ => 0)) with 0 in Hb by (symmetry; apply Sum_0; intros; ring).
    match type of Hb with ip dd ?r ?r <= 0 => pose proof (ip_nonneg dd r) as H0; assert (Z : ip dd r r = 0) by lra; pose proof (ip_zero dd r Z x Hx) as Zx end. cbv beta in Zx.
    transitivity (Sum dd (fun j => nth j cs 0 * nth j (map c used) rzero x)); [|lra]. rewrite (Sum_ext dd (fun j => nth j cs 0 * nth j (map c used) rzero x) (fun j => nth j cs 0 * nth j (map NR used) rzero x)) by (intros j Hj; now rewrite Ec').
    unfold narrow. destruct (Nat.ltb dd dor); [rewrite Hdb|rewrite Hob]; unfold token_comb; now rewrite Lu. }
  destruct X as (dirs & Hq & L1 & L2 & Hdirs).
  assert (Ho' : orthonormal dd dd (fun i => nth i (if Nat.ltb dd dor then db else ob) rzero)).
  { intros a b Ha Hb. rewrite <- (Hq a b Ha Hb). apply ip_ext; intros; now apply Hdirs. }
  split; [exact Ho'|].
  destruct (Nat.ltb_spec dd dor) as [Hlt|Hge].
  - eapply C83_exact; eauto; [apply Rlt_0_1|]. now apply orthonormal_independent.
  - destruct (image_bound dd dd f) as (M & HM & Hb). apply (C83_exact f db ob ts es (/ M)); auto; [now apply Rinv_0_lt_compat|].
    intros j d Hj. set (r := fun x => nth j db rzero x - Sum j (fun i => d i * nth i db rzero x)).
    assert (Hr : forall y, Sum dd (fun x => f y x * r x) = nth j ob rzero y - Sum j (fun i => d i * nth i ob rzero y)).
    { intros y. unfold r. rewrite (Sum_ext dd _ (fun x => f y x * nth j db rzero x - Sum j (fun i => f y x * (d i * nth i db rzero x)))) by (intros; rewrite Sum_scal; ring).
      rewrite Sum_minus, Sum_swap. rewrite <- (basis_image f db ob j y Hf E) by lia. f_equal. apply Sum_ext. intros i Hi. rewrite (basis_image f db ob i y Hf E) by lia. rewrite <- Sum_scal. apply Sum_ext. intros. ring. }
    pose proof (orthonormal_independent dd dd _ Ho' j d Hj) as H1. specialize (Hb r). cbv beta in Hb.
    rewrite (ip_ext dd _ _ (fun y => nth j ob rzero y - Sum j (fun i => d i * nth i ob rzero y)) (fun y => nth j ob rzero y - Sum j (fun i => d i * nth i ob rzero y))) in Hb by (intros; apply Hr).
    set (q := fun y => nth j ob rzero y - Sum j (fun i => d i * nth i ob rzero y)) in *. change (1 <= nrm dd q) in H1. pose proof (nrm_sq dd q) as S1. pose proof (nrm_sq dd r) as S2. pose proof (nrm_nonneg dd r) as N2.
    apply Rmult_le_reg_l with M; [exact HM|]. rewrite Rinv_r by lra. destruct (Rle_lt_dec 1 (M * nrm dd r)) as [G|G]; [exact G|]. exfalso.
    assert (M * nrm dd r * (M * nrm dd r) < 1) by (assert (0 <= M * nrm dd r) by (apply Rmult_le_pos; lra); nra).
    assert (1 <= ip dd q q) by (rewrite <- S1; nra). rewrite <- S2 in Hb. nra.
Qed.
End Fit.
End C83.

(** ** findings *)
Definition flat (r : R) : row := fun _ => r.
Definition line_orig : dict ntok nat := [(ta, 0%nat); (tb, 1%nat); (tc, 2%nat)].
Definition line_donor : dict ntok nat := (td, 3%nat) :: line_orig.
Lemma line_vocab : is_vocab line_orig /\ is_vocab line_donor.
Proof. split; split; repeat constructor; cbn; intuition discriminate. Qed.
Lemma line_within r a b c : within [flat a; flat b; flat c] line_orig /\ within [flat a; flat b; flat c; flat r] line_donor.
Proof. split; intros t i Hi; cbn in *; intuition (match goal with H : _ = _ |- _ => injection H as _ <- end; lia). Qed.
Lemma line_usable : usable_list line_orig line_donor [] [ta; tb; tc].
Proof.
  split; [repeat constructor; cbn; intuition discriminate|]. intros t. unfold usable. split.
  - intros Ht. split; [exact Ht|]. cbn in Ht. destruct Ht as [<-|[<-|[<-|[]]]]; eexists; (split; [|intros []]); cbn; auto 10.
  - intros (Ht & _). exact Ht.
Qed.
(** The coefficients are fitted to rows less their average but applied to the rows themselves: the three shared tokens 0, 3 and 3, the
    same in both models, give the basis 0. Every new token gets the average of the original rows whatever the donor says. *)
Theorem C83_offset_refuted w r : is_listing (w_listing w) -> (forall pts, is_pick 1 pts (w_pick w pts)) -> is_qr 1 (w_qr w) -> is_solve (w_solve w) ->
  (forall pts, is_svd (w_svd w) 1 (covariance pts)) -> is_lstsq (w_lstsq w) ->
  let oe := [flat 0; flat 3; flat 3] in let de := [flat 0; flat 3; flat 3; flat r] in
  exists db ob v, token_basis w 1 1 oe de line_orig line_donor [] (KNumber 1) = Ok (db, ob) /\ nth 0 db rzero 0%nat = 0 /\ nth 0 ob rzero 0%nat = 0 /\
  compute_stb w 1 db ob oe de line_donor [td] = Ok [v] /\ v 0%nat = 2.
Proof.
  intros Hl Hp Hq Hs Hv Hls oe de. destruct line_vocab as (V1 & V2). destruct (line_within r 0 3 3) as (W1 & W2).
  destruct (proj2 (C83_succeeds w 1 1 oe de line_orig line_donor [] 1 Hl V1 V2 W1 W2 Hp [ta; tb; tc] line_usable)) as (db & ob & E); [split; [discriminate|cbn; lia]|].
  destruct (C83_bases w 1 1 oe de line_orig line_donor [] 1 Hl V1 V2 W1 W2 Hp Hq Hs Hv [ta; tb; tc] db ob line_usable E) as (dirs & (Ho & _) & L1 & L2 & H).
  destruct (H 0%nat ltac:(cbn; lia)) as (used & cs & (Lu & _ & Hu) & Lc & Hdb & Hob & Hg & _). clear H.
  destruct used as [|u [|]]; try discriminate Lu. specialize (Hg ta u (proj1 (proj2 line_usable ta) (or_introl eq_refl)) eq_refl).
  assert (Eu : u = ta).
  { specialize (Hu u (or_introl eq_refl)). apply (proj2 line_usable) in Hu. pose proof (Ho 0%nat 0%nat ltac:(cbn; lia) ltac:(cbn; lia)) as O. cbn in O. unfold ip in O. cbn in O.
    assert (Rabs (dirs 0%nat 0%nat) = 1) as A by (unfold Rabs; destruct (Rcase_abs _); nra). cbv zeta in Hg. unfold ip in Hg. cbn [Nat.min Sum] in Hg. rewrite !Rplus_0_l, !Rabs_mult, A, !Rmult_1_l in Hg.
    unfold narrow in Hg. cbn [Nat.ltb Nat.leb] in Hg. unfold average in Hg. cbn [map rsum fold_right length] in Hg.
    change (row_of oe line_orig ta) with (flat 0) in Hg. change (row_of oe line_orig tb) with (flat 3) in Hg. change (row_of oe line_orig tc) with (flat 3) in Hg.
    replace (INR 3) with 3 in Hg by (cbn; ring).
    destruct Hu as [<-|[<-|[<-|[]]]]; [reflexivity|exfalso..].
    1: change (row_of oe line_orig tb) with (flat 3) in Hg. 2: change (row_of oe line_orig tc) with (flat 3) in Hg.
    all: unfold flat in Hg; rewrite (Rabs_left (0 - _)) in Hg by lra; rewrite Rabs_right in Hg by lra; lra. }
  subst u.
  assert (D0 : nth 0 db rzero 0%nat = 0) by (rewrite Hdb; unfold token_comb; cbn [length Sum map nth]; change (row_of de line_donor ta) with (flat 0); unfold flat; ring).
  assert (O0 : nth 0 ob rzero 0%nat = 0) by (rewrite Hob; unfold token_comb; cbn [length Sum map nth]; change (row_of oe line_orig ta) with (flat 0); unfold flat; ring).
  destruct (proj2 (C83_rows_succeed w 1 oe de line_donor V2 W2 db ob [td])) as (es & Es); [split; [discriminate|]; intros t [<-|[]]; now left|].
  pose proof (C83_rows w 1 oe de line_donor V2 W2 Hls db ob [td] es ltac:(congruence) Es) as HF. inversion HF as [|? v ? es' (a & Hy & _) HF' Et Ev]. inversion HF'. subst.
  exists db, ob, v. split; [exact E|]. split; [exact D0|]. split; [exact O0|]. split; [exact Es|]. rewrite Hy. unfold comb. rewrite L2. cbn [Nat.min Sum]. rewrite O0. unfold oe, mean_row, flat. cbn. field.
Qed.
(** The command passes its options in the place of k: sparse token bases never work. *)
Theorem C83_command_refuted w dd dor oe de orig donor junk b : command_basis w dd dor oe de orig donor junk <> Ok b.
Proof.
  unfold command_basis, token_basis. cbv zeta. destruct (rows_of oe orig _) as [os|]; [|discriminate]. cbn [rbind]. destruct (rows_of de donor _) as [ds|]; [|discriminate]. cbn [rbind].
  destruct (Nat.ltb dd dor); discriminate.
Qed.

(** ** a case: shared tokens -1 and 1, doubled in the original model; the new token 5 *)
Definition line_world : world :=
  {| w_topk := sort_topk; w_lstsq := lsq; w_pick := greedy_pick 1; w_qr := same_qr; w_solve := back_solve; w_pca := oval_pca; w_svd := fun _ _ => (fun _ _ => 1, fun _ _ => 1);
     w_randn := map (fun _ => rzero); w_definite := fun _ => false; w_normal := fun _ => map (fun _ => rzero); w_ids := fun _ => [];
     w_heads_donor := 1; w_heads_orig := 1; w_base_donor := 10000; w_base_orig := 10000; w_listing := @rev ntok |}.
Lemma line_svd pts : is_svd (w_svd line_world) 1 (covariance pts).
Proof.
  split; [|split]; [split; intros [|] [|] ? ?; try lia; cbn; ring..|]. exists (fun _ => covariance pts 0%nat 0%nat). split.
  - intros _ _. unfold covariance. destruct pts as [|p pts]; [cbn; unfold Rdiv; rewrite Rmult_0_l; lra|].
    apply Rmult_le_pos; [|left; apply Rinv_0_lt_compat, lt_0_INR; cbn; lia]. apply rsum_nonneg. intros x Hx. apply in_map_iff in Hx as (q & <- & _). nra.
  - intros [|] [|] ? ?; try lia. cbn. ring.
Qed.
Definition pair_orig : dict ntok nat := [(ta, 1%nat); (tb, 0%nat); (tc, 2%nat)].
Definition pair_donor : dict ntok nat := [(td, 2%nat); (ta, 0%nat); (tb, 1%nat); (tc, 3%nat)].
Definition pair_oe : list row := [flat 2; flat (-2); flat 3].
Definition pair_de : list row := [flat (-1); flat 1; flat 5; flat 7].
Example C83_nonvacuous : exists db ob v, token_basis line_world 1 1 pair_oe pair_de pair_orig pair_donor [3%nat] (KNumber 1) = Ok (db, ob) /\
  compute_stb line_world 1 db ob pair_oe pair_de pair_donor [td] = Ok [v] /\ v 0%nat = 5.
Proof.
  assert (V1 : is_vocab pair_orig) by (split; repeat constructor; cbn; intuition discriminate).
  assert (V2 : is_vocab pair_donor) by (split; repeat constructor; cbn; intuition discriminate).
  assert (W1 : within pair_oe pair_orig) by (intros t i Hi; cbn in *; intuition (match goal with H : _ = _ |- _ => injection H as _ <- end; lia)).
  assert (W2 : within pair_de pair_donor) by (intros t i Hi; cbn in *; intuition (match goal with H : _ = _ |- _ => injection H as _ <- end; lia)).
  assert (HS : usable_list pair_orig pair_donor [3%nat] [ta; tb]).
  { split; [repeat constructor; cbn; intuition discriminate|]. intros t. split.
    - intros [<-|[<-|[]]]; (split; [unfold dkeys; cbn; auto|]); [exists 0%nat|exists 1%nat]; (split; [cbn; auto 10|intros [?|[]]; discriminate]).
    - intros (Ht & i & Hi & Hj). unfold dkeys in Ht. cbn in *. destruct Ht as [<-|[<-|[<-|[]]]]; auto. exfalso. apply Hj. left.
      destruct Hi as [Hi|[Hi|[Hi|[Hi|[]]]]]; try discriminate Hi. now injection Hi. }
  assert (Ra : row_of pair_oe pair_orig ta = flat (-2)) by reflexivity. assert (Rb : row_of pair_oe pair_orig tb = flat 2) by reflexivity.
  assert (Da : row_of pair_de pair_donor ta = flat (-1)) by reflexivity. assert (Db : row_of pair_de pair_donor tb = flat 1) by reflexivity.
  destruct (proj2 (C83_succeeds line_world 1 1 pair_oe pair_de pair_orig pair_donor [3%nat] 1 ex_listing V1 V2 W1 W2 (greedy_is_pick 1) [ta; tb] HS)) as (db & ob & E); [split; [discriminate|cbn; lia]|].
  destruct (proj2 (C83_rows_succeed line_world 1 pair_oe pair_de pair_donor V2 W2 db ob [td])) as (es & Es); [split; [discriminate|]; intros t [<-|[]]; now left|].
  destruct (C83_centred line_world 1 1 pair_oe pair_de pair_orig pair_donor [3%nat] 1 ex_listing V1 V2 W1 W2 (greedy_is_pick 1) (same_is_qr 1) back_is_solve line_svd lsq_is_lstsq
    (fun _ _ => 2) [ta; tb] db ob [td] es) as (_ & H); auto.
  - intros u y Hu. apply (proj2 HS) in Hu. destruct Hu as [<-|[<-|[]]]; rewrite ?Ra, ?Rb, ?Da, ?Db; cbn; unfold flat; ring.
  - intros x _. unfold average, narrow. cbn [Nat.ltb Nat.leb map length]. rewrite Ra, Rb. unfold rsum, flat. cbn. field.
  - intros used (Lu & _ & Hu). destruct used as [|u [|]]; try discriminate Lu. specialize (Hu u (or_introl eq_refl)). apply (proj2 HS) in Hu.
    intros j d Hj. destruct j; [|lia]. unfold nrm, ip, narrow. cbn [Sum map nth Nat.ltb Nat.leb].
    assert (He : 0 <= eps_omp <= 1) by (unfold eps_omp; split; [left; apply Rinv_0_lt_compat; apply pow_lt; lra|rewrite <- Rinv_1; apply Rinv_le_contravar; [lra|]; apply pow_R1_Rle; lra]).
    rewrite <- (sqrt_square eps_omp) by lra. apply sqrt_le_1_alt. destruct Hu as [<-|[<-|[]]]; rewrite ?Ra, ?Rb; unfold flat; nra.
  - inversion H as [|? v ? es' Hy H' Et Ev]. inversion H'. subst. exists db, ob, v. split; [exact E|]. split; [exact Es|]. rewrite Hy.
    change (row_of pair_de pair_donor td) with (flat 5). unfold pair_oe, pair_de, mean_row, flat, rsum. cbn. field.
Qed.
Print Assumptions C83_bases.
Print Assumptions C83_succeeds.
Print Assumptions C83_rows.
Print Assumptions C83_rows_succeed.
Print Assumptions C83_linear.
Print Assumptions C83_exact.
Print Assumptions C83_centred.
Print Assumptions C83_offset_refuted.
Print Assumptions C83_command_refuted.
