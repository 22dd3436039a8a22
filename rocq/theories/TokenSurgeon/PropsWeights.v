(** * C75: the weighting schemes least_squares and barycentric *)
From Coq Require Import Reals Lra.
From Verif.Base Require Import LinAlg RList Py PyFacts.
From Verif.TokenSurgeon Require Import Approx ApproxSpec ApproxInst ApproxProofs OmpProofs LeastSquares Weights.
Local Open Scope list_scope.
Local Open Scope R_scope.

(** the combination of the rows with the given numbers *)
Definition comb (ws : list R) (idx : list nat) (rows : list row) : row := wsum ws (map (fun i => nth i rows rzero) idx).
(** idx: k different shared tokens, none of the others being nearer to the target *)
Definition nearest (cosine : bool) (D k : nat) (target : row) (donor : list row) (idx : list nat) : Prop :=
  length idx = k /\ NoDup idx /\ (forall i, In i idx -> (i < length donor)%nat) /\
  forall i j, In i idx -> (j < length donor)%nat -> ~ In j idx ->
  distance cosine D target (nth i donor rzero) <= distance cosine D target (nth j donor rzero).
Definition error (D : nat) (target approx : row) : R := nrm D (fun x => target x - approx x).

Lemma wsum_Sum : forall ws xs x, length ws = length xs -> wsum ws xs x = Sum (length ws) (fun j => nth j ws 0 * nth j xs rzero x).
Proof.
  intros ws. induction ws as [|w ws IH] using rev_ind; intros xs x H.
  - destruct xs; [reflexivity|discriminate].
  - destruct xs as [|a xs _] using rev_ind; [rewrite app_length in H; cbn in H; lia|].
    rewrite !app_length in H. cbn [length] in H. assert (L : length ws = length xs) by lia. rewrite app_length. cbn [length]. rewrite Nat.add_1_r. cbn [Sum].
    rewrite app_nth2, Nat.sub_diag by lia. rewrite L, app_nth2, Nat.sub_diag by lia. cbn [nth]. rewrite <- L.
    rewrite (Sum_ext _ _ (fun j => nth j ws 0 * nth j xs rzero x)) by (intros j Hj; rewrite !app_nth1 by lia; reflexivity). rewrite <- IH by exact L.
    unfold wsum. clear -L. revert xs L. induction ws as [|v ws IH]; destruct xs as [|b xs]; intros L; try discriminate L; cbn [app map2].
    + unfold rsum. cbn. ring.
    + rewrite !rsum_cons, IH by (cbn in L; lia). ring.
Qed.
Lemma comb_Sum ws idx rows x : length ws = length idx -> comb ws idx rows x = Sum (length ws) (fun j => nth j ws 0 * nth (nth j idx 0%nat) rows rzero x).
Proof.
  intros H. unfold comb. rewrite wsum_Sum by (now rewrite map_length). apply Sum_ext. intros j Hj. f_equal.
  rewrite (map_nth_in _ _ _ 0%nat) by lia. reflexivity.
Qed.
Lemma rsum_Sum_nth l : rsum l = Sum (length l) (fun j => nth j l 0).
Proof.
  induction l as [|x l IH] using rev_ind; [reflexivity|]. rewrite rsum_app, app_length. cbn [length]. rewrite Nat.add_1_r. cbn [Sum].
  rewrite app_nth2, Nat.sub_diag by lia. cbn [nth]. rewrite (Sum_ext _ _ (fun j => nth j l 0)) by (intros; now rewrite app_nth1 by lia). rewrite IH. unfold rsum. cbn. ring.
Qed.
Lemma nth_seq_map (f : nat -> R) n j : (j < n)%nat -> nth j (map f (seq 0 n)) 0 = f j.
Proof. intros H. rewrite (map_nth_in _ _ _ 0%nat) by (now rewrite seq_length). now rewrite seq_nth. Qed.

Section C75.
Variable lstsq : nat -> nat -> (nat -> row) -> row -> (nat -> R).
Variable topk : list R -> nat -> list nat.
Hypothesis Hl : is_lstsq lstsq.
Hypothesis Ht : is_topk topk.
Notation interp := (interpolate_with lstsq topk).

(** a number of neighbours that is zero or larger than the shared vocabulary fails *)
Theorem C75_fails : forall s cosine D k donor orig target, length orig = length donor ->
  (exists row, interp s cosine D k donor orig target = Ok row) <-> (0 < k <= length donor)%nat.
Proof.
  intros s cosine D k donor orig target L. unfold interpolate_with. destruct (Nat.eqb_spec k 0) as [->|H0]; [split; [intros (? & [=])|lia]|].
  destruct (Nat.ltb_spec (length donor) k) as [H1|H1]; [split; [intros (? & [=])|lia]|]. split; [lia|intros _]. cbv zeta.
  set (ds := map (distance cosine D target) donor). assert (Ld : length ds = length donor) by apply map_length.
  destruct (Ht ds k ltac:(lia)) as (_ & _ & I & _). rewrite Ld in I.
  rewrite (rmapM_nthE ds _ 0) by (now rewrite Ld). cbn [rbind]. rewrite (rmapM_nthE donor _ rzero), (rmapM_nthE orig _ rzero) by (rewrite ?L; exact I). cbn [rbind]. eauto.
Qed.
Lemma interp_ok s cosine D k donor orig target : length orig = length donor -> (0 < k <= length donor)%nat ->
  let idx := topk (map (distance cosine D target) donor) k in nearest cosine D k target donor idx /\
  interp s cosine D k donor orig target = Ok (comb (match s with
             | DistanceProportional => landmark_weights cosine (map (fun i => distance cosine D target (nth i donor rzero)) idx)
             | Barycentric => barycentric_weights lstsq D (map (fun i => nth i donor rzero) idx) target
             | LeastSquares => least_squares_weights lstsq D (map (fun i => nth i donor rzero) idx) target end) idx orig).
Proof.
  intros L Hk idx. set (ds := map (distance cosine D target) donor) in *. assert (Ld : length ds = length donor) by apply map_length.
  destruct (Ht ds k ltac:(lia)) as (L1 & N & I & S). fold idx in L1, N, I, S. rewrite Ld in I, S.
  assert (Hd : forall i, (i < length donor)%nat -> nth i ds 0 = distance cosine D target (nth i donor rzero)) by (intros i Hi; unfold ds; now rewrite (map_nth_in _ _ _ rzero)).
  split.
  - split; [exact L1|]. split; [exact N|]. split; [exact I|]. intros i j Hi Hj Hn. rewrite <- !Hd by auto. now apply S.
  - unfold interpolate_with. destruct (Nat.eqb_spec k 0); [lia|]. destruct (Nat.ltb_spec (length donor) k); [lia|]. cbv zeta. fold ds. fold idx.
    rewrite (rmapM_nthE ds _ 0) by (now rewrite Ld). cbn [rbind]. rewrite (rmapM_nthE donor _ rzero), (rmapM_nthE orig _ rzero) by (rewrite ?L; exact I). cbn [rbind].
    unfold comb. do 2 f_equal. destruct s; try reflexivity. f_equal. apply map_ext_in. auto.
Qed.

(** least_squares: of all combinations of the k nearest shared tokens, the weights give the one nearest to the target; the new row
    is that combination of the original model's rows *)
Theorem C75_least_squares : forall cosine D k donor orig target, length orig = length donor -> (0 < k <= length donor)%nat ->
  exists idx ws, interp LeastSquares cosine D k donor orig target = Ok (comb ws idx orig) /\
  nearest cosine D k target donor idx /\ length ws = k /\
  forall vs, length vs = k -> error D target (comb ws idx donor) <= error D target (comb vs idx donor).
Proof.
  intros cosine D k donor orig target L Hk. destruct (interp_ok LeastSquares cosine D k donor orig target L Hk) as (Hn & E). eexists _, _. split; [exact E|]. split; [exact Hn|].
  set (idx := topk _ k) in *. destruct Hn as (L1 & _). set (P := map (fun i => nth i donor rzero) idx). assert (LP : length P = k) by (unfold P; now rewrite map_length).
  assert (Lw : length (least_squares_weights lstsq D P target) = k) by (unfold least_squares_weights; now rewrite map_length, seq_length). split; [exact Lw|].
  intros vs Lv. pose proof (Hl D k (fun j => nth j P rzero) target (fun j => nth j vs 0)) as H.
  rewrite (nrm_ext D _ (fun x => target x - comb (least_squares_weights lstsq D P target) idx donor x)) in H.
  2:{ intros x _. unfold left_over, comb. fold P. rewrite wsum_Sum by lia. rewrite Lw. f_equal. apply Sum_ext. intros j Hj. unfold least_squares_weights. rewrite LP, nth_seq_map by exact Hj. reflexivity. }
  rewrite (nrm_ext D (left_over _ _ _ _) (fun x => target x - comb vs idx donor x)) in H; [exact H|].
  intros x _. unfold left_over, comb. fold P. rewrite wsum_Sum by lia. now rewrite Lv.
Qed.

(** barycentric: the weights add to one and, of all such combinations, give the one nearest to the target *)
Lemma bary_solves D P target : P <> [] -> exists lam,
  let w := lstsq (S (length P)) (S (length P)) (bordered D P) (bordered_rhs D P target) in
  Sum (length P) w = 1 /\ forall i, (i < length P)%nat ->
  Sum (length P) (fun j => w j * ip D (nth i P rzero) (nth j P rzero)) + lam = ip D target (nth i P rzero).
Proof.
  intros HP. set (n := length P). assert (Hn : (0 < n)%nat) by (unfold n; destruct P; [congruence|cbn; lia]).
  set (p := fun j => nth j P rzero).
  (* a solution: project the target on the affine hull *)
  set (e := fun j i => p j i - p 0%nat i). set (b := fun i => target i - p 0%nat i).
  set (c := lsq D n e b). set (w0 := fun j => c j + (if Nat.eqb j 0 then 1 - Sum n c else 0)).
  assert (S0 : forall g : nat -> R, Sum n (fun j => (if Nat.eqb j 0 then 1 - Sum n c else 0) * g j) = (1 - Sum n c) * g 0%nat).
  { intros g. rewrite (Sum_single n 0); [reflexivity|exact Hn|]. intros i _ Hi. destruct (Nat.eqb_spec i 0); [lia|ring]. }
  assert (Hsum : Sum n w0 = 1).
  { unfold w0. rewrite Sum_plus. rewrite (Sum_ext n (fun j => if Nat.eqb j 0 then 1 - Sum n c else 0) (fun j => (if Nat.eqb j 0 then 1 - Sum n c else 0) * 1)) by (intros; ring). rewrite (S0 (fun _ => 1)). ring. }
  assert (Hres : forall i, target i - Sum n (fun j => w0 j * p j i) = left_over n e c b i).
  { intros i. unfold left_over, b, e, w0. rewrite (Sum_ext n (fun j => _ * p j i) (fun j => c j * p j i + (if Nat.eqb j 0 then 1 - Sum n c else 0) * p j i)) by (intros; ring).
    rewrite Sum_plus, (S0 (fun j => p j i)). rewrite (Sum_ext n (fun j => c j * (p j i - p 0%nat i)) (fun j => c j * p j i - c j * p 0%nat i)) by (intros; ring).
    rewrite Sum_minus, Sum_scal_r. ring. }
  set (r := left_over n e c b). set (lam0 := ip D r (p 0%nat)).
  assert (Hr : forall i, (i < n)%nat -> ip D r (p i) = lam0).
  { intros i Hi. pose proof (lsq_normal D e n b i Hi) as Z. fold c in Z. fold r in Z. unfold e in Z. rewrite ip_minus_r in Z. unfold lam0. lra. }
  assert (Hk : forall i, (i < n)%nat -> Sum n (fun j => w0 j * ip D (p i) (p j)) + lam0 = ip D target (p i)).
  { intros i Hi. rewrite <- (Hr i Hi). rewrite (ip_ext D r (p i) (fun x => target x - Sum n (fun j => w0 j * p j x)) (p i)) by (auto; intros; symmetry; apply Hres).
    rewrite ip_minus_l, ip_comb_l. rewrite (Sum_ext n (fun b => w0 b * ip D (p b) (p i)) (fun j => w0 j * ip D (p i) (p j))) by (intros; now rewrite (ip_comm D (p i))). ring. }
  set (w := lstsq (S n) (S n) (bordered D P) (bordered_rhs D P target)).
  assert (HS : forall i, (i < S n)%nat -> Sum (S n) (fun j => w j * bordered D P j i) = bordered_rhs D P target i).
  { apply (lstsq_solves lstsq Hl (S n) (S n) (bordered D P) (bordered_rhs D P target) (fun j => if Nat.ltb j n then w0 j else lam0)). intros i Hi. cbn [Sum].
    unfold bordered_rhs, bordered. cbv zeta. fold n. destruct (Nat.ltb_spec n n); [lia|]. destruct (Nat.ltb_spec i n) as [Hin|Hin].
    - change (nth i P rzero) with (p i). rewrite <- (Hk i Hin). rewrite Rmult_1_r. f_equal. apply Sum_ext. intros j Hj. destruct (Nat.ltb_spec j n); [reflexivity|lia].
    - rewrite Rmult_0_r, Rplus_0_r. transitivity (Sum n w0); [now rewrite Hsum|]. apply Sum_ext. intros j Hj. destruct (Nat.ltb_spec j n); [ring|lia]. }
  exists (w n). cbv zeta. fold n. fold w. split.
  - pose proof (HS n ltac:(lia)) as E. cbn [Sum] in E. unfold bordered_rhs, bordered in E. cbv zeta in E. fold n in E. destruct (Nat.ltb_spec n n); [lia|].
    rewrite Rmult_0_r, Rplus_0_r in E. rewrite <- E. apply Sum_ext. intros j Hj. destruct (Nat.ltb_spec j n); [ring|lia].
  - intros i Hi. pose proof (HS i ltac:(lia)) as E. cbn [Sum] in E. unfold bordered_rhs, bordered in E. cbv zeta in E. fold n in E. destruct (Nat.ltb_spec i n); [|lia].
    destruct (Nat.ltb_spec n n); [lia|]. rewrite <- E. rewrite Rmult_1_r. f_equal. apply Sum_ext. intros j Hj. destruct (Nat.ltb_spec j n); [reflexivity|lia].
Qed.
Lemma affine_best D n (p : nat -> row) target w v lam : Sum n w = 1 -> Sum n v = 1 ->
  (forall i, (i < n)%nat -> Sum n (fun j => w j * ip D (p i) (p j)) + lam = ip D target (p i)) ->
  nrm D (left_over n p w target) <= nrm D (left_over n p v target).
Proof.
  intros Hw Hv H. apply nrm_le_sq. set (r := left_over n p w target). set (s := fun i => Sum n (fun j => (w j - v j) * p j i)).
  assert (E : forall i, left_over n p v target i = r i + s i).
  { intros i. unfold r, s, left_over. rewrite (Sum_ext n (fun j => (w j - v j) * p j i) (fun j => w j * p j i - v j * p j i)) by (intros; ring). rewrite Sum_minus. ring. }
  assert (Hr : forall i, (i < n)%nat -> ip D r (p i) = lam).
  { intros i Hi. unfold r, left_over. rewrite ip_minus_l, ip_comb_l. rewrite <- (H i Hi).
    rewrite (Sum_ext n (fun b => w b * ip D (p b) (p i)) (fun j => w j * ip D (p i) (p j))) by (intros; now rewrite (ip_comm D (p i))). ring. }
  assert (Z : ip D r s = 0).
  { unfold s. rewrite ip_comb_r. rewrite (Sum_ext n _ (fun j => (w j - v j) * lam)) by (intros j Hj; now rewrite Hr). rewrite Sum_scal_r, Sum_minus, Hw, Hv. ring. }
  rewrite (ip_ext D (left_over n p v target) (left_over n p v target) (fun i => r i + s i) (fun i => r i + s i)) by auto.
  rewrite ip_plus_l, (ip_comm D r (fun i => r i + s i)), ip_plus_l, (ip_comm D s (fun i => r i + s i)), ip_plus_l, (ip_comm D s r), Z. pose proof (ip_nonneg D s). lra.
Qed.
Theorem C75_barycentric : forall cosine D k donor orig target, length orig = length donor -> (0 < k <= length donor)%nat ->
  exists idx ws, interp Barycentric cosine D k donor orig target = Ok (comb ws idx orig) /\
  nearest cosine D k target donor idx /\ length ws = k /\ rsum ws = 1 /\
  forall vs, length vs = k -> rsum vs = 1 -> error D target (comb ws idx donor) <= error D target (comb vs idx donor).
Proof.
  intros cosine D k donor orig target L Hk. destruct (interp_ok Barycentric cosine D k donor orig target L Hk) as (Hn & E). eexists _, _. split; [exact E|]. split; [exact Hn|].
  set (idx := topk _ k) in *. destruct Hn as (L1 & _). set (P := map (fun i => nth i donor rzero) idx). assert (LP : length P = k) by (unfold P; now rewrite map_length).
  destruct (bary_solves D P target ltac:(intros Z; rewrite Z in LP; cbn in LP; lia)) as (lam & Hsum & Hkkt). rewrite LP in Hsum, Hkkt. cbv zeta in Hsum, Hkkt.
  set (w := lstsq (S k) (S k) (bordered D P) (bordered_rhs D P target)) in *.
  assert (Hw : barycentric_weights lstsq D P target = map w (seq 0 k)) by (unfold barycentric_weights; rewrite LP; reflexivity). rewrite Hw.
  assert (Lw : length (map w (seq 0 k)) = k) by (now rewrite map_length, seq_length). split; [exact Lw|]. split.
  - rewrite rsum_Sum_nth, Lw. rewrite <- Hsum. apply Sum_ext. intros j Hj. now apply nth_seq_map.
  - intros vs Lv Hv. rewrite rsum_Sum_nth, Lv in Hv. pose proof (affine_best D k (fun j => nth j P rzero) target w (fun j => nth j vs 0) lam Hsum Hv Hkkt) as H.
    rewrite (nrm_ext D _ (fun x => target x - comb (map w (seq 0 k)) idx donor x)) in H.
    2:{ intros x _. unfold left_over, comb. fold P. rewrite wsum_Sum by lia. rewrite Lw. f_equal. apply Sum_ext. intros j Hj. now rewrite nth_seq_map. }
    rewrite (nrm_ext D (left_over _ _ _ _) (fun x => target x - comb vs idx donor x)) in H; [exact H|].
    intros x _. unfold left_over, comb. fold P. rewrite wsum_Sum by lia. now rewrite Lv.
Qed.

Lemma error_zero D t a : error D t a <= 0 -> forall x, (x < D)%nat -> a x = t x.
Proof.
  intros H x Hx. pose proof (nrm_nonneg D (fun x => t x - a x)) as H0. pose proof (nrm_sq D (fun x => t x - a x)) as H1. unfold error in H.
  replace (nrm D (fun x => t x - a x)) with 0 in H1 by lra. rewrite Rmult_0_l in H1. symmetry in H1. pose proof (ip_zero D _ H1 x Hx) as Z. cbv beta in Z. lra.
Qed.
Lemma error_same D t a : (forall x, (x < D)%nat -> a x = t x) -> error D t a = 0.
Proof.
  intros H. unfold error. rewrite (nrm_ext D _ (fun _ => 0)) by (intros x Hx; rewrite H by exact Hx; ring). unfold nrm, ip. rewrite Sum_0 by (intros; ring). apply sqrt_0.
Qed.
(** if the original model's shared rows are a linear image of the donor's (for barycentric also with a translation), a target that
    is such a combination of its nearest shared tokens is carried to its image *)
Theorem C75_linear_image : forall cosine D k donor orig target (m : nat -> nat -> R), length orig = length donor -> (0 < k <= length donor)%nat ->
  (forall i y, (i < length donor)%nat -> nth i orig rzero y = Sum D (fun x => m y x * nth i donor rzero x)) ->
  (forall idx, nearest cosine D k target donor idx -> exists vs, length vs = k /\ forall x, (x < D)%nat -> comb vs idx donor x = target x) ->
  exists row, interp LeastSquares cosine D k donor orig target = Ok row /\ forall y, row y = Sum D (fun x => m y x * target x).
Proof.
  intros cosine D k donor orig target m L Hk Hm Hex. destruct (C75_least_squares cosine D k donor orig target L Hk) as (idx & ws & E & Hn & Lw & B).
  exists (comb ws idx orig). split; [exact E|]. destruct (Hex idx Hn) as (vs & Lv & Hv). specialize (B vs Lv). rewrite (error_same _ _ _ Hv) in B. pose proof (error_zero _ _ _ B) as X.
  destruct Hn as (Li & _ & I & _). intros y. rewrite comb_Sum by lia.
  rewrite (Sum_ext D _ (fun x => Sum (length ws) (fun j => m y x * (nth j ws 0 * nth (nth j idx 0%nat) donor rzero x)))) by (intros x Hx; rewrite <- X by exact Hx; rewrite comb_Sum by lia; now rewrite Sum_scal).
  rewrite Sum_swap. apply Sum_ext. intros j Hj. rewrite Hm by (apply I, nth_In; lia). rewrite <- Sum_scal. apply Sum_ext. intros. ring.
Qed.
Theorem C75_affine_image : forall cosine D k donor orig target (m : nat -> nat -> R) (c : row), length orig = length donor -> (0 < k <= length donor)%nat ->
  (forall i y, (i < length donor)%nat -> nth i orig rzero y = Sum D (fun x => m y x * nth i donor rzero x) + c y) ->
  (forall idx, nearest cosine D k target donor idx -> exists vs, length vs = k /\ rsum vs = 1 /\ forall x, (x < D)%nat -> comb vs idx donor x = target x) ->
  exists row, interp Barycentric cosine D k donor orig target = Ok row /\ forall y, row y = Sum D (fun x => m y x * target x) + c y.
Proof.
  intros cosine D k donor orig target m c L Hk Hm Hex. destruct (C75_barycentric cosine D k donor orig target L Hk) as (idx & ws & E & Hn & Lw & Hs & B).
  exists (comb ws idx orig). split; [exact E|]. destruct (Hex idx Hn) as (vs & Lv & Sv & Hv). specialize (B vs Lv Sv). rewrite (error_same _ _ _ Hv) in B. pose proof (error_zero _ _ _ B) as X.
  destruct Hn as (Li & _ & I & _). intros y. rewrite comb_Sum by lia. rewrite rsum_Sum_nth in Hs.
  rewrite (Sum_ext D _ (fun x => Sum (length ws) (fun j => m y x * (nth j ws 0 * nth (nth j idx 0%nat) donor rzero x)))) by (intros x Hx; rewrite <- X by exact Hx; rewrite comb_Sum by lia; now rewrite Sum_scal).
  rewrite Sum_swap. replace (c y) with (Sum (length ws) (fun j => nth j ws 0 * c y)) by (rewrite Sum_scal_r, Hs; ring). rewrite <- Sum_plus. apply Sum_ext. intros j Hj.
  rewrite Hm by (apply I, nth_In; lia). rewrite Rmult_plus_distr_l, <- Sum_scal. f_equal. apply Sum_ext. intros. ring.
Qed.
End C75.

(** one dimension, shared tokens at 1, 2 and 10, and at 12, 14 and 30 in the original model (2 x + 10): the token at 3 has its two
    neighbours 2 and 1 outside, and is carried to 16 *)
Definition line (a : R) : row := fun _ => a.
Example C75_nonvacuous : exists row,
  interpolate_with lsq sort_topk Barycentric false 1 2 [line 1; line 2; line 10] [line 12; line 14; line 30] (line 3) = Ok row /\ row 0%nat = 16.
Proof.
  destruct (C75_affine_image lsq sort_topk lsq_is_lstsq sort_is_topk false 1 2 [line 1; line 2; line 10] [line 12; line 14; line 30] (line 3) (fun _ _ => 2) (fun _ => 10)) as (row & E & H).
  - reflexivity.
  - cbn. lia.
  - intros [|[|[|]]] y Hi; cbn in Hi; try lia; unfold line; cbn; ring.
  - intros idx (L & N & I & B). destruct idx as [|a [|b [|]]]; try discriminate L.
    assert (Ha : (a < 3)%nat) by (apply I; now left). assert (Hb : (b < 3)%nat) by (apply I; right; now left). assert (Hab : a <> b) by (intros ->; apply NoDup_cons_iff in N as (N1 & _); apply N1; now left).
    assert (D1 : forall v, distance false 1 (line 3) (line v) = Rabs (3 - v)).
    { intros v. unfold distance, nrm, ip, line. cbn [Sum]. rewrite Rplus_0_l. apply sqrt_Rsqr_abs. }
    assert (Ha2 : a <> 2%nat).
    { intros ->. destruct (Nat.eq_dec b 0) as [->|]; [pose proof (B 2%nat 1%nat ltac:(now left) ltac:(cbn; lia) ltac:(intros [|[|[]]]; lia)) as X|pose proof (B 2%nat 0%nat ltac:(now left) ltac:(cbn; lia) ltac:(intros [|[|[]]]; lia)) as X];
      cbn [nth] in X; rewrite !D1 in X; unfold Rabs in X; destruct (Rcase_abs _), (Rcase_abs _); lra. }
    assert (Hb2 : b <> 2%nat).
    { intros ->. destruct (Nat.eq_dec a 0) as [->|]; [pose proof (B 2%nat 1%nat ltac:(right; now left) ltac:(cbn; lia) ltac:(intros [|[|[]]]; lia)) as X|pose proof (B 2%nat 0%nat ltac:(right; now left) ltac:(cbn; lia) ltac:(intros [|[|[]]]; lia)) as X];
      cbn [nth] in X; rewrite !D1 in X; unfold Rabs in X; destruct (Rcase_abs _), (Rcase_abs _); lra. }
    assert (Hc : (a = 0 /\ b = 1 \/ a = 1 /\ b = 0)%nat) by lia. destruct Hc as [[-> ->]|[-> ->]]; [exists [-1; 2]|exists [2; -1]]; (split; [reflexivity|]; split; [unfold rsum; cbn; ring|]);
    intros x _; unfold comb, wsum, line, rsum; cbn; ring.
  - exists row. split; [exact E|]. rewrite H. unfold line. cbn. ring.
Qed.
Print Assumptions C75_least_squares.
Print Assumptions C75_barycentric.
Print Assumptions C75_affine_image.
