(** * C76: rotary embeddings in token surgery *)
From Coq Require Import Reals Lra Lia.
From Verif.Base Require Import LinAlg RList Py PyFacts.
From Verif.TokenSurgeon Require Import Approx OmpProofs ApproxSpec LeastSquares Rope RopeProofs.
Local Open Scope list_scope.
Local Open Scope R_scope.

(** a row of [heads] heads of even size [hd] *)
Definition has_heads (D heads hd : nat) : Prop := D = (heads * hd)%nat /\ Nat.Even hd.
(** every pair (d, d + hd/2) of every head is non-zero *)
Definition no_zero_pair (heads hd : nat) (x : row) : Prop :=
  forall h d, (h < heads)%nat -> (d < hd / 2)%nat -> x (h * hd + d)%nat <> 0 \/ x (h * hd + (hd / 2 + d))%nat <> 0.
Definition same_row (D : nat) (x y : row) : Prop := forall i, (i < D)%nat -> x i = y i.

(** rotation applies to exactly the rows that split into heads of even size *)
Theorem C76_applies : forall D heads hd base pos x, (exists y, apply_rope D heads hd base pos x = Ok y) <-> has_heads D heads hd.
Proof.
  intros. unfold apply_rope, has_heads, splits. rewrite <- Nat.even_spec. destruct (Nat.eqb_spec D (heads * hd)) as [E|E]; cbn.
  - destruct (Nat.even hd); split; [intros _; split; [exact E|reflexivity]|intros _; eexists; reflexivity|intros (? & [=])|intros (_ & [=])].
  - split; [intros (? & [=])|intros (? & _); contradiction].
Qed.
Lemma applied D heads hd base pos x y : apply_rope D heads hd base pos x = Ok y -> D = (heads * hd)%nat /\ Nat.even hd = true /\ y = rope base hd pos x.
Proof.
  unfold apply_rope, splits. destruct (Nat.eqb_spec D (heads * hd)); [|discriminate]. destruct (Nat.even hd); [|discriminate]. cbn. intros [=]. auto.
Qed.

(** in every head the pair (d, d + hd/2) is turned, as a point of the plane, by the angle pos * base^(-2d/hd) *)
Theorem C76_pairs : forall D heads hd base pos x y h d, apply_rope D heads hd base pos x = Ok y -> (d < hd / 2)%nat ->
  let a := x (h * hd + d)%nat in let b := x (h * hd + d + hd / 2)%nat in
  let angle := pos * Rpower base (- (2 * INR d / INR hd)) in
  y (h * hd + d)%nat = a * cos angle - b * sin angle /\ y (h * hd + d + hd / 2)%nat = a * sin angle + b * cos angle.
Proof.
  intros D heads hd base pos x y h d H Hd. apply applied in H as (_ & He & ->). cbv zeta. rewrite <- Nat.add_assoc, (Nat.add_comm d (hd / 2)).
  pose proof (lo_rotate hd (angles base hd pos) x h d He Hd) as L. pose proof (hi_rotate hd (angles base hd pos) x h d He Hd) as U.
  unfold lo in L. unfold hi in U. unfold rope. rewrite L, U. unfold lo, hi, angles, inv_freq, Rdiv. rewrite Rmult_1_l, <- Rpower_Ropp, mult_INR. change (INR 2) with 2. split; ring.
Qed.
(** each head is multiplied by the rotation matrix of its angles *)
Theorem C76_matrix : forall hd theta x h j, Nat.Even hd -> (j < hd)%nat ->
  rotate hd theta x (h * hd + j)%nat = Sum hd (fun i => x (h * hd + i)%nat * rotation_matrix hd (theta h) i j).
Proof.
  intros hd theta x h j He Hj. apply Nat.even_spec in He. pose proof (even_half hd He) as E. set (half := (hd / 2)%nat) in *.
  rewrite (Sum_split hd half) by lia. replace (hd - half)%nat with half by lia. unfold rotation_matrix. fold half. cbv zeta.
  destruct (Nat.lt_ge_cases j half) as [L|L].
  - change (rotate hd theta x (h * hd + j)%nat) with (lo hd (rotate hd theta x) h j). rewrite lo_rotate by assumption. unfold lo, hi. fold half.
    rewrite (Sum_single half j); [|exact L|].
    + rewrite (Sum_single half j); [|exact L|].
      * destruct (Nat.ltb_spec j half); [|lia]. rewrite Nat.eqb_refl. destruct (Nat.ltb_spec (half + j) half); [lia|]. replace (half + j - half)%nat with j by lia. rewrite Nat.eqb_refl. ring.
      * intros i Hi Hne. destruct (Nat.ltb_spec (half + i) half); [lia|]. replace (half + i - half)%nat with i by lia. destruct (Nat.eqb_spec j i); [lia|]. destruct (Nat.eqb_spec j (half + i)); [lia|ring].
    + intros i Hi Hne. destruct (Nat.ltb_spec i half); [|lia]. destruct (Nat.eqb_spec j i); [lia|]. destruct (Nat.eqb_spec j (half + i)); [lia|ring].
  - set (d := (j - half)%nat). assert (Ej : j = (half + d)%nat) by (unfold d; lia). assert (Hd : (d < half)%nat) by lia. rewrite Ej.
    change (rotate hd theta x (h * hd + (half + d))%nat) with (hi hd (rotate hd theta x) h d). rewrite hi_rotate by assumption. unfold lo, hi. fold half.
    rewrite (Sum_single half d); [|exact Hd|].
    + rewrite (Sum_single half d); [|exact Hd|].
      * destruct (Nat.ltb_spec d half); [|lia]. destruct (Nat.eqb_spec (half + d) d); [lia|]. rewrite Nat.eqb_refl. destruct (Nat.ltb_spec (half + d) half); [lia|]. replace (half + d - half)%nat with d by lia.
        destruct (Nat.eqb_spec (half + d) d); [lia|]. ring.
      * intros i Hi Hne. destruct (Nat.ltb_spec (half + i) half); [lia|]. replace (half + i - half)%nat with i by lia. destruct (Nat.eqb_spec (half + d) i); [lia|]. destruct (Nat.eqb_spec (half + d) (half + i)); [lia|ring].
    + intros i Hi Hne. destruct (Nat.ltb_spec i half); [|lia]. destruct (Nat.eqb_spec (half + d) i); [lia|]. destruct (Nat.eqb_spec (half + d) (half + i)); [lia|ring].
Qed.

(** rotation keeps lengths and inner products *)
Theorem C76_isometry : forall D heads hd base pos x y x' y', apply_rope D heads hd base pos x = Ok x' -> apply_rope D heads hd base pos y = Ok y' -> ip D x' y' = ip D x y.
Proof. intros D heads hd base pos x y x' y' Hx Hy. apply applied in Hx as (-> & He & ->). apply applied in Hy as (_ & _ & ->). now apply rotate_ip. Qed.
(** positions add up; position 0 changes nothing *)
Theorem C76_positions_add : forall D heads hd base p q x y z, apply_rope D heads hd base q x = Ok y -> apply_rope D heads hd base p y = Ok z ->
  exists w, apply_rope D heads hd base (p + q) x = Ok w /\ same_row D z w.
Proof.
  intros D heads hd base p q x y z Hy Hz. destruct (applied _ _ _ _ _ _ _ Hy) as (ED & He & ->). apply applied in Hz as (_ & _ & ->). unfold apply_rope, splits. rewrite ED, Nat.eqb_refl, He. cbn.
  eexists. split; [reflexivity|]. intros i Hi. unfold rope. rewrite (rotate_rotate heads) by assumption. apply (rotate_ext heads); auto. intros. unfold angles. ring.
Qed.
Theorem C76_position_zero : forall D heads hd base x y, apply_rope D heads hd base 0 x = Ok y -> same_row D y x.
Proof.
  intros D heads hd base x y H. apply applied in H as (-> & He & ->). intros i Hi. rewrite <- (rotate_zero heads hd x He i Hi). apply (rotate_ext heads); auto. intros. unfold angles. ring.
Qed.
(** inner products depend on the difference of the positions only *)
Theorem C76_relative : forall D heads hd base m n x y x' y', apply_rope D heads hd base m x = Ok x' -> apply_rope D heads hd base n y = Ok y' ->
  exists z, apply_rope D heads hd base (n - m) y = Ok z /\ ip D x' y' = ip D x z.
Proof.
  intros D heads hd base m n x y x' y' Hx Hy. destruct (applied _ _ _ _ _ _ _ Hx) as (ED & He & ->). apply applied in Hy as (_ & _ & ->). unfold apply_rope, splits. rewrite ED, Nat.eqb_refl, He. cbn.
  eexists. split; [reflexivity|]. rewrite <- (rotate_ip heads hd (angles base hd m) x (rope base hd (n - m) y) He). apply ip_ext; [reflexivity|]. intros i Hi. unfold rope. rewrite (rotate_rotate heads) by assumption.
  apply (rotate_ext heads); auto. intros. unfold angles. ring.
Qed.

(** the estimated angles turn the first row as near to the second as any angles can *)
Lemma best_angle a b c e : let t := atan2 (a * e - b * c) (a * c + b * e) in forall s,
  (a * cos t - b * sin t - c) * (a * cos t - b * sin t - c) + (b * cos t + a * sin t - e) * (b * cos t + a * sin t - e) <=
  (a * cos s - b * sin s - c) * (a * cos s - b * sin s - c) + (b * cos s + a * sin s - e) * (b * cos s + a * sin s - e).
Proof.
  intros t s. set (num := a * e - b * c). set (den := a * c + b * e). destruct (atan2_polar num den) as (C & S). change (atan2 num den) with t in C, S. set (r := sqrt (den * den + num * num)) in *.
  assert (X : forall u, (a * cos u - b * sin u - c) * (a * cos u - b * sin u - c) + (b * cos u + a * sin u - e) * (b * cos u + a * sin u - e) = a * a + b * b + c * c + e * e - 2 * (den * cos u + num * sin u)).
  { intros u. transitivity ((sin u * sin u + cos u * cos u) * (a * a + b * b) + c * c + e * e - 2 * (den * cos u + num * sin u)); [unfold den, num; ring|]. rewrite sc. ring. }
  rewrite !X. enough (den * cos s + num * sin s <= den * cos t + num * sin t) by lra.
  assert (R1 : den * cos t + num * sin t = r).
  { rewrite <- C, <- S. transitivity (r * (sin t * sin t + cos t * cos t)); [ring|]. rewrite sc. ring. }
  rewrite R1, <- C, <- S. replace (r * cos t * cos s + r * sin t * sin s) with (r * cos (t - s)) by (rewrite cos_minus; ring). pose proof (COS_bound (t - s)). assert (0 <= r) by apply sqrt_pos. nra.
Qed.
Theorem C76_best_angles : forall heads hd x0 x1 theta, Nat.Even hd ->
  nrm (heads * hd) (fun i => rotate hd (estimate_theta hd x0 x1) x0 i - x1 i) <= nrm (heads * hd) (fun i => rotate hd theta x0 i - x1 i).
Proof.
  intros heads hd x0 x1 theta He. apply Nat.even_spec in He. apply nrm_le_sq. rewrite !ip_heads by exact He. apply over_le. intros h d _ Hd.
  assert (L : forall z y : row, lo hd (fun i => z i - y i) h d = lo hd z h d - lo hd y h d) by reflexivity. assert (U : forall z y : row, hi hd (fun i => z i - y i) h d = hi hd z h d - hi hd y h d) by reflexivity.
  rewrite !L, !U, !lo_rotate, !hi_rotate by assumption. exact (best_angle (lo hd x0 h d) (hi hd x0 h d) (lo hd x1 h d) (hi hd x1 h d) (theta h d)).
Qed.
(** a row turned by angles between -pi and pi, and possibly stretched, gives these angles back *)
Theorem C76_angles_back : forall heads hd x0 x1 theta c, Nat.Even hd -> no_zero_pair heads hd x0 -> 0 < c ->
  (forall h d, (h < heads)%nat -> (d < hd / 2)%nat -> - PI < theta h d <= PI) ->
  same_row (heads * hd) x1 (fun i => c * rotate hd theta x0 i) ->
  forall h d, (h < heads)%nat -> (d < hd / 2)%nat -> estimate_theta hd x0 x1 h d = theta h d.
Proof.
  intros heads hd x0 x1 theta c He Hnz Hc Hth E h d Hh Hd. apply Nat.even_spec in He. destruct (lo_ext heads hd x1 (fun i => c * rotate hd theta x0 i) He E h d Hh Hd) as (E1 & E2).
  change (lo hd (fun i => c * rotate hd theta x0 i) h d) with (c * lo hd (rotate hd theta x0) h d) in E1. change (hi hd (fun i => c * rotate hd theta x0 i) h d) with (c * hi hd (rotate hd theta x0) h d) in E2.
  rewrite lo_rotate in E1 by assumption. rewrite hi_rotate in E2 by assumption. unfold estimate_theta. rewrite E1, E2. specialize (Hnz h d Hh Hd). fold (lo hd x0 h d) in Hnz. fold (hi hd x0 h d) in Hnz.
  set (a := lo hd x0 h d) in *. set (b := hi hd x0 h d) in *. set (t := theta h d).
  replace (a * (c * (b * cos t + a * sin t)) - b * (c * (a * cos t - b * sin t))) with (c * (a * a + b * b) * sin t) by ring.
  replace (a * (c * (a * cos t - b * sin t)) + b * (c * (b * cos t + a * sin t))) with (c * (a * a + b * b) * cos t) by ring.
  apply atan2_of; [|now apply Hth]. apply Rmult_lt_0_compat; [exact Hc|]. destruct Hnz; nra.
Qed.

(** the length of the vector of frequencies *)
Definition freq_norm (heads hd : nat) (base : R) : R := sqrt (INR heads * Sum (hd / 2) (fun d => inv_freq base hd d * inv_freq base hd d)).
Lemma freq_norm_sq heads hd base : freq_norm heads hd base * freq_norm heads hd base = INR heads * Sum (hd / 2) (fun d => inv_freq base hd d * inv_freq base hd d).
Proof. unfold freq_norm. apply sqrt_sqrt. apply Rmult_le_pos; [apply pos_INR|]. apply Sum_nonneg. intros. nra. Qed.
Lemma freq_norm_ge heads hd base : 0 < base -> (0 < heads)%nat -> (1 < hd)%nat -> 1 <= freq_norm heads hd base.
Proof.
  intros Hb Hh Hd. unfold freq_norm. rewrite <- sqrt_1 at 1. apply sqrt_le_1_alt. assert (P : (0 < hd / 2)%nat) by (apply Nat.div_str_pos; lia).
  assert (1 <= Sum (hd / 2) (fun d => inv_freq base hd d * inv_freq base hd d)).
  { rewrite (Sum_split _ 1) by lia. cbn [Sum]. rewrite inv_freq_0 by exact Hb. assert (0 <= Sum (hd / 2 - 1) (fun i => inv_freq base hd (1 + i) * inv_freq base hd (1 + i))) by (apply Sum_nonneg; intros; nra). lra. }
  assert (1 <= INR heads) by (apply (le_INR 1); lia). nra.
Qed.
Lemma estimate_form heads hd base x0 x1 : estimate_position heads hd base x0 x1 =
  over heads hd (fun h d => estimate_theta hd x0 x1 h d * inv_freq base hd d) / ((freq_norm heads hd base + eps8) * (freq_norm heads hd base + eps8)).
Proof.
  unfold estimate_position. cbv zeta. assert (He : 0 < eps8) by (apply Rinv_0_lt_compat, pow_lt; lra).
  assert (E1 : sqrt (over heads hd (fun _ d => inv_freq base hd d * inv_freq base hd d)) = freq_norm heads hd base) by (now rewrite over_same).
  assert (E2 : sqrt (INR heads) * sqrt (Sum (hd / 2) (fun d => inv_freq base hd d * inv_freq base hd d)) = freq_norm heads hd base) by (unfold freq_norm; rewrite sqrt_mult; [reflexivity|apply pos_INR|apply Sum_nonneg; intros; nra]).
  rewrite E1, E2. assert (Hn : 0 <= freq_norm heads hd base) by apply sqrt_pos. set (N := freq_norm heads hd base) in *.
  rewrite (over_ext heads hd _ (fun h d => / (N + eps8) * (estimate_theta hd x0 x1 h d * inv_freq base hd d))) by (intros; unfold Rdiv; ring). rewrite over_scal. field. lra.
Qed.
(** the estimated position is, but for a constant factor close to one, the position whose angles are nearest to the estimated ones *)
Theorem C76_nearest_position : forall heads hd base x0 x1, 0 < base -> (0 < heads)%nat -> (1 < hd)%nat -> exists best,
  (forall p, over heads hd (fun h d => (estimate_theta hd x0 x1 h d - best * inv_freq base hd d) * (estimate_theta hd x0 x1 h d - best * inv_freq base hd d)) <=
             over heads hd (fun h d => (estimate_theta hd x0 x1 h d - p * inv_freq base hd d) * (estimate_theta hd x0 x1 h d - p * inv_freq base hd d))) /\
  Rabs (estimate_position heads hd base x0 x1 - best) <= 2 / 10 ^ 8 * Rabs best.
Proof.
  intros heads hd base x0 x1 Hb Hh Hd. pose proof (freq_norm_ge heads hd base Hb Hh Hd) as HN. pose proof (freq_norm_sq heads hd base) as SN. set (N := freq_norm heads hd base) in *.
  set (A := over heads hd (fun h d => estimate_theta hd x0 x1 h d * inv_freq base hd d)). exists (A / (N * N)). split.
  - intros p. set (Q := over heads hd (fun h d => estimate_theta hd x0 x1 h d * estimate_theta hd x0 x1 h d)).
    assert (X : forall p, over heads hd (fun h d => (estimate_theta hd x0 x1 h d - p * inv_freq base hd d) * (estimate_theta hd x0 x1 h d - p * inv_freq base hd d)) = Q - 2 * p * A + p * p * (N * N)).
    { intros q. rewrite (over_ext heads hd _ (fun h d => estimate_theta hd x0 x1 h d * estimate_theta hd x0 x1 h d + ((- 2 * q) * (estimate_theta hd x0 x1 h d * inv_freq base hd d) + (q * q) * (inv_freq base hd d * inv_freq base hd d)))) by (intros; ring).
      rewrite !over_plus, !over_scal. rewrite (over_same heads hd (fun d => inv_freq base hd d * inv_freq base hd d)), <- SN. fold A Q. ring. }
    rewrite !X. set (b := A / (N * N)). assert (EA : A = b * (N * N)) by (unfold b; field; lra). rewrite EA. clearbody b. pose proof (Rle_0_sqr (N * (p - b))) as SQ. unfold Rsqr in SQ.
    replace (Q - 2 * p * (b * (N * N)) + p * p * (N * N)) with (Q - 2 * b * (b * (N * N)) + b * b * (N * N) + N * (p - b) * (N * (p - b))) by ring. lra.
  - rewrite estimate_form. fold N A. assert (He : 0 < eps8) by (apply Rinv_0_lt_compat, pow_lt; lra).
    set (b := A / (N * N)). assert (EA : A = b * (N * N)) by (unfold b; field; lra). rewrite EA.
    replace (b * (N * N) / ((N + eps8) * (N + eps8)) - b) with (- (b * (eps8 * (2 * N + eps8) / ((N + eps8) * (N + eps8))))) by (field; lra). rewrite Rabs_Ropp, Rabs_mult.
    rewrite Rmult_comm. apply Rmult_le_compat_r; [apply Rabs_pos|]. rewrite Rabs_pos_eq by (apply Rmult_le_pos; [nra|left; apply Rinv_0_lt_compat; nra]).
    apply (Rmult_le_reg_r ((N + eps8) * (N + eps8))); [nra|]. unfold Rdiv at 1. rewrite Rmult_assoc, Rinv_l, Rmult_1_r by nra. change (2 / 10 ^ 8) with (2 * eps8). clear - HN He. generalize dependent eps8. clearbody N. intros e He.
    assert (2 * N + e <= 2 * ((N + e) * (N + e))) by nra. nra.
Qed.
(** a row turned to position p, |p| < pi, possibly stretched, gives p back with a relative error of at most 2 / 10^8 *)
Theorem C76_position_back : forall D heads hd base p c x0 y x1, apply_rope D heads hd base p x0 = Ok y -> 1 <= base -> (0 < heads)%nat -> (1 < hd)%nat ->
  no_zero_pair heads hd x0 -> 0 < c -> Rabs p < PI -> same_row D x1 (fun i => c * y i) ->
  Rabs (estimate_position heads hd base x0 x1 - p) <= 2 / 10 ^ 8 * Rabs p.
Proof.
  intros D heads hd base p c x0 y x1 Hy Hb Hh Hd Hnz Hc Hp E. apply applied in Hy as (-> & He & ->).
  assert (T : forall h d, (h < heads)%nat -> (d < hd / 2)%nat -> estimate_theta hd x0 x1 h d = p * inv_freq base hd d).
  { intros h d H1 H2. apply (C76_angles_back heads hd x0 x1 (angles base hd p) c); auto; [now apply Nat.even_spec|]. intros h' d' _ _. unfold angles.
    pose proof (inv_freq_pos base hd d'). pose proof (inv_freq_le base hd d' Hb ltac:(lia)). apply Rabs_def2 in Hp. split; nra. }
  destruct (C76_nearest_position heads hd base x0 x1 ltac:(lra) Hh Hd) as (best & Hbest & Hclose). pose proof (freq_norm_ge heads hd base ltac:(lra) Hh Hd) as HN. pose proof (freq_norm_sq heads hd base) as SN. set (N := freq_norm heads hd base) in *.
  assert (best = p); [|subst; exact Hclose]. specialize (Hbest p). rewrite (over_ext heads hd (fun h d => (_ - p * _) * _) (fun _ _ => 0)) in Hbest by (intros; rewrite T by assumption; ring).
  rewrite (over_ext heads hd _ (fun _ d => (p - best) * (p - best) * (inv_freq base hd d * inv_freq base hd d))) in Hbest by (intros; rewrite T by assumption; ring).
  rewrite !over_same, Sum_scal in Hbest. rewrite (Sum_0 _ (fun _ => 0)) in Hbest by reflexivity. assert ((p - best) * (p - best) * (N * N) <= 0) by (rewrite SN; lra).
  assert (0 <= (p - best) * (p - best)) by apply Rle_0_sqr. assert (1 <= N * N) by (clear - HN; clearbody N; nra). clearbody N.
  assert ((p - best) * (p - best) = 0) by (generalize dependent ((p - best) * (p - best)); intros q; nra). assert (p - best = 0) by (now apply Rsqr_0_uniq). lra.
Qed.
(** so does the weighted estimate, which is never used *)
Theorem C76_weighted_back : forall D heads hd base p c x0 y x1, apply_rope D heads hd base p x0 = Ok y -> 1 <= base -> (1 < hd)%nat ->
  no_zero_pair heads hd x0 -> 0 < c -> Rabs p < PI -> same_row D x1 (fun i => c * y i) ->
  estimate_position_id heads hd base x0 x1 = p * (ip D x0 x0 / (ip D x0 x0 + / 10 ^ 8)).
Proof.
  intros D heads hd base p c x0 y x1 Hy Hb Hd Hnz Hc Hp E. apply applied in Hy as (-> & He & ->).
  assert (T : forall h d, (h < heads)%nat -> (d < hd / 2)%nat -> estimate_theta hd x0 x1 h d = p * inv_freq base hd d).
  { intros h d H1 H2. apply (C76_angles_back heads hd x0 x1 (angles base hd p) c); auto; [now apply Nat.even_spec|]. intros h' d' _ _. unfold angles.
    pose proof (inv_freq_pos base hd d'). pose proof (inv_freq_le base hd d' Hb ltac:(lia)). apply Rabs_def2 in Hp. split; nra. }
  unfold estimate_position_id. cbv zeta. rewrite ip_heads by exact He. fold eps8.
  rewrite (over_ext heads hd _ (fun h d => p * (lo hd x0 h d * lo hd x0 h d + hi hd x0 h d * hi hd x0 h d))) by (intros h d H1 H2; rewrite T by assumption; pose proof (inv_freq_pos base hd d); field; lra).
  rewrite over_scal. unfold Rdiv. ring.
Qed.

(** beyond pi the angles wrap around: the position 5 of a single pair comes back as 5 - 2 pi *)
Theorem C76_wraps_refuted : forall x0 y, no_zero_pair 1 2 x0 -> apply_rope 2 1 2 10000 5 x0 = Ok y ->
  Rabs (estimate_position 1 2 10000 x0 y - (5 - 2 * PI)) <= 2 / 10 ^ 8 * (2 * PI - 5).
Proof.
  intros x0 y Hnz Hy. destruct (applied _ _ _ _ _ _ _ Hy) as (_ & _ & Ey). pose proof PI_RGT_0. pose proof PI2_3_2. pose proof PI_4.
  destruct (proj2 (C76_applies 2 1 2 10000 (5 - 2 * PI) x0) ltac:(split; [reflexivity|exists 1%nat; reflexivity])) as (z & Hz). destruct (applied _ _ _ _ _ _ _ Hz) as (_ & _ & Ez).
  assert (A : Rabs (5 - 2 * PI) < PI) by (apply Rabs_def1; unfold PI2 in *; lra).
  pose proof (C76_position_back 2 1 2 10000 (5 - 2 * PI) 1 x0 z y Hz ltac:(lra) ltac:(lia) ltac:(lia) Hnz ltac:(lra) A) as B.
  rewrite (Rabs_left1 (5 - 2 * PI)) in B by (unfold PI2 in *; lra). replace (2 * PI - 5) with (- (5 - 2 * PI)) by ring. apply B. clear B.
  intros i Hi. rewrite Rmult_1_l, Ey, Ez. unfold rope. assert (F : inv_freq 10000 2 0 = 1) by (apply inv_freq_0; lra).
  apply (row_ext 1 2 _ _ eq_refl); [|exact Hi]. intros h d _ Hd. rewrite !lo_rotate, !hi_rotate by (exact Hd || reflexivity). unfold angles. assert (Ed : d = 0%nat) by (cbn in Hd; lia). rewrite Ed, F, !Rmult_1_r.
  assert (C1 : cos (5 - 2 * PI) = cos 5) by (rewrite cos_minus, cos_2PI, sin_2PI; ring). assert (S1 : sin (5 - 2 * PI) = sin 5) by (rewrite sin_minus, cos_2PI, sin_2PI; ring). rewrite C1, S1. split; reflexivity.
Qed.
(** a zero pair counts as angle zero: two heads, the second one zero, at position 1 come back as about a half *)
Definition first_only : row := fun i => if Nat.eqb i 0 then 1 else 0.
Theorem C76_zero_pair_refuted : exists y, apply_rope 4 2 2 10000 1 first_only = Ok y /\ Rabs (estimate_position 2 2 10000 first_only y - / 2) <= / 10 ^ 8.
Proof.
  destruct (proj2 (C76_applies 4 2 2 10000 1 first_only) ltac:(split; [reflexivity|exists 1%nat; reflexivity])) as (y & Hy). exists y. split; [exact Hy|]. apply applied in Hy as (_ & _ & ->).
  assert (F : inv_freq 10000 2 0 = 1) by (apply inv_freq_0; lra). rewrite estimate_form. assert (He : 0 < eps8) by (apply Rinv_0_lt_compat, pow_lt; lra).
  assert (N2 : freq_norm 2 2 10000 * freq_norm 2 2 10000 = 2) by (rewrite freq_norm_sq; change (2 / 2)%nat with 1%nat; cbn [Sum]; rewrite F; cbn; ring).
  assert (N0 : 1 <= freq_norm 2 2 10000) by (apply freq_norm_ge; (lra || lia)). set (N := freq_norm 2 2 10000) in *.
  assert (T0 : estimate_theta 2 first_only (rope 10000 2 1 first_only) 0 0 = 1).
  { unfold estimate_theta. unfold rope. rewrite lo_rotate, hi_rotate by (cbn; lia || reflexivity). replace (lo 2 first_only 0 0) with 1 by reflexivity. replace (hi 2 first_only 0 0) with 0 by reflexivity. unfold angles. rewrite F.
    transitivity (atan2 (1 * sin 1) (1 * cos 1)); [f_equal; rewrite ?Rmult_1_r; ring|]. apply atan2_of; [lra|]. pose proof PI_RGT_0. pose proof PI2_3_2. unfold PI2 in *. lra. }
  assert (T1 : estimate_theta 2 first_only (rope 10000 2 1 first_only) 1 0 = 0).
  { unfold estimate_theta. replace (lo 2 first_only 1 0) with 0 by reflexivity. replace (hi 2 first_only 1 0) with 0 by reflexivity. rewrite !Rmult_0_l. unfold atan2. cbv zeta. destruct (Req_EM_T _ 0) as [|Z]; [reflexivity|]. exfalso. apply Z. replace ((0 + 0) * (0 + 0) + (0 - 0) * (0 - 0)) with 0 by ring. apply sqrt_0. }
  unfold over. change (2 / 2)%nat with 1%nat. cbn [Sum]. rewrite T0, T1, F. fold eps8.
  replace ((0 + (0 + 1 * 1) + (0 + 0 * 1)) / ((N + eps8) * (N + eps8)) - / 2) with (- ((2 * N * eps8 + eps8 * eps8) / (2 * ((N + eps8) * (N + eps8))))).
  - rewrite Rabs_Ropp, Rabs_pos_eq by (apply Rmult_le_pos; [nra|left; apply Rinv_0_lt_compat; nra]). apply (Rmult_le_reg_r (2 * ((N + eps8) * (N + eps8)))); [nra|]. unfold Rdiv. rewrite Rmult_assoc, Rinv_l, Rmult_1_r by nra.
    clear - N2 N0 He. generalize dependent eps8. clearbody N. intros e He. assert (N <= 2) by nra. assert (2 * N + e <= 2 * ((N + e) * (N + e))) by nra. nra.
  - apply (Rmult_eq_reg_r (2 * ((N + eps8) * (N + eps8)))); [|nra]. field_simplify; [|lra..]. replace (N ^ 2) with 2 by (cbn; lra). ring.
Qed.

(** two heads of four entries, turned to position 1 and doubled: the position comes back *)
Example C76_nonvacuous : exists y, apply_rope 8 2 4 10000 1 (fun _ => 1) = Ok y /\
  Rabs (estimate_position 2 4 10000 (fun _ => 1) (fun i => 2 * y i) - 1) <= 2 / 10 ^ 8.
Proof.
  destruct (proj2 (C76_applies 8 2 4 10000 1 (fun _ => 1)) ltac:(split; [reflexivity|exists 2%nat; reflexivity])) as (y & Hy). exists y. split; [exact Hy|].
  replace (2 / 10 ^ 8) with (2 / 10 ^ 8 * Rabs 1) by (rewrite Rabs_R1; ring). apply (C76_position_back 8 2 4 10000 1 2 (fun _ => 1) y _ Hy); try lra; try lia.
  - intros h d _ _. left. lra.
  - rewrite Rabs_R1. pose proof PI2_3_2. unfold PI2 in *. lra.
  - intros i _. reflexivity.
Qed.
Print Assumptions C76_matrix.
Print Assumptions C76_position_back.
Print Assumptions C76_best_angles.
