(** Rotary rotations: lemmas. *)
From Coq Require Import Reals Lra Lia.
From Verif.Base Require Import LinAlg RList Py.
From Verif.TokenSurgeon Require Import Approx OmpProofs LeastSquares Rope.
Local Open Scope list_scope.
Local Open Scope R_scope.

(** ** angles *)
Lemma radius_bounds x y r : r = sqrt (x * x + y * y) -> r <> 0 -> 0 < r /\ r * r = x * x + y * y /\ -1 <= x / r <= 1.
Proof.
  intros -> H. assert (P : 0 <= x * x + y * y) by nra. pose proof (sqrt_pos (x * x + y * y)). assert (Hr : 0 < sqrt (x * x + y * y)) by lra.
  pose proof (sqrt_sqrt _ P) as S. set (r := sqrt (x * x + y * y)) in *. split; [exact Hr|]. split; [exact S|].
  assert (- r <= x <= r) by (split; nra). split.
  - apply (Rmult_le_reg_r r); [exact Hr|]. replace (x / r * r) with x by (field; lra). lra.
  - apply (Rmult_le_reg_r r); [exact Hr|]. replace (x / r * r) with x by (field; lra). lra.
Qed.
Lemma atan2_polar y x : sqrt (x * x + y * y) * cos (atan2 y x) = x /\ sqrt (x * x + y * y) * sin (atan2 y x) = y.
Proof.
  unfold atan2. cbv zeta. set (r := sqrt (x * x + y * y)). destruct (Req_EM_T r 0) as [Z|Z].
  - assert (x * x + y * y = 0) by (apply sqrt_eq_0; [nra|exact Z]). rewrite Z. split; nra.
  - destruct (radius_bounds x y r eq_refl Z) as (Hr & Hs & Hb).
    assert (Hsin : r * sin (acos (x / r)) = Rabs y).
    { rewrite sin_acos by exact Hb. apply Rsqr_inj; [apply Rmult_le_pos; [lra|apply sqrt_pos]|apply Rabs_pos|]. rewrite <- Rsqr_abs. unfold Rsqr.
      replace (r * sqrt (1 - x / r * (x / r)) * (r * sqrt (1 - x / r * (x / r)))) with (r * r * (sqrt (1 - x / r * (x / r)) * sqrt (1 - x / r * (x / r)))) by ring.
      rewrite sqrt_sqrt by nra. replace (r * r * (1 - x / r * (x / r))) with (r * r - x * x) by (field; lra). lra. }
    destruct (Rle_dec 0 y) as [H|H].
    + rewrite cos_acos by exact Hb. split; [field; lra|]. rewrite Hsin. apply Rabs_pos_eq. exact H.
    + rewrite cos_neg, sin_neg, cos_acos by exact Hb. split; [field; lra|]. rewrite Ropp_mult_distr_r_reverse, Hsin, Rabs_left by lra. ring.
Qed.
Lemma atan2_range y x : - PI < atan2 y x <= PI.
Proof.
  pose proof PI_RGT_0 as P. unfold atan2. cbv zeta. set (r := sqrt (x * x + y * y)). destruct (Req_EM_T r 0) as [Z|Z]; [lra|].
  destruct (radius_bounds x y r eq_refl Z) as (Hr & Hs & Hb). pose proof (acos_bound (x / r)) as B. destruct (Rle_dec 0 y) as [H|H]; [lra|].
  assert (-1 < x / r < 1).
  { assert (E : x = x / r * r) by (field; lra). set (u := x / r) in *. split; [|]; apply Rnot_le_lt; intros Hu; assert (U : u = -1 \/ u = 1) by lra; destruct U as [U|U]; rewrite U in E; nra. }
  pose proof (acos_bound_lt _ H0). lra.
Qed.
Lemma angle_unique s t : - PI < s <= PI -> - PI < t <= PI -> cos s = cos t -> sin s = sin t -> s = t.
Proof.
  intros Hs Ht C S. set (d := (s - t) / 2). assert (Hd : - PI < d < PI) by (unfold d; lra).
  assert (E : cos (s - t) = 1) by (rewrite cos_minus, C, S; pose proof (sin2_cos2 t) as X; unfold Rsqr in X; lra).
  replace (s - t) with (2 * d) in E by (unfold d; field). rewrite cos_2a_sin in E.
  assert (Z : sin d = 0) by (assert (sin d * sin d = 0) by lra; now apply Rsqr_0_uniq).
  enough (d = 0) by (unfold d in *; lra). destruct (Rtotal_order d 0) as [H|[H|H]]; [|exact H|].
  - assert (0 < sin (- d)) by (apply sin_gt_0; lra). rewrite sin_neg in *. lra.
  - assert (0 < sin d) by (apply sin_gt_0; lra). lra.
Qed.
Lemma atan2_of r t : 0 < r -> - PI < t <= PI -> atan2 (r * sin t) (r * cos t) = t.
Proof.
  intros Hr Ht. pose proof (atan2_polar (r * sin t) (r * cos t)) as (C & S).
  assert (E : sqrt (r * cos t * (r * cos t) + r * sin t * (r * sin t)) = r).
  { replace (r * cos t * (r * cos t) + r * sin t * (r * sin t)) with (r * r * (sin t * sin t + cos t * cos t)) by ring.
    pose proof (sin2_cos2 t) as X. unfold Rsqr in X. rewrite X, Rmult_1_r. apply sqrt_square. lra. }
  rewrite E in C, S. apply angle_unique; [apply atan2_range|exact Ht| |]; apply (Rmult_eq_reg_l r); (assumption || lra).
Qed.

(** ** heads *)
Lemma even_half hd : Nat.even hd = true -> hd = (2 * (hd / 2))%nat.
Proof. intros H. apply Nat.even_spec in H as (m & ->). rewrite (Nat.mul_comm 2 m), Nat.div_mul by lia. lia. Qed.
Lemma Sum_mul hd f : forall n, Sum (n * hd) f = Sum n (fun h => Sum hd (fun d => f (h * hd + d)%nat)).
Proof.
  induction n as [|n IH]; [reflexivity|]. cbn [Sum]. rewrite (Sum_split (S n * hd) (n * hd)) by lia. rewrite IH. f_equal. replace (S n * hd - n * hd)%nat with hd by lia. reflexivity.
Qed.
Lemma Sum_heads heads hd f : Nat.even hd = true ->
  Sum (heads * hd) f = over heads hd (fun h d => f (h * hd + d)%nat + f (h * hd + (hd / 2 + d))%nat).
Proof.
  intros H. rewrite Sum_mul. unfold over. apply Sum_ext. intros h _. rewrite Sum_plus. pose proof (even_half hd H).
  rewrite (Sum_split hd (hd / 2)) by lia. replace (hd - hd / 2)%nat with (hd / 2)%nat by lia. reflexivity.
Qed.
Lemma over_ext heads hd f g : (forall h d, (h < heads)%nat -> (d < hd / 2)%nat -> f h d = g h d) -> over heads hd f = over heads hd g.
Proof. intros H. apply Sum_ext. intros h Hh. apply Sum_ext. auto. Qed.
Lemma over_le heads hd f g : (forall h d, (h < heads)%nat -> (d < hd / 2)%nat -> f h d <= g h d) -> over heads hd f <= over heads hd g.
Proof. intros H. apply Sum_le. intros h Hh. apply Sum_le. auto. Qed.
Lemma over_plus heads hd f g : over heads hd (fun h d => f h d + g h d) = over heads hd f + over heads hd g.
Proof. unfold over. rewrite <- Sum_plus. apply Sum_ext. intros. apply Sum_plus. Qed.
Lemma over_scal heads hd c f : over heads hd (fun h d => c * f h d) = c * over heads hd f.
Proof. unfold over. rewrite <- Sum_scal. apply Sum_ext. intros. apply Sum_scal. Qed.
Lemma over_nonneg heads hd f : (forall h d, (h < heads)%nat -> (d < hd / 2)%nat -> 0 <= f h d) -> 0 <= over heads hd f.
Proof. intros H. apply Sum_nonneg. intros h Hh. apply Sum_nonneg. auto. Qed.
Lemma over_same heads hd g : over heads hd (fun _ d => g d) = INR heads * Sum (hd / 2) g.
Proof. unfold over. apply Sum_const. Qed.

Lemma ip_heads heads hd x y : Nat.even hd = true ->
  ip (heads * hd) x y = over heads hd (fun h d => lo hd x h d * lo hd y h d + hi hd x h d * hi hd y h d).
Proof. intros H. unfold ip. rewrite Sum_heads by exact H. reflexivity. Qed.
Lemma index hd h d : (d < hd)%nat -> ((h * hd + d) / hd = h /\ (h * hd + d) mod hd = d)%nat.
Proof.
  intros H. rewrite (Nat.add_comm (h * hd)). rewrite Nat.div_add, Nat.mod_add by lia. rewrite Nat.div_small, Nat.mod_small by exact H. split; lia.
Qed.
Lemma lo_joined hd a b h d : Nat.even hd = true -> (d < hd / 2)%nat -> lo hd (joined hd a b) h d = a h d.
Proof.
  intros H Hd. pose proof (even_half hd H). unfold lo, joined. destruct (index hd h d ltac:(lia)) as (-> & ->). cbv zeta. destruct (Nat.ltb_spec d (hd / 2)); [reflexivity|lia].
Qed.
Lemma hi_joined hd a b h d : Nat.even hd = true -> (d < hd / 2)%nat -> hi hd (joined hd a b) h d = b h d.
Proof.
  intros H Hd. pose proof (even_half hd H) as E. unfold hi, joined. destruct (index hd h (hd / 2 + d) ltac:(lia)) as (-> & ->). cbv zeta. destruct (Nat.ltb_spec (hd / 2 + d) (hd / 2)); [lia|].
  f_equal. lia.
Qed.
(** two rows agree if their halves do *)
Lemma row_ext heads hd x y : Nat.even hd = true ->
  (forall h d, (h < heads)%nat -> (d < hd / 2)%nat -> lo hd x h d = lo hd y h d /\ hi hd x h d = hi hd y h d) ->
  forall i, (i < heads * hd)%nat -> x i = y i.
Proof.
  intros H E i Hi. pose proof (even_half hd H) as Eh. assert (hd <> 0%nat) by (intros ->; lia).
  assert (Hh : (i / hd < heads)%nat) by (apply Nat.div_lt_upper_bound; lia). pose proof (Nat.mod_upper_bound i hd H0) as Hm. pose proof (Nat.div_mod i hd H0) as Ei.
  destruct (Nat.lt_ge_cases (i mod hd) (hd / 2)) as [L|L].
  - destruct (E (i / hd)%nat (i mod hd)%nat Hh L) as (X & _). unfold lo in X. replace (i / hd * hd + i mod hd)%nat with i in X by lia. exact X.
  - destruct (E (i / hd)%nat (i mod hd - hd / 2)%nat Hh ltac:(lia)) as (_ & X). unfold hi in X. replace (i / hd * hd + (hd / 2 + (i mod hd - hd / 2)))%nat with i in X by lia. exact X.
Qed.
Lemma lo_ext heads hd x y : Nat.even hd = true -> (forall i, (i < heads * hd)%nat -> x i = y i) -> forall h d, (h < heads)%nat -> (d < hd / 2)%nat -> lo hd x h d = lo hd y h d /\ hi hd x h d = hi hd y h d.
Proof.
  intros H E h d Hh Hd. pose proof (even_half hd H). unfold lo, hi. split; apply E; nia.
Qed.
Lemma lo_rotate hd th x h d : Nat.even hd = true -> (d < hd / 2)%nat -> lo hd (rotate hd th x) h d = lo hd x h d * cos (th h d) - hi hd x h d * sin (th h d).
Proof. intros. unfold rotate. now rewrite lo_joined. Qed.
Lemma hi_rotate hd th x h d : Nat.even hd = true -> (d < hd / 2)%nat -> hi hd (rotate hd th x) h d = hi hd x h d * cos (th h d) + lo hd x h d * sin (th h d).
Proof. intros. unfold rotate. now rewrite hi_joined. Qed.
Lemma sc t : sin t * sin t + cos t * cos t = 1.
Proof. exact (sin2_cos2 t). Qed.
Lemma rotate_ip heads hd th x y : Nat.even hd = true -> ip (heads * hd) (rotate hd th x) (rotate hd th y) = ip (heads * hd) x y.
Proof.
  intros H. rewrite !ip_heads by exact H. apply over_ext. intros h d _ Hd. rewrite !lo_rotate, !hi_rotate by assumption.
  set (a := lo hd x h d). set (b := hi hd x h d). set (c := lo hd y h d). set (e := hi hd y h d). set (t := th h d).
  transitivity ((sin t * sin t + cos t * cos t) * (a * c + b * e)); [ring|]. rewrite sc. ring.
Qed.
Lemma rotate_rotate heads hd s t x : Nat.even hd = true -> forall i, (i < heads * hd)%nat -> rotate hd s (rotate hd t x) i = rotate hd (fun h d => s h d + t h d) x i.
Proof.
  intros H. apply row_ext; [exact H|]. intros h d _ Hd. repeat first [rewrite lo_rotate by assumption | rewrite hi_rotate by assumption]. rewrite cos_plus, sin_plus. split; ring.
Qed.
Lemma rotate_ext heads hd s t x y : Nat.even hd = true -> (forall h d, (h < heads)%nat -> (d < hd / 2)%nat -> s h d = t h d) -> (forall i, (i < heads * hd)%nat -> x i = y i) ->
  forall i, (i < heads * hd)%nat -> rotate hd s x i = rotate hd t y i.
Proof.
  intros H E Ex. apply row_ext; [exact H|]. intros h d Hh Hd. rewrite !lo_rotate, !hi_rotate, E by assumption. destruct (lo_ext heads hd x y H Ex h d Hh Hd) as (-> & ->). split; reflexivity.
Qed.
Lemma rotate_zero heads hd x : Nat.even hd = true -> forall i, (i < heads * hd)%nat -> rotate hd (fun _ _ => 0) x i = x i.
Proof. intros H. apply row_ext; [exact H|]. intros h d _ Hd. rewrite lo_rotate, hi_rotate, cos_0, sin_0 by assumption. split; ring. Qed.
Lemma rotate_scal heads hd th c x : Nat.even hd = true -> forall i, (i < heads * hd)%nat -> rotate hd th (fun i => c * x i) i = c * rotate hd th x i.
Proof.
  intros H i Hi. apply (row_ext heads hd (rotate hd th (fun i => c * x i)) (fun i => c * rotate hd th x i) H); [|exact Hi]. intros h d _ Hd.
  assert (E1 : lo hd (fun i => c * rotate hd th x i) h d = c * lo hd (rotate hd th x) h d) by reflexivity. assert (E2 : hi hd (fun i => c * rotate hd th x i) h d = c * hi hd (rotate hd th x) h d) by reflexivity.
  rewrite E1, E2, !lo_rotate, !hi_rotate by assumption. unfold lo, hi. split; ring.
Qed.

(** ** frequencies *)
Lemma inv_freq_0 base hd : 0 < base -> inv_freq base hd 0 = 1.
Proof. intros H. unfold inv_freq. replace (INR (2 * 0) / INR hd) with 0 by (cbn; unfold Rdiv; ring). rewrite Rpower_O by exact H. field. Qed.
Lemma inv_freq_pos base hd d : 0 < inv_freq base hd d.
Proof. unfold inv_freq. unfold Rdiv. rewrite Rmult_1_l. apply Rinv_0_lt_compat. apply exp_pos. Qed.
Lemma inv_freq_le base hd d : 1 <= base -> (0 < hd)%nat -> inv_freq base hd d <= 1.
Proof.
  intros H Hh. unfold inv_freq. assert (P : 1 <= Rpower base (INR (2 * d) / INR hd)).
  { rewrite <- (Rpower_O base) at 1 by lra. apply Rle_Rpower; [exact H|]. apply Rmult_le_pos; [apply pos_INR|]. left. apply Rinv_0_lt_compat. apply lt_0_INR. exact Hh. }
  unfold Rdiv. rewrite Rmult_1_l. replace 1 with (/ 1) by (apply Rinv_1). apply Rinv_le_contravar; lra.
Qed.
