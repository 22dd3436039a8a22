(** Facts about the two roundings that decide how many entries are kept. *)
From Coq Require Import Reals Lra Psatz ZArith.
From Flocq Require Import Core.
From Verif.Base Require Import Py RList.
From Verif.Sparsify Require Import Model Spec.
Local Open Scope R_scope.

#[local] Instance prec53 : Prec_gt_0 53 := eq_refl.
#[local] Instance prec24 : Prec_gt_0 24 := eq_refl.

Lemma int_is_float64 (n : Z) : (0 <= n <= 2 ^ 53)%Z -> is_float64 (IZR n).
Proof.
  intros Hn. unfold is_float64. destruct (Z.eq_dec n (2 ^ 53)) as [-> | Hne].
  - replace (IZR (2 ^ 53)) with (bpow radix2 53) by (rewrite <- IZR_Zpower by lia; reflexivity).
    apply generic_format_bpow. unfold FLT_exp. lia.
  - apply generic_format_FLT. apply (FLT_spec radix2 _ _ _ (Float radix2 n 0)).
    + unfold F2R. cbn. lra.
    + cbn [Fnum]. rewrite Z.abs_eq by lia. change (radix_val radix2) with 2%Z. lia.
    + cbn. lia.
Qed.

Lemma float64_int (n : Z) : (0 <= n <= 2 ^ 53)%Z -> float64 (IZR n) = IZR n.
Proof. intros Hn. apply round_generic; [apply valid_rnd_N|now apply int_is_float64]. Qed.

Lemma float64_mono x y : x <= y -> float64 x <= float64 y.
Proof. apply round_le; [apply FLT_exp_valid; exact prec53|apply valid_rnd_N]. Qed.

(** rounding the product can move its integer part by at most one *)
Lemma float64_floor v : 0 <= v -> v < IZR (2 ^ 53) ->
  (Zfloor v <= Zfloor (float64 v) <= Zfloor v + 1)%Z /\ 0 <= float64 v.
Proof.
  intros H0 H1.
  assert (Hf : (0 <= Zfloor v < 2 ^ 53)%Z).
  { split; [apply Zfloor_lub; exact H0|]. apply lt_IZR. eapply Rle_lt_trans; [apply Zfloor_lb|exact H1]. }
  assert (E0 : 0 <= float64 v).
  { pose proof (float64_mono 0 v H0) as H. rewrite <- (float64_int 0) by lia. exact H. }
  split; [|exact E0]. split.
  - apply Zfloor_lub. rewrite <- float64_int by lia. apply float64_mono. apply Zfloor_lb.
  - apply Z.lt_succ_r. apply lt_IZR.
    assert (Hup : float64 v <= IZR (Zfloor v + 1)).
    { rewrite <- float64_int by lia. apply float64_mono. rewrite plus_IZR. apply Rlt_le, Zfloor_ub. }
    rewrite succ_IZR. eapply Rle_lt_trans; [apply Zfloor_lb|]. lra.
Qed.

(** a double below one times a count stays below the count after rounding *)
Lemma float64_lt_count d (n : Z) : is_float64 d -> d < 1 -> (1 <= n <= 2 ^ 53)%Z -> float64 (d * IZR n) < IZR n.
Proof.
  intros Hd Hd1 Hn. pose proof (int_is_float64 n ltac:(lia)) as Fn. set (N := IZR n) in *.
  assert (HN1 : 1 <= N) by (apply (IZR_le 1); lia).
  assert (V : Valid_exp (FLT_exp (-1074) 53)) by (apply FLT_exp_valid; exact prec53).
  assert (Hd' : d <= 1 - bpow radix2 (-53)).
  { pose proof (pred_ge_gt radix2 (FLT_exp (-1074) 53) d 1 Hd) as Hp.
    assert (F1 : generic_format radix2 (FLT_exp (-1074) 53) 1) by (apply generic_format_FLT_1; [exact prec53|lia]).
    specialize (Hp F1 Hd1). rewrite pred_eq_pos in Hp by lra. unfold pred_pos in Hp. rewrite mag_1 in Hp. cbn [Z.sub] in Hp.
    rewrite Req_bool_true in Hp by reflexivity. exact Hp. }
  set (u := pred radix2 (FLT_exp (-1074) 53) N).
  assert (Hu : u < N) by (apply pred_lt_id; lra).
  assert (Fu : generic_format radix2 (FLT_exp (-1074) 53) u) by (now apply generic_format_pred).
  apply Rle_lt_trans with u; [|exact Hu]. apply round_N_le_midp; auto. unfold u. rewrite succ_pred by auto.
  rewrite pred_eq_pos by lra. unfold pred_pos.
  assert (Hm : (1 <= mag radix2 N)%Z).
  { apply mag_ge_bpow. rewrite Rabs_pos_eq by lra. exact HN1. }
  assert (Hlo : bpow radix2 (mag radix2 N - 1) <= N).
  { pose proof (bpow_mag_le radix2 N ltac:(lra)) as Hb. rewrite (Rabs_pos_eq N) in Hb by lra. exact Hb. }
  assert (Hb53 : 0 < bpow radix2 (-53)) by apply bpow_gt_0.
  assert (Hsplit : d * N <= N - N * bpow radix2 (-53)) by nra.
  case Req_bool_spec; intros Hpow.
  - assert (Ebp : bpow radix2 (FLT_exp (-1074) 53 (mag radix2 N - 1)) = N * bpow radix2 (-53)).
    { transitivity (bpow radix2 (mag radix2 N - 1) * bpow radix2 (-53)); [|now rewrite <- Hpow]. rewrite <- bpow_plus. f_equal. unfold FLT_exp. lia. }
    rewrite Ebp. assert (0 < N * bpow radix2 (-53)) by nra. lra.
  - rewrite ulp_neq_0 by lra. unfold cexp.
    assert (Ebp : bpow radix2 (FLT_exp (-1074) 53 (mag radix2 N)) = 2 * (bpow radix2 (mag radix2 N - 1) * bpow radix2 (-53))).
    { rewrite <- bpow_plus. change 2 with (bpow radix2 1). rewrite <- bpow_plus. f_equal. unfold FLT_exp. lia. }
    rewrite Ebp. assert (bpow radix2 (mag radix2 N - 1) < N) by lra. nra.
Qed.

Lemma float32_id x : is_float32 x -> float32 x = x.
Proof. intros H. apply round_generic; [apply valid_rnd_N|exact H]. Qed.
Lemma float32_mono x y : x <= y -> float32 x <= float32 y.
Proof. apply round_le; [apply FLT_exp_valid; exact prec24|apply valid_rnd_N]. Qed.
Lemma is_float32_abs x : is_float32 x -> is_float32 (Rabs x).
Proof. apply generic_format_abs. Qed.

(** single precision cannot tell 1 + 2^-40 from 1 *)
Lemma float32_collapse : float32 (1 + bpow radix2 (-40)) = 1.
Proof.
  assert (F1 : generic_format radix2 (FLT_exp (-149) 24) 1) by (apply generic_format_FLT_1; [exact prec24|lia]).
  apply Rle_antisym.
  - apply round_N_le_midp; [apply FLT_exp_valid; exact prec24|exact F1|].
    rewrite succ_eq_pos by lra. rewrite ulp_neq_0 by lra. unfold cexp. rewrite mag_1.
    change (FLT_exp (-149) 24 1) with (-23)%Z.
    assert (bpow radix2 (-40) < bpow radix2 (-24)) by (apply bpow_lt; lia).
    assert (bpow radix2 (-23) = 2 * bpow radix2 (-24)) by (change 2 with (bpow radix2 1); rewrite <- bpow_plus; reflexivity).
    lra.
  - rewrite <- (float32_id 1) at 1 by exact F1. apply float32_mono. pose proof (bpow_gt_0 radix2 (-40)). lra.
Qed.

(** the double nearest to one third, times three, rounds up to one *)
Lemma float64_third : let d := 6004799503160661 * bpow radix2 (-54) in is_float64 d /\ d * 3 < 1 /\ float64 (d * 3) = 1.
Proof.
  intros d. assert (E : 1 - d * 3 = bpow radix2 (-54)).
  { unfold d. assert (H54 : bpow radix2 54 * bpow radix2 (-54) = 1) by (rewrite <- bpow_plus; reflexivity).
    assert (Hv : bpow radix2 54 = 18014398509481984) by (cbn; lra). rewrite Hv in H54. lra. }
  pose proof (bpow_gt_0 radix2 (-54)) as Hp. split; [|split; [lra|]].
  - apply generic_format_FLT. apply (FLT_spec radix2 _ _ _ (Float radix2 6004799503160661 (-54))); [reflexivity|cbn; lia|cbn; lia].
  - assert (F1 : generic_format radix2 (FLT_exp (-1074) 53) 1) by (apply generic_format_FLT_1; [exact prec53|lia]).
    assert (V : Valid_exp (FLT_exp (-1074) 53)) by (apply FLT_exp_valid; exact prec53).
    unfold float64, round, F2R, scaled_mantissa, cexp. cbn [Fnum Fexp].
    assert (Hm : mag radix2 (d * 3) = 0%Z :> Z).
    { apply mag_unique. rewrite Rabs_pos_eq by (unfold d in *; nra). cbn [bpow Z.sub]. split; [|lra].
      assert (bpow radix2 (-54) < bpow radix2 (-1)) by (apply bpow_lt; lia).
      assert (bpow radix2 (-1) = / 2) by reflexivity. change (bpow radix2 (0 - 1)) with (bpow radix2 (-1)). lra. }
    rewrite Hm. change (FLT_exp (-1074) 53 0) with (-53)%Z. cbn [Z.opp].
    assert (Hx : d * 3 * bpow radix2 53 = IZR (2 ^ 53 - 1) + / 2).
    { replace (d * 3) with (1 - bpow radix2 (-54)) by lra. rewrite Rmult_minus_distr_r, <- bpow_plus.
      change (bpow radix2 (-54 + 53)) with (/ 2). rewrite minus_IZR, (IZR_Zpower radix2) by lia. lra. }
    rewrite Hx. assert (Hfl : Zfloor (IZR (2 ^ 53 - 1) + / 2) = (2 ^ 53 - 1)%Z) by (apply Zfloor_imp; rewrite plus_IZR; lra).
    unfold Znearest. rewrite Hfl. rewrite Rcompare_Eq by lra.
    change (negb (Z.even (2 ^ 53 - 1))) with true. cbn iota.
    replace (Zceil (IZR (2 ^ 53 - 1) + / 2)) with (2 ^ 53)%Z.
    + rewrite (IZR_Zpower radix2) by lia. rewrite <- bpow_plus. reflexivity.
    + symmetry. apply Zceil_imp. replace (2 ^ 53 - 1 - 0)%Z with (2 ^ 53 - 1)%Z by lia. rewrite !minus_IZR. lra.
Qed.
