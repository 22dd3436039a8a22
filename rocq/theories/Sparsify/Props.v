(** C25-C28. *)
From Coq Require Import Reals Lra Psatz ZArith Permutation.
From Flocq Require Import Core.
From Verif.Base Require Import Py PyFacts RList.
From Verif.Sparsify Require Import Model Spec FloatProofs Proofs.
Local Open Scope list_scope.
Local Open Scope R_scope.

Ltac lists := repeat match goal with |- context [Pos.to_nat ?p] => let v := eval vm_compute in (Pos.to_nat p) in change (Pos.to_nat p) with v end;
  cbn -[Rmult Rplus bpow]; repeat match goal with |- Ok _ = Ok _ => f_equal | |- _ :: _ = _ :: _ => f_equal end; try lra.

Ltac nodup := repeat first [apply NoDup_nil | apply NoDup_cons; [cbn; lia|]].

(** *** C25 *)
Lemma magnitude_keep x density norm order y :
  density < 1 -> Permutation order (seq 0 (length x)) -> magnitude x density norm order = Ok y ->
  let k := Z.to_nat (Zfloor (float64 (density * INR (length x)))) in
  (0 < k)%nat /\ Z.of_nat k = Zfloor (float64 (density * INR (length x))) /\
  rescaled_masked x (mask_at (length x) (firstn (Nat.min k (length x)) order)) norm = Ok y.
Proof.
  intros Hd Hp E k. unfold magnitude in E. destruct (Rle_dec 1 density); [lra|].
  destruct (Z.leb_spec (trunc (float64 (density * INR (length x)))) 0) as [|Hk]; [discriminate|].
  assert (Hk' : trunc (float64 (density * INR (length x))) = Zfloor (float64 (density * INR (length x)))).
  { unfold trunc in *. apply Ztrunc_floor. destruct (Rle_dec 0 (float64 (density * INR (length x)))) as [H|H]; [exact H|].
    exfalso. rewrite Ztrunc_ceil in Hk by lra. assert (Zceil (float64 (density * INR (length x))) <= 0)%Z by (apply Zceil_glb; lra). lia. }
  rewrite Hk' in *. split; [unfold k; lia|]. split; [unfold k; rewrite Z2Nat.id; lia|].
  rewrite <- E. f_equal. f_equal. unfold slice. cbn [skipn]. unfold clip. destruct (Z.ltb_spec 0 0); [lia|].
  destruct (Z.ltb_spec (Zfloor (float64 (density * INR (length x)))) 0); [lia|]. cbn [Z.to_nat Nat.min skipn].
  destruct (perm_seq _ _ Hp) as (_ & L & _). rewrite L. fold k. now rewrite Nat.sub_0_r.
Qed.

(** With density below one, the entries kept are exactly as many as the integer
    part of the (double precision) product of density and size; each of them is
    at least as large as every entry dropped; kept entries keep their value (up
    to the common positive factor of the rescaling) and the others become zero.
    The entries must be single-precision values if the tensor is on the CPU. *)
Theorem C25_keeps_largest (cpu : bool) (x : list R) (density : R) (norm : option rescale_norm) (order : list nat) (y : list R) :
  is_float64 density -> density < 1 -> (Z.of_nat (length x) <= 2 ^ 53)%Z ->
  (cpu = true -> Forall is_float32 x) ->
  descending (sort_keys cpu x) order ->
  magnitude x density norm order = Ok y ->
  exists keep s, selects x keep s y /\ 0 < s /\ (norm = None -> s = 1) /\
    Z.of_nat (length keep) = Zfloor (float64 (density * INR (length x))) /\
    (length keep < length x)%nat /\
    forall i j, In i keep -> (j < length x)%nat -> ~ In j keep -> Rabs (nth j x 0) <= Rabs (nth i x 0).
Proof.
  intros Fd Hd Hn Hc [Hp Hs] E. rewrite sort_keys_length in *.
  destruct (magnitude_keep x density norm order y Hd Hp E) as (Hk0 & Hk & Er).
  set (k := Z.to_nat _) in *.
  assert (Hkn : (k < length x)%nat).
  { assert (Hx : (1 <= Z.of_nat (length x))%Z).
    { destruct (length x) eqn:El; [|lia]. exfalso. cbn in Hk. rewrite Rmult_0_r in Hk.
      change 0 with (IZR 0) in Hk. rewrite float64_int in Hk by lia. rewrite Zfloor_IZR in Hk. lia. }
    pose proof (float64_lt_count density (Z.of_nat (length x)) Fd Hd ltac:(lia)) as Hl. rewrite <- INR_IZR_INZ in Hl.
    apply Nat2Z.inj_lt. rewrite Hk. apply lt_IZR. rewrite <- INR_IZR_INZ. eapply Rle_lt_trans; [apply Zfloor_lb|exact Hl]. }
  rewrite Nat.min_l in Er by lia.
  destruct (window order (length x) 0 k Hp ltac:(lia)) as (Hnd & Hlen & Hlt & Hin). rewrite Nat.sub_0_r in *. cbn [skipn] in *.
  destruct (rescaled_masked_Ok _ _ _ _ Er) as (s & Hs0 & Ey & Hnorm).
  exists (firstn k order), s. split; [now apply select_mask|]. split; [exact Hs0|]. split; [intros ->; exact Hnorm|].
  split; [rewrite Hlen; exact Hk|]. split; [lia|].
  intros i j Hi Hj Hnj. apply Hin in Hi as (p & Hpk & <-). destruct (order_pos order _ j Hp Hj) as (q & Hq & <-).
  assert (Hqk : (k <= q)%nat) by (destruct (Nat.lt_ge_cases q k); [exfalso; apply Hnj, Hin; exists q; split; [lia|auto]|auto]).
  specialize (Hs p q ltac:(lia)). destruct (perm_seq _ _ Hp) as (_ & L & Hi).
  assert (Hp' : (nth p order 0 < length x)%nat) by (apply Hi, nth_In; lia).
  rewrite !(sort_keys_exact cpu) in Hs by auto. exact Hs.
Qed.

(** The count is the integer part of the exact product or one more. *)
Theorem C25_count (n : nat) (density : R) : 0 <= density < 1 -> (Z.of_nat n <= 2 ^ 53)%Z ->
  (Zfloor (density * INR n) <= Zfloor (float64 (density * INR n)) <= Zfloor (density * INR n) + 1)%Z.
Proof.
  intros Hd Hn. destruct n as [|n].
  { cbn. rewrite Rmult_0_r. change 0 with (IZR 0). rewrite float64_int by lia. lia. }
  apply float64_floor; [pose proof (pos_INR (S n)); nra|].
  apply Rlt_le_trans with (INR (S n)); [pose proof (lt_0_INR (S n) ltac:(lia)); nra|]. rewrite INR_IZR_INZ. apply IZR_le. lia.
Qed.

(** Density one or more is the identity; a density that would keep nothing is refused. *)
Theorem C25_extremes (x : list R) (density : R) (norm : option rescale_norm) (order : list nat) :
  (1 <= density -> magnitude x density norm order = Ok x) /\
  (density < 1 -> float64 (density * INR (length x)) < 1 -> magnitude x density norm order = Err AssertionError) /\
  (density < 1 -> 1 <= float64 (density * INR (length x)) -> x <> [] -> exists y, magnitude x density norm order = Ok y).
Proof.
  unfold magnitude. split; [intros H; destruct (Rle_dec 1 density); [reflexivity|lra]|]. split.
  - intros H Hk. destruct (Rle_dec 1 density); [lra|]. destruct (Z.leb_spec (trunc (float64 (density * INR (length x)))) 0) as [|Hc]; [reflexivity|].
    exfalso. unfold trunc in Hc. destruct (Rle_dec 0 (float64 (density * INR (length x)))) as [H0|H0].
    + rewrite Ztrunc_floor in Hc by auto. apply IZR_lt in Hc. assert (IZR (Zfloor (float64 (density * INR (length x)))) < 1) by (eapply Rle_lt_trans; [apply Zfloor_lb|exact Hk]).
      apply lt_IZR in Hc. apply (lt_IZR _ 1) in H1. lia.
    + rewrite Ztrunc_ceil in Hc by lra. assert (Zceil (float64 (density * INR (length x))) <= 0)%Z by (apply Zceil_glb; lra). lia.
  - intros H Hk Hx. destruct (Rle_dec 1 density); [lra|]. destruct (Z.leb_spec (trunc (float64 (density * INR (length x)))) 0) as [Hc|_].
    + exfalso. unfold trunc in Hc. rewrite Ztrunc_floor in Hc by lra. assert (1 <= Zfloor (float64 (density * INR (length x))))%Z by (now apply Zfloor_lub). lia.
    + unfold rescaled_masked. destruct norm as [nm|]; [|eexists; reflexivity].
      assert (Hok : forall m v, v <> [] -> exists s, scale_of m v = Ok s) by (intros [] [|? ?] Hv; cbn [scale_of]; eauto; congruence).
      destruct (Hok nm x Hx) as [b ->]. cbn [rbind].
      destruct (Hok nm (vmul x (mask_at (length x) (slice order 0 (trunc (float64 (density * INR (length x))))))) ) as [a ->].
      { intros Hv. apply (f_equal (@length R)) in Hv. unfold vmul in Hv. rewrite map2_length, mask_at_length in Hv. destruct x; cbn in *; [congruence|lia]. }
      cbn [rbind]. destruct (Rlt_dec b eps); [eauto|]. destruct (Rlt_dec a eps); eauto.
Qed.

(** Double precision entries on the CPU are compared in single precision, so a
    strictly smaller entry may be kept and the larger one dropped. *)
Theorem C25_float64_on_cpu_refuted :
  exists x order, is_float64 (nth 0 x 0) /\ is_float64 (nth 1 x 0) /\ descending (sort_keys true x) order /\
    magnitude x (/ 2) None order = Ok [1; 0] /\ Rabs (nth 0 x 0) < Rabs (nth 1 x 0).
Proof.
  set (b := bpow radix2 (-40)). assert (Hb : 0 < b) by apply bpow_gt_0. assert (F1 : is_float32 1) by (apply generic_format_FLT_1; [reflexivity|lia]).
  exists [1; 1 + b], [0%nat; 1%nat]. cbn [nth]. split; [apply (int_is_float64 1); lia|]. split.
  { apply generic_format_FLT. apply (FLT_spec radix2 _ _ _ (Float radix2 (2 ^ 40 + 1) (-40))); cbn [Fnum Fexp]; [|reflexivity|lia].
    unfold F2R. cbn [Fnum Fexp]. fold b. rewrite plus_IZR, (IZR_Zpower radix2) by lia. rewrite Rmult_plus_distr_r. unfold b at 2. rewrite <- bpow_plus. cbn [bpow Z.add Z.opp]. cbn. lra. }
  split.
  { split; [reflexivity|]. cbn [length sort_keys map]. intros i j Hij. assert (i = 0%nat /\ j = 1%nat) as [-> ->] by lia. cbn [nth].
    rewrite !Rabs_pos_eq by lra. unfold b. rewrite float32_collapse, float32_id by exact F1. lra. }
  split; [|rewrite !Rabs_pos_eq; lra].
  unfold magnitude. destruct (Rle_dec 1 (/ 2)); [lra|]. cbn [length]. replace (/ 2 * INR 2) with (IZR 1) by (cbn; lra).
  rewrite float64_int by lia. unfold trunc. rewrite Ztrunc_IZR. cbn -[Rmult Rplus b]. lists.
Qed.

(** The rounding of the product matters: one third of three entries keeps one. *)
Theorem C25_rounded_count : exists density, is_float64 density /\ density * 3 < 1 /\
  Zfloor (density * 3) = 0%Z /\ Zfloor (float64 (density * 3)) = 1%Z.
Proof.
  destruct float64_third as (Hf & Hlt & Hr). exists (6004799503160661 * bpow radix2 (-54)). cbv zeta in *. rewrite Hr.
  split; [auto|]. split; [auto|]. split; [|apply (Zfloor_IZR 1)].
  apply Zfloor_imp. cbn [Z.add]. pose proof (bpow_gt_0 radix2 (-54)). split; lra.
Qed.

Example C25_nonvacuous :
  descending (sort_keys false [3; -5; 1; 4]) [1; 3; 0; 2]%nat /\
  magnitude [3; -5; 1; 4] (/ 2) None [1; 3; 0; 2]%nat = Ok [0; -5; 0; 4].
Proof.
  split.
  - split; [apply NoDup_Permutation; [nodup|apply seq_NoDup|intros i; cbn; lia]|].
    cbn [length sort_keys map]. intros i j Hij.
    assert (Ha : Rabs 3 = 3 /\ Rabs (-5) = 5 /\ Rabs 1 = 1 /\ Rabs 4 = 4) by (repeat split; unfold Rabs; destruct (Rcase_abs _); lra).
    destruct Ha as (E1 & E2 & E3 & E4). rewrite E1, E2, E3, E4.
    destruct i as [|[|[|i]]], j as [|[|[|[|j]]]]; cbn [nth]; try lia; lra.
  - unfold magnitude. destruct (Rle_dec 1 (/ 2)); [lra|]. cbn [length]. replace (/ 2 * INR 4) with (IZR 2) by (cbn; lra).
    rewrite float64_int by lia. unfold trunc. rewrite Ztrunc_IZR. cbn -[Rmult Rplus]. lists.
Qed.

(** *** C26 *)
(** If the share of outliers is at least one entry, exactly the requested number
    of entries is kept, and the dropped ones split into outliers, at least as
    large as every kept entry, and small ones, at most as large. *)
Theorem C26_outliers (cpu : bool) (x : list R) (density gamma : R) (norm : option rescale_norm) (order : list nat) (y : list R) :
  is_float64 density -> 0 <= density < 1 -> 0 <= gamma <= 1 -> (1 <= Z.of_nat (length x) <= 2 ^ 53)%Z ->
  (cpu = true -> Forall is_float32 x) ->
  ascending (sort_keys cpu x) order ->
  1 <= float64 (gamma * INR (length x)) ->
  magnitude_outliers x density gamma norm order = Ok y ->
  exists bottom keep top s,
    selects x keep s y /\ 0 < s /\ (norm = None -> s = 1) /\
    Permutation (bottom ++ keep ++ top) (seq 0 (length x)) /\
    Z.of_nat (length keep) = Zfloor (float64 (density * INR (length x))) /\
    Z.of_nat (length top) = Z.min (Zfloor (float64 (gamma * INR (length x)))) (Z.of_nat (length x) - Zfloor (float64 (density * INR (length x)))) /\
    (forall b k, In b bottom -> In k keep -> Rabs (nth b x 0) <= Rabs (nth k x 0)) /\
    (forall k t, In k keep -> In t top -> Rabs (nth k x 0) <= Rabs (nth t x 0)).
Proof.
  intros Fd Hd Hg Hn Hc [Hp Hs] Hg1 E. rewrite sort_keys_length in *.
  set (n := length x) in *. unfold magnitude_outliers in E. destruct (Rle_dec 1 density); [lra|]. fold n in E.
  assert (HN : 0 < INR n) by (apply lt_0_INR; lia).
  assert (Ht0 : 0 <= float64 (density * INR n)).
  { rewrite <- (float64_int 0) by lia. apply float64_mono. nra. }
  pose proof (float64_lt_count density (Z.of_nat n) Fd (proj2 Hd) ltac:(lia)) as Hlt. rewrite <- INR_IZR_INZ in Hlt.
  unfold trunc in E. rewrite !Ztrunc_floor in E by lra.
  set (t := Zfloor (float64 (density * INR n))) in *. set (g := Zfloor (float64 (gamma * INR n))) in *.
  assert (Ht : (0 <= t < Z.of_nat n)%Z).
  { split; [apply Zfloor_lub; exact Ht0|]. apply lt_IZR. rewrite <- INR_IZR_INZ. eapply Rle_lt_trans; [apply Zfloor_lb|exact Hlt]. }
  assert (Hg' : (1 <= g)%Z) by (apply Zfloor_lub; exact Hg1).
  set (top := Z.min g (Z.of_nat n - t)). set (bot := (Z.of_nat n - t - top)%Z).
  assert (Er : rescaled_masked x (mask_at n (slice order bot (- top))) norm = Ok y).
  { destruct (Z.ltb_spec (Z.of_nat n - t - g) 0) as [Hneg|Hpos].
    - replace bot with 0%Z by (unfold bot, top; lia). replace top with (g + (Z.of_nat n - t - g))%Z by (unfold top; lia). exact E.
    - replace bot with (Z.of_nat n - t - g)%Z by (unfold bot, top; lia). replace top with g by (unfold top; lia). exact E. }
  assert (Hbot : (0 <= bot)%Z) by (unfold bot, top; lia). assert (Htop : (1 <= top <= Z.of_nat n)%Z) by (unfold top; lia).
  assert (Hsum : (bot + t + top = Z.of_nat n)%Z) by (unfold bot; lia). clearbody top bot.
  destruct (perm_seq _ _ Hp) as (Hnd & L & Hi).
  set (a := Z.to_nat bot) in *. set (b := Z.to_nat (bot + t)) in *.
  assert (Es : slice order bot (- top) = firstn (b - a) (skipn a order)).
  { unfold slice, clip. rewrite L. destruct (Z.ltb_spec bot 0); [lia|]. destruct (Z.ltb_spec (- top) 0); [|lia].
    replace (Z.to_nat (- top + Z.of_nat n)) with b by (unfold b; lia). rewrite Nat.min_l by lia. reflexivity. }
  rewrite Es in Er.
  destruct (window order n a b Hp ltac:(unfold a, b; lia)) as (Hk1 & Hk2 & Hk3 & Hk4).
  destruct (window order n 0 a Hp ltac:(unfold a; lia)) as (_ & _ & _ & Hb4). cbn [skipn] in Hb4. rewrite Nat.sub_0_r in Hb4.
  destruct (window order n b n Hp ltac:(unfold b; lia)) as (_ & Ht2 & _ & Ht4).
  destruct (rescaled_masked_Ok _ _ _ _ Er) as (s & Hs0 & Ey & Hnorm).
  exists (firstn a order), (firstn (b - a) (skipn a order)), (firstn (n - b) (skipn b order)), s.
  split; [now apply select_mask|]. split; [exact Hs0|]. split; [intros ->; exact Hnorm|]. split.
  { assert (Hsp : order = firstn a order ++ firstn (b - a) (skipn a order) ++ firstn (n - b) (skipn b order)).
    { rewrite <- (firstn_skipn a order) at 1. f_equal. rewrite <- (firstn_skipn (b - a) (skipn a order)) at 1. f_equal.
      rewrite firstn_all2 by (rewrite skipn_length; lia).
      assert (Hab : (a <= b)%nat) by (unfold a, b; lia). clearbody a b. clear - Hab. replace (skipn b order) with (skipn (b - a) (skipn a order)); [reflexivity|].
      rename Hab into H.
      revert b H order. induction a as [|a IH]; intros b H order; [now rewrite Nat.sub_0_r|].
        destruct b; [lia|]. destruct order; [now rewrite !skipn_nil|]. cbn [skipn Nat.sub]. apply IH. lia. }
    rewrite <- Hsp. exact Hp. }
  split; [rewrite Hk2; unfold a, b; lia|]. split; [rewrite Ht2; unfold b; lia|].
  assert (Hord : forall p q, (p < q < n)%nat -> Rabs (nth (nth p order 0%nat) x 0) <= Rabs (nth (nth q order 0%nat) x 0)).
  { intros p q Hpq. specialize (Hs p q Hpq).
    rewrite !(sort_keys_exact cpu) in Hs by (auto; apply Hi, nth_In; lia). exact Hs. }
  split.
  - intros i k Hib Hik. apply Hb4 in Hib as (p & Hp' & <-). apply Hk4 in Hik as (q & Hq' & <-). apply Hord. unfold b in *. lia.
  - intros k i Hik Hit. apply Hk4 in Hik as (p & Hp' & <-). apply Ht4 in Hit as (q & Hq' & <-). apply Hord. lia.
Qed.

(** If the share of outliers is less than one entry - always so for the default
    gamma of [sparsify], and for the default 0.01 of the method on fewer than a
    hundred entries - the slice [n_bot:-0] is empty and the whole tensor is zeroed. *)
Theorem C26_small_gamma_zeroes_all_refuted (x : list R) (density gamma : R) (order : list nat) :
  is_float64 density -> 0 <= density < 1 -> 0 <= gamma -> float64 (gamma * INR (length x)) < 1 ->
  (1 <= Z.of_nat (length x) <= 2 ^ 53)%Z -> Permutation order (seq 0 (length x)) ->
  magnitude_outliers x density gamma None order = Ok (map (fun _ => 0) x).
Proof.
  intros Fd Hd Hg Hg1 Hn Hp. set (n := length x) in *. unfold magnitude_outliers. destruct (Rle_dec 1 density); [lra|]. fold n.
  assert (HN : 0 < INR n) by (apply lt_0_INR; lia).
  assert (Ht0 : 0 <= float64 (density * INR n)) by (rewrite <- (float64_int 0) by lia; apply float64_mono; nra).
  assert (Hg0 : 0 <= float64 (gamma * INR n)) by (rewrite <- (float64_int 0) by lia; apply float64_mono; nra).
  pose proof (float64_lt_count density (Z.of_nat n) Fd (proj2 Hd) ltac:(lia)) as Hlt. rewrite <- INR_IZR_INZ in Hlt.
  unfold trunc. rewrite !Ztrunc_floor by lra.
  replace (Zfloor (float64 (gamma * INR n))) with 0%Z by (symmetry; apply Zfloor_imp; cbn [Z.add]; lra).
  set (t := Zfloor (float64 (density * INR n))).
  assert (Ht : (t < Z.of_nat n)%Z) by (apply lt_IZR; rewrite <- INR_IZR_INZ; eapply Rle_lt_trans; [apply Zfloor_lb|exact Hlt]).
  destruct (Z.ltb_spec (Z.of_nat n - t - 0) 0); [lia|].
  replace (slice order (Z.of_nat n - t - 0) (- 0)) with (@nil nat).
  2:{ unfold slice, clip. cbn [Z.opp Z.ltb Z.compare Z.to_nat Nat.min Nat.sub firstn]. reflexivity. }
  cbn [rescaled_masked]. f_equal. apply nth_ext_R.
  - unfold vmul. rewrite map2_length, mask_at_length, map_length. fold n. lia.
  - unfold vmul. rewrite map2_length, mask_at_length. intros i Hi. fold n in Hi. rewrite (map2_nth _ _ _ _ 0 0) by (rewrite ?mask_at_length; fold n; lia).
    destruct (mask_at_nth n [] i ltac:(lia)) as [_ ->]; [|auto]. rewrite (map_nth_in _ _ _ 0) by (fold n; lia). lra.
Qed.

Example C26_nonvacuous :
  ascending (sort_keys false [3; -5; 1; 4]) [2; 0; 3; 1]%nat /\
  magnitude_outliers [3; -5; 1; 4] (/ 2) (/ 4) None [2; 0; 3; 1]%nat = Ok [3; 0; 0; 4] /\
  1 <= float64 (/ 4 * INR 4) /\
  magnitude_outliers [3; -5; 1; 4] (/ 2) (/ 8) None [2; 0; 3; 1]%nat = Ok [0; 0; 0; 0].
Proof.
  assert (E2 : float64 (/ 2 * INR 4) = IZR 2) by (replace (/ 2 * INR 4) with (IZR 2) by (cbn; lra); apply float64_int; lia).
  assert (E1 : float64 (/ 4 * INR 4) = IZR 1) by (replace (/ 4 * INR 4) with (IZR 1) by (cbn; lra); apply float64_int; lia).
  split; [|split; [|split; [lra|]]].
  - split; [apply NoDup_Permutation; [nodup|apply seq_NoDup|intros i; cbn; lia]|].
    cbn [length sort_keys map]. intros i j Hij.
    assert (Ha : Rabs 3 = 3 /\ Rabs (-5) = 5 /\ Rabs 1 = 1 /\ Rabs 4 = 4) by (repeat split; unfold Rabs; destruct (Rcase_abs _); lra).
    destruct Ha as (A1 & A2 & A3 & A4). rewrite A1, A2, A3, A4.
    destruct i as [|[|[|i]]], j as [|[|[|[|j]]]]; cbn [nth]; try lia; lra.
  - unfold magnitude_outliers. destruct (Rle_dec 1 (/ 2)); [lra|]. cbn [length]. rewrite E1, E2. unfold trunc. rewrite !Ztrunc_IZR.
    cbn -[Rmult Rplus]. lists.
  - rewrite C26_small_gamma_zeroes_all_refuted; cbn [length]; [reflexivity|..].
    + replace (/ 2) with (bpow radix2 (-1)) by (cbn; lra). apply generic_format_bpow. unfold FLT_exp. lia.
    + lra.
    + lra.
    + replace (/ 8 * INR 4) with (bpow radix2 (-1)) by (cbn; lra). unfold float64. rewrite round_generic; [cbn; lra|apply valid_rnd_N|].
      apply generic_format_bpow. unfold FLT_exp. lia.
    + lia.
    + apply NoDup_Permutation; [nodup|apply seq_NoDup|intros i; cbn; lia].
Qed.

(** *** C27 *)
(** The result is the masked tensor times a positive factor; if both norms reach
    the tolerance the result has exactly the norm of the original tensor,
    otherwise the masked tensor is returned as it is. *)
Theorem C27_norm_preserved (x mask : list R) (n : rescale_norm) (y : list R) :
  rescaled_masked x mask (Some n) = Ok y ->
  let norm := match n with L1 => fun v => rsum (map Rabs v) | L2 => fun v => sqrt (rsum (map (fun e => e * e) v)) | Linf => fun v => fold_right Rmax 0 (map Rabs v) end in
  let masked := map2 Rmult x mask in
  (/ 10 ^ 7 <= norm x -> / 10 ^ 7 <= norm masked -> norm y = norm x) /\
  (norm x < / 10 ^ 7 \/ norm masked < / 10 ^ 7 -> y = masked) /\
  length y = length masked /\
  forall i, (i < length y)%nat -> (nth i y 0 = 0 <-> nth i masked 0 = 0) /\ (0 < nth i y 0 <-> 0 < nth i masked 0).
Proof.
  intros E norm masked. assert (En : norm = normf n) by (unfold norm; now destruct n).
  destruct (rescaled_masked_Ok _ _ _ _ E) as (s & Hs & Ey & H1 & H2). fold (vmul x mask) in *. change (map2 Rmult x mask) with (vmul x mask) in masked.
  fold masked in Ey, H1, H2. change (/ 10 ^ 7) with eps. pose proof eps_pos. rewrite En. clear En norm.
  split; [|split; [|split]].
  - intros Hx Hm. rewrite Ey, normf_scale, (H1 Hx Hm). rewrite Rabs_pos_eq; [field; lra|]. apply Rlt_le, Rdiv_lt_0_compat; lra.
  - intros Hlt. rewrite Ey, (H2 Hlt). unfold vscale. rewrite <- (map_id masked) at 2. apply map_ext. intros; lra.
  - rewrite Ey. apply map_length.
  - intros i Hi. rewrite Ey in *. unfold vscale in *. rewrite map_length in Hi. rewrite (map_nth_in _ _ _ 0) by auto.
    split; split; intros Hz; [nra|rewrite Hz; lra|nra|nra].
Qed.

(** It fails only for the Linf norm of an empty tensor. *)
Theorem C27_total (x mask : list R) (n : option rescale_norm) : length mask = length x ->
  (exists y, rescaled_masked x mask n = Ok y) \/ (n = Some Linf /\ x = []).
Proof.
  intros Hl. unfold rescaled_masked. destruct n as [n|]; [|eauto].
  assert (Hok : forall v, v <> [] \/ n <> Linf -> exists s, scale_of n v = Ok s) by (intros v Hv; destruct n, v; cbn [scale_of]; eauto; exfalso; tauto).
  assert (D : (x = [] /\ n = Linf) \/ (x <> [] \/ n <> Linf)) by (destruct n, x; auto; right; try (left; discriminate); right; discriminate).
  destruct D as [[-> ->]|D]; [auto|]. left. destruct (Hok x D) as [b ->]. cbn [rbind].
  destruct (Hok (vmul x mask)) as [a ->].
  { destruct D as [Hx|Hx]; [|auto]. left. intros Hv. apply (f_equal (@length R)) in Hv. unfold vmul in Hv. rewrite map2_length in Hv. destruct x; cbn in *; [congruence|]. destruct mask; cbn in *; lia. }
  cbn [rbind]. destruct (Rlt_dec b eps); [eauto|]. destruct (Rlt_dec a eps); eauto.
Qed.

Example C27_nonvacuous : rescaled_masked [3; -1; 4] [1; 0; 1] (Some L1) = Ok [3 * (8 / 7); 0; 4 * (8 / 7)].
Proof.
  cbn [rescaled_masked scale_of rbind]. unfold vmul, norm1. cbn [map2 map rsum fold_right].
  assert (Ha : Rabs 3 = 3 /\ Rabs (-1) = 1 /\ Rabs 4 = 4) by (repeat split; unfold Rabs; destruct (Rcase_abs _); lra). destruct Ha as (-> & -> & ->).
  assert (Hb : Rabs (3 * 1) = 3 /\ Rabs (-1 * 0) = 0 /\ Rabs (4 * 1) = 4) by (repeat split; unfold Rabs; destruct (Rcase_abs _); lra). destruct Hb as (-> & -> & ->).
  unfold eps. destruct (Rlt_dec _ _); [lra|]. destruct (Rlt_dec _ _); [lra|].
  f_equal. cbn [map]. repeat (f_equal; try field; try lra).
Qed.

(** *** C28 *)
(** what the two argsort calls of della_magprune return for a row *)
Definition row_ranks (row : list R) (ranks : list nat) : Prop :=
  exists sorted, ascending (map Rabs row) sorted /\ ascending (map INR sorted) ranks.

Lemma row_ranks_facts row ranks : row_ranks row ranks ->
  Permutation ranks (seq 0 (length row)) /\
  forall a b, (a < length row)%nat -> (b < length row)%nat -> Rabs (nth a row 0) < Rabs (nth b row 0) -> (nth a ranks 0 < nth b ranks 0)%nat.
Proof.
  intros (sorted & Hs & Hr). destruct (ranks_inverse _ _ _ Hs Hr) as [Hp Hinv]. rewrite map_length in *. split; [exact Hp|].
  intros a b Ha Hb Hlt. destruct (perm_seq _ _ Hp) as (_ & L & Hin).
  destruct (Nat.lt_trichotomy (nth a ranks 0%nat) (nth b ranks 0%nat)) as [H|[H|H]]; [exact H| |]; exfalso.
  - pose proof (Hinv a Ha) as E1. pose proof (Hinv b Hb) as E2. rewrite H, E2 in E1. subst. lra.
  - destruct Hs as [_ Hs]. rewrite map_length in Hs.
    assert (Hra : (nth a ranks 0 < length row)%nat) by (apply Hin, nth_In; lia).
    specialize (Hs (nth b ranks 0%nat) (nth a ranks 0%nat) ltac:(lia)). rewrite !Hinv in Hs by auto.
    rewrite !(map_nth_in _ _ _ 0) in Hs by auto. lra.
Qed.

(** In a row of at least two entries the keep probabilities lie between
    density - epsilon and density + epsilon, grow with the magnitude, and add up
    to density times the row length. *)
Theorem C28_row (row : list R) (ranks : list nat) (density epsilon : R) :
  (2 <= length row)%nat -> row_ranks row ranks -> 0 <= epsilon ->
  exists ps, row_probs density epsilon ranks = Ok ps /\ length ps = length row /\
    (forall p, In p ps -> density - epsilon <= p <= density + epsilon) /\
    (forall a b, (a < length row)%nat -> (b < length row)%nat -> Rabs (nth a row 0) < Rabs (nth b row 0) ->
       nth a ps 0 <= nth b ps 0 /\ (0 < epsilon -> nth a ps 0 < nth b ps 0)) /\
    rsum ps = density * INR (length row).
Proof.
  intros Hn Hr He. destruct (row_ranks_facts row ranks Hr) as [Hp Hmono]. set (n := length row) in *.
  destruct (perm_seq _ _ Hp) as (_ & L & Hin). rewrite (row_probs_eq density epsilon ranks n Hn Hp).
  assert (HN : 2 <= INR n) by (apply (le_INR 2); lia).
  assert (Hfrac : forall r, (r < n)%nat -> 0 <= INR r / (INR n - 1) <= 1).
  { intros r Hr'. assert (Hr1 : INR r <= INR n - 1) by (replace (INR n - 1) with (INR (n - 1)) by (rewrite minus_INR by lia; cbn; lra); apply le_INR; lia).
    pose proof (pos_INR r). split; [apply Rmult_le_pos; [lra|apply Rlt_le, Rinv_0_lt_compat; lra]|].
    apply Rmult_le_reg_r with (INR n - 1); [lra|]; unfold Rdiv; rewrite Rmult_assoc, Rinv_l by lra; lra. }
  eexists. split; [reflexivity|]. split; [now rewrite map_length|]. split; [|split].
  - intros p Hpin. apply in_map_iff in Hpin as (r & <- & Hr'). apply Hin in Hr'. pose proof (Hfrac r Hr'). nra.
  - intros a b Ha Hb Hlt. specialize (Hmono a b Ha Hb Hlt). rewrite !(map_nth_in _ _ _ 0%nat) by lia.
    assert (Hf : INR (nth a ranks 0%nat) / (INR n - 1) < INR (nth b ranks 0%nat) / (INR n - 1)).
    { apply Rmult_lt_compat_r; [apply Rinv_0_lt_compat; lra|now apply lt_INR]. }
    split; [nra|intros; nra].
  - rewrite (rsum_plus (fun _ => density - epsilon) (fun r => 2 * epsilon * (INR r / (INR n - 1)))).
    rewrite rsum_const, L, rsum_mul. rewrite (rsum_ext _ (fun r => / (INR n - 1) * INR r)) by (intros; unfold Rdiv; ring).
    rewrite rsum_mul. rewrite (rsum_Permutation (map INR ranks) (map INR (seq 0 n))) by (now apply Permutation_map).
    rewrite rsum_seq. field. lra.
Qed.

(** The whole tensor: the draw is made with valid probabilities whose expected
    number of kept entries is density times the number of entries, and the
    result keeps the drawn entries up to a common positive factor. *)
Theorem C28_expected_density (rows : list (list R)) (ranks : list (list nat)) (density epsilon : R) (norm : option rescale_norm) (draw : list bool) (y : list R) :
  0 < density < 1 -> 0 <= epsilon -> 0 < density - epsilon -> density + epsilon < 1 ->
  (forall row, In row rows -> (2 <= length row)%nat) -> Forall2 row_ranks rows ranks ->
  length draw = length (concat rows) ->
  della_magprune rows density epsilon norm ranks draw = Ok y ->
  exists ps, rmapM (row_probs density epsilon) ranks = Ok ps /\
    length (concat ps) = length (concat rows) /\
    (forall p, In p (concat ps) -> density - epsilon <= p <= density + epsilon) /\
    expect (concat ps) kept = density * INR (length (concat rows)) /\
    exists s, 0 < s /\ (norm = None -> s = 1) /\ length y = length (concat rows) /\
      forall i, (i < length (concat rows))%nat -> nth i y 0 = if nth i draw false then s * nth i (concat rows) 0 else 0.
Proof.
  intros Hd He H0 H1 Hlen HF Hdraw E.
  assert (Hps : exists ps, rmapM (row_probs density epsilon) ranks = Ok ps /\ length (concat ps) = length (concat rows) /\
    (forall p, In p (concat ps) -> density - epsilon <= p <= density + epsilon) /\ rsum (concat ps) = density * INR (length (concat rows))).
  { clear E Hdraw. induction HF as [|row rk rows ranks Hrow HF IH]; [exists []; cbn; repeat split; try lra; contradiction|].
    destruct (C28_row row rk density epsilon (Hlen row (or_introl eq_refl)) Hrow He) as (p & Ep & Lp & Bp & _ & Sp).
    destruct IH as (ps & Eps & Lps & Bps & Sps); [intros; apply Hlen; now right|].
    exists (p :: ps). unfold rmapM in *. rewrite Ep. cbn [rbind]. rewrite Eps. cbn [rbind concat].
    split; [reflexivity|]. rewrite !app_length, rsum_app, plus_INR. split; [lia|]. split; [|lra].
    intros q Hq. apply in_app_iff in Hq as [Hq|Hq]; auto. }
  destruct Hps as (ps & Eps & Lps & Bps & Sps). exists ps. split; [exact Eps|]. split; [exact Lps|]. split; [exact Bps|].
  split; [rewrite expect_kept; exact Sps|].
  unfold della_magprune in E. destruct (Rle_dec 1 density); [lra|]. destruct (Rle_dec density 0); [lra|].
  destruct (Rle_dec 1 (density + epsilon)); [lra|]. destruct (Rle_dec (density - epsilon) 0); [lra|].
  rewrite Eps in E. cbn [rbind] in E. destruct (forallb _ _); [|discriminate].
  destruct (rescaled_masked_Ok _ _ _ _ E) as (s & Hs & Ey & Hn). exists s. split; [exact Hs|]. split; [intros ->; exact Hn|].
  assert (Ld : length (draw_mask draw) = length (concat rows)) by (unfold draw_mask; now rewrite map_length).
  split; [rewrite Ey; unfold vscale, vmul; rewrite map_length, map2_length; lia|].
  intros i Hi. rewrite Ey. unfold vscale, vmul. rewrite (map_nth_in _ _ _ 0) by (rewrite map2_length; lia).
  rewrite (map2_nth _ _ _ _ 0 0) by lia. unfold draw_mask. rewrite (map_nth_in _ _ _ false) by lia. destruct (nth i draw false); lra.
Qed.

(** It always succeeds for rows of at least two entries (and a nonempty tensor
    if rescaling by Linf), because the probabilities are valid. *)
Theorem C28_succeeds (rows : list (list R)) (ranks : list (list nat)) (density epsilon : R) (norm : option rescale_norm) (draw : list bool) :
  0 < density < 1 -> 0 <= epsilon -> 0 < density - epsilon -> density + epsilon < 1 ->
  (forall row, In row rows -> (2 <= length row)%nat) -> rows <> [] -> Forall2 row_ranks rows ranks ->
  length draw = length (concat rows) ->
  exists y, della_magprune rows density epsilon norm ranks draw = Ok y.
Proof.
  intros Hd He H0 H1 Hlen Hne HF Hdraw.
  assert (Hps : exists ps, rmapM (row_probs density epsilon) ranks = Ok ps /\
    (forall p, In p (concat ps) -> density - epsilon <= p <= density + epsilon)).
  { clear Hdraw Hne. induction HF as [|row rk rows ranks Hrow HF IH]; [exists []; cbn; split; [reflexivity|contradiction]|].
    destruct (C28_row row rk density epsilon (Hlen row (or_introl eq_refl)) Hrow He) as (p & Ep & Lp & Bp & _ & Sp).
    destruct IH as (ps & Eps & Bps); [intros; apply Hlen; now right|].
    exists (p :: ps). unfold rmapM in *. rewrite Ep. cbn [rbind]. rewrite Eps. cbn [rbind concat].
    split; [reflexivity|]. intros q Hq. apply in_app_iff in Hq as [Hq|Hq]; auto. }
  destruct Hps as (ps & Eps & Bps).
  unfold della_magprune. destruct (Rle_dec 1 density); [lra|]. destruct (Rle_dec density 0); [lra|].
  destruct (Rle_dec 1 (density + epsilon)); [lra|]. destruct (Rle_dec (density - epsilon) 0); [lra|].
  rewrite Eps. cbn [rbind].
  assert (Hall : forallb (fun p => if prob_dec p then true else false) (concat ps) = true).
  { apply forallb_forall. intros p Hp. destruct (prob_dec p) as [|Hnp]; [reflexivity|]. exfalso. apply Hnp. unfold prob_ok. specialize (Bps p Hp). lra. }
  rewrite Hall. destruct (C27_total (concat rows) (draw_mask draw) norm) as [H|[_ H]]; [unfold draw_mask; now rewrite map_length|exact H|].
  exfalso. destruct rows as [|row rows]; [congruence|]. specialize (Hlen row (or_introl eq_refl)). apply (f_equal (@length R)) in H.
  cbn [concat] in H. rewrite app_length in H. cbn in H. lia.
Qed.

(** A row of a single entry gives 0/0, whatever the parameters: pruning a tensor
    whose second dimension is one (or a one-element vector) fails. *)
Theorem C28_single_column_refuted (v density epsilon : R) (norm : option rescale_norm) (draw : list bool) :
  0 < density < 1 -> density + epsilon < 1 -> 0 < density - epsilon ->
  row_ranks [v] [0%nat] /\ della_magprune [[v]] density epsilon norm [[0%nat]] draw = Err RuntimeError.
Proof.
  intros Hd H1 H0. split.
  - exists [0%nat]. split; (split; [reflexivity|cbn; intros; lia]).
  - unfold della_magprune. destruct (Rle_dec 1 density); [lra|]. destruct (Rle_dec density 0); [lra|].
    destruct (Rle_dec 1 (density + epsilon)); [lra|]. destruct (Rle_dec (density - epsilon) 0); [lra|].
    cbn [rmapM]. unfold row_probs. cbn [map]. unfold row_max, row_min. cbn [fold_right hd].
    rewrite Rmax_left, Rmin_left by lra. destruct (Req_EM_T _ _); [reflexivity|lra].
Qed.

(** A negative epsilon passes the range check and prunes the large entries first. *)
Theorem C28_negative_epsilon_refuted :
  exists ps, row_ranks [1; 2] [0; 1]%nat /\ 0 < / 2 - (- / 4) /\ / 2 + (- / 4) < 1 /\
    row_probs (/ 2) (- / 4) [0; 1]%nat = Ok ps /\ nth 1 ps 0 < nth 0 ps 0.
Proof.
  assert (Hr : row_ranks [1; 2] [0; 1]%nat).
  { exists [0; 1]%nat. split; (split; [reflexivity|]); cbn [length map]; intros i j Hij; assert (i = 0 /\ j = 1)%nat as [-> ->] by lia; cbn [nth INR]; rewrite ?Rabs_pos_eq; lra. }
  eexists. split; [exact Hr|]. split; [lra|]. split; [lra|].
  rewrite (row_probs_eq _ _ _ 2) by (try lia; reflexivity). split; [reflexivity|]. cbn [map nth INR]. lra.
Qed.

Example C28_nonvacuous : row_ranks [3; -1; 2] [2; 0; 1]%nat /\
  row_probs (/ 2) (/ 4) [2; 0; 1]%nat = Ok [3 / 4; / 4; / 2].
Proof.
  split.
  - exists [1; 2; 0]%nat. assert (Ha : Rabs 3 = 3 /\ Rabs (-1) = 1 /\ Rabs 2 = 2) by (repeat split; unfold Rabs; destruct (Rcase_abs _); lra). destruct Ha as (A1 & A2 & A3).
    split; (split; [apply NoDup_Permutation; [nodup|apply seq_NoDup|intros i; cbn; lia]|]); cbn [length map]; intros i j Hij;
    rewrite ?A1, ?A2, ?A3; destruct i as [|[|i]], j as [|[|[|j]]]; try lia; cbn [nth INR]; lra.
  - rewrite (row_probs_eq _ _ _ 3); [|lia|apply NoDup_Permutation; [nodup|apply seq_NoDup|intros i; cbn; lia]].
    f_equal. cbn [map INR]. repeat (f_equal; try lra).
Qed.

Print Assumptions C25_keeps_largest.
Print Assumptions C26_outliers.
Print Assumptions C27_norm_preserved.
Print Assumptions C28_expected_density.
