(** C71 and C72: merging in floating point: where the result is exact, and how far off it can be elsewhere. *)
From Coq Require Import ZArith Reals Lra Lia Permutation.
From Flocq Require Import Core.Core Relative Plus_error Sterbenz Double_rounding.
From Verif.Base Require Import Py PyFacts.
From Verif.Methods Require Import Float FloatProofs.
Local Open Scope list_scope.
Local Open Scope R_scope.

(** ** Specification *)
(** a tree that adds [n] numbers, each once *)
Definition sums_all (tr : sum_tree) (n : nat) : Prop := Permutation (leaves tr) (seq 0 n).
Definition rsum (l : list R) : R := fold_right Rplus 0 l.
Definition dot (ws ts : list R) : R := rsum (map (fun wt => fst wt * snd wt) (combine ws ts)).
Definition abs_dot (ws ts : list R) : R := rsum (map (fun wt => Rabs (fst wt * snd wt)) (combine ws ts)).
Definition abs_total (ts : list R) : R := rsum (map Rabs ts).
(** how far the computed sum of products and the computed sum of the weights can be off: one factor [1 + u] per rounding on a path *)
Definition dot_error (f : fmt) (tr : sum_tree) (ws ts : list R) : R :=
  let u := unit_of f in
  ((1 + u) ^ (depth tr + 4) - 1) * abs_dot ws ts +
  (1 + u) ^ (depth tr + 1) * tiny_of f * ((1 + u) ^ 2 * abs_total ts + (2 + u) * INR (length ts)) + tiny_of f.
Definition weight_error (f : fmt) (tr : sum_tree) (ws : list R) : R :=
  let u := unit_of f in
  ((1 + u) ^ (depth tr + 2) - 1) * abs_total ws + (1 + u) ^ (depth tr + 1) * tiny_of f * INR (length ws) + tiny_of f.

(** ** Sums over trees and lists *)
Lemma nth_seq_map (k : R -> R) xs : map (fun i => k (nth i xs 0)) (seq 0 (length xs)) = map k xs.
Proof.
  assert (H : forall pre, map (fun i => k (nth i (pre ++ xs) 0)) (seq (length pre) (length xs)) = map k xs).
  { induction xs as [|x xs IH]; intros pre; cbn [length seq map]; [reflexivity|]. f_equal.
    - rewrite app_nth2 by lia. now rewrite Nat.sub_diag.
    - specialize (IH (pre ++ [x])). rewrite app_length in IH. cbn [length] in IH. replace (length pre + 1)%nat with (S (length pre)) in IH by lia. rewrite <- app_assoc in IH. exact IH. }
  apply (H []).
Qed.
Lemma exact_all tr xs : sums_all tr (length xs) -> exact_sum tr xs = rsum xs.
Proof.
  intros H. unfold exact_sum. rewrite (perm_sum (fun i => nth i xs 0) _ _ H), seq_sum. unfold rsum. rewrite (nth_seq_map (fun x => x)). now rewrite map_id.
Qed.
Lemma abs_all tr xs : sums_all tr (length xs) -> abs_sum tr xs = abs_total xs.
Proof.
  intros H. unfold abs_sum. rewrite (perm_sum (fun i => Rabs (nth i xs 0)) _ _ H), seq_sum. unfold abs_total, rsum. now rewrite (nth_seq_map Rabs).
Qed.
Lemma sums_nodup tr n : sums_all tr n -> NoDup (leaves tr).
Proof. intros H. eapply Permutation_NoDup; [apply Permutation_sym; exact H|apply seq_NoDup]. Qed.
Lemma sums_in tr n k : sums_all tr n -> (k < n)%nat -> In k (leaves tr).
Proof. intros H Hk. eapply Permutation_in; [apply Permutation_sym; exact H|]. apply in_seq. lia. Qed.
Lemma torch_sum_one f g tr xs k : good f -> wider f g -> Forall (in_fmt f) xs -> sums_all tr (length xs) -> (k < length xs)%nat ->
  (forall i, i <> k -> nth i xs 0 = 0) -> torch_sum f g tr xs = nth k xs 0.
Proof.
  intros Hf Hw Hx Ht Hk H0. unfold torch_sum. rewrite (run_one_hot f g tr xs k (wider_good _ _ Hf Hw) Hw Hx (sums_nodup _ _ Ht) H0).
  destruct (in_dec Nat.eq_dec k (leaves tr)) as [_|Hn]; [|exfalso; apply Hn; eapply sums_in; eauto]. apply rnd_id.
  rewrite Forall_forall in Hx. apply Hx. now apply nth_In.
Qed.
Lemma torch_sum_error f g tr xs : good f -> wider f g -> Forall (in_fmt f) xs -> sums_all tr (length xs) ->
  Rabs (torch_sum f g tr xs - rsum xs) <= ((1 + unit_of f) ^ (depth tr + 1) - 1) * abs_total xs + tiny_of f.
Proof.
  intros Hf Hw Hx Ht. assert (Hg : good g) by (eapply wider_good; eauto). unfold torch_sum.
  pose proof (run_error f g tr xs Hg Hw Hx) as E1. pose proof (abs_exact tr xs) as Ea. rewrite (exact_all _ _ Ht) in *. rewrite (abs_all _ _ Ht) in *.
  pose proof (unit_wider _ _ Hw) as Hu. pose proof (unit_pos g) as Hpg. pose proof (unit_pos f) as Hpf.
  assert (Hpow : (1 + unit_of g) ^ depth tr <= (1 + unit_of f) ^ depth tr) by (apply pow_incr; lra).
  set (r := run_sum g tr xs) in *. set (S0 := rsum xs) in *. set (A := abs_total xs) in *.
  assert (HA : 0 <= A) by (eapply Rle_trans; [apply Rabs_pos|exact Ea]).
  assert (E1' : Rabs (r - S0) <= ((1 + unit_of f) ^ depth tr - 1) * A) by (eapply Rle_trans; [exact E1|]; apply Rmult_le_compat_r; [exact HA|lra]).
  pose proof (rnd_error f r Hf) as E2. set (u := unit_of f) in *. set (P := (1 + u) ^ depth tr) in *.
  assert (Hr : Rabs r <= P * A) by (replace r with ((r - S0) + S0) by ring; eapply Rle_trans; [apply Rabs_triang|]; lra).
  replace (rnd f r - S0) with ((rnd f r - r) + (r - S0)) by ring. eapply Rle_trans; [apply Rabs_triang|].
  assert (u * Rabs r <= u * (P * A)) by (now apply Rmult_le_compat_l). rewrite pow_add, pow_1. fold P. lra.
Qed.

Lemma products_len f g ws ts : length ws = length ts -> length (map (fun wt : R * R => op f g (fst wt * snd wt)) (combine (map (rnd f) ws) ts)) = length ts.
Proof. intros H. rewrite map_length, combine_length, map_length. lia. Qed.
Lemma products_nth f g ws ts i : length ws = length ts ->
  nth i (map (fun wt : R * R => op f g (fst wt * snd wt)) (combine (map (rnd f) ws) ts)) 0 = op f g (rnd f (nth i ws 0) * nth i ts 0).
Proof.
  intros H. assert (E : op f g (fst (rnd f 0, 0) * snd (rnd f 0, 0)) = 0) by (cbn [fst snd]; rewrite Rmult_0_r; apply op_0).
  rewrite <- E at 1. rewrite (map_nth (fun wt : R * R => op f g (fst wt * snd wt))). rewrite combine_nth by (now rewrite map_length). cbn [fst snd].
  now rewrite (map_nth (rnd f)).
Qed.
Lemma products_in f g ws ts : good f -> Forall (in_fmt f) (map (fun wt : R * R => op f g (fst wt * snd wt)) (combine (map (rnd f) ws) ts)).
Proof. intros H. apply Forall_forall. intros x Hx. apply in_map_iff in Hx as (wt & <- & _). now apply in_op. Qed.
Lemma weights_in f ws : good f -> Forall (in_fmt f) (map (rnd f) ws).
Proof. intros H. apply Forall_forall. intros x Hx. apply in_map_iff in Hx as (w & <- & _). now apply in_rnd. Qed.

(** ** Linear merges *)
(** Weight one for one model and zero for the others gives that model's entry exactly, in every order of summation. *)
Theorem C71_selects f g normalize tr tr' ws ts k :
  good f -> (f_emin f <= 0)%Z -> wider f g -> Forall (in_fmt f) ts -> length ws = length ts ->
  sums_all tr (length ts) -> sums_all tr' (length ts) -> (k < length ts)%nat ->
  nth k ws 0 = 1 -> (forall i, i <> k -> nth i ws 0 = 0) ->
  linear_entry f g normalize tr tr' ws ts = nth k ts 0.
Proof.
  intros Hf He Hw Ht Hl Htr Htr' Hk H1 H0. unfold linear_entry. cbv zeta. pose proof (in_1 f Hf He) as I1.
  assert (Htk : in_fmt f (nth k ts 0)) by (rewrite Forall_forall in Ht; apply Ht, nth_In, Hk).
  assert (E : torch_sum f g tr (map (fun wt => op f g (fst wt * snd wt)) (combine (map (rnd f) ws) ts)) = nth k ts 0).
  { rewrite (torch_sum_one f g tr _ k Hf Hw (products_in _ _ _ _ Hf)).
    - rewrite products_nth by exact Hl. rewrite H1, (rnd_id f 1 I1), Rmult_1_l. now apply op_id.
    - now rewrite products_len.
    - now rewrite products_len.
    - intros i Hi. rewrite products_nth by exact Hl. rewrite (H0 i Hi), rnd_0, Rmult_0_l. apply op_0. }
  rewrite E. destruct normalize; [|reflexivity].
  assert (E' : torch_sum f g tr' (map (rnd f) ws) = 1).
  { assert (Hn : forall i, nth i (map (rnd f) ws) 0 = rnd f (nth i ws 0)) by (intros i; rewrite <- (rnd_0 f) at 1; apply (map_nth (rnd f))).
    rewrite (torch_sum_one f g tr' _ k Hf Hw (weights_in _ _ Hf)).
    - rewrite Hn, H1. now apply rnd_id.
    - now rewrite map_length, Hl.
    - rewrite map_length. lia.
    - intros i Hi. rewrite Hn, (H0 i Hi). apply rnd_0. }
  rewrite E'. unfold Rdiv. rewrite Rinv_1, Rmult_1_r. now apply op_id.
Qed.

(** A single model with a power of two as weight comes back exactly, unless the product underflows. *)
Theorem C71_power_of_two f g t j tr tr' :
  good f -> wider f g -> in_fmt f t -> in_fmt f (bpow radix2 j) -> in_fmt f (bpow radix2 j * t) ->
  sums_all tr 1 -> sums_all tr' 1 ->
  linear_entry f g true tr tr' [bpow radix2 j] [t] = t.
Proof.
  intros Hf Hw Ht Hj Hjt Htr Htr'. unfold linear_entry. cbn [map combine fst snd]. rewrite (rnd_id f _ Hj), (op_id f g _ Hw Hjt).
  assert (E : forall x tr, in_fmt f x -> sums_all tr 1 -> torch_sum f g tr [x] = x).
  { intros x tr0 Hx Htr0. apply (torch_sum_one f g tr0 [x] 0 Hf Hw); [auto|exact Htr0|cbn; lia|]. intros [|[|i]] Hi; [congruence|reflexivity|reflexivity]. }
  rewrite !E by assumption. replace (bpow radix2 j * t / bpow radix2 j) with t; [now apply op_id|]. field. pose proof (bpow_gt_0 radix2 j). lra.
Qed.

(** Two copies of one model with weights one half give the model back exactly, unless halving underflows. *)
Theorem C71_two_copies f g normalize t tr tr' :
  good f -> (f_emin f <= -1)%Z -> wider f g -> in_fmt f t -> in_fmt f (/ 2 * t) -> sums_all tr 2 -> sums_all tr' 2 ->
  linear_entry f g normalize tr tr' [/ 2; / 2] [t; t] = t.
Proof.
  intros Hf He Hw Ht Hh Htr Htr'. assert (Hg : good g) by (eapply wider_good; eauto). assert (I1 : in_fmt f 1) by (apply in_1; [exact Hf|lia]).
  assert (I2 : in_fmt f (/ 2)).
  { replace (/ 2) with (bpow radix2 (-1)) by (cbn; lra). apply generic_format_bpow. unfold FLT_exp, good in *. lia. }
  assert (E : forall x tr, in_fmt f x -> in_fmt f (x + x) -> sums_all tr 2 -> torch_sum f g tr [x; x] = x + x).
  { intros x tr0 Hx Hxx Htr0. unfold torch_sum. assert (Hr : run_sum g tr0 [x; x] = x + x).
    { assert (Hlen : length (leaves tr0) = 2%nat) by (rewrite (Permutation_length Htr0); reflexivity).
      assert (Hpos : forall t, (1 <= length (leaves t))%nat) by (induction t0; cbn; [lia|rewrite app_length; lia]).
      destruct tr0 as [i|a b]; [cbn in Hlen; lia|]. cbn [leaves] in Hlen. rewrite app_length in Hlen. pose proof (Hpos a). pose proof (Hpos b).
      destruct a as [i|a1 a2]; [|exfalso; cbn [leaves] in Hlen; rewrite app_length in Hlen; pose proof (Hpos a1); pose proof (Hpos a2); lia].
      destruct b as [j|b1 b2]; [|exfalso; cbn [leaves] in Hlen; rewrite app_length in Hlen; cbn [length] in Hlen; pose proof (Hpos b1); pose proof (Hpos b2); lia].
      assert (Hin : forall k, In k [i; j] -> nth k [x; x] 0 = x).
      { intros k Hk. assert (Hk' : In k (seq 0 2)) by (eapply Permutation_in; [exact Htr0|exact Hk]). apply in_seq in Hk'. destruct k as [|[|k]]; [reflexivity|reflexivity|lia]. }
      cbn [run_sum]. rewrite (Hin i), (Hin j) by (cbn; tauto). apply rnd_id. eapply in_wider; eauto. }
    rewrite Hr. now apply rnd_id. }
  unfold linear_entry. cbn [map combine fst snd]. rewrite (rnd_id f _ I2), (op_id f g _ Hw Hh).
  assert (Et : / 2 * t + / 2 * t = t) by lra. assert (E1 : / 2 + / 2 = 1) by lra.
  rewrite E; [|exact Hh|now rewrite Et|exact Htr]. rewrite Et. destruct normalize; [|reflexivity].
  rewrite E; [|exact I2|now rewrite E1|exact Htr']. rewrite E1. unfold Rdiv. rewrite Rinv_1, Rmult_1_r. now apply op_id.
Qed.

(** With non-negative weights a larger entry never gives a smaller result. *)
Theorem C71_monotone f g normalize tr tr' ws ts ts' :
  good f -> wider f g -> length ws = length ts -> length ws = length ts' ->
  (forall i, 0 <= nth i ws 0) -> (forall i, nth i ts 0 <= nth i ts' 0) ->
  linear_entry f g normalize tr tr' ws ts <= linear_entry f g normalize tr tr' ws ts'.
Proof.
  intros Hf Hw Hl Hl' Hp Hle. assert (Hg : good g) by (eapply wider_good; eauto). unfold linear_entry. cbv zeta.
  assert (E : torch_sum f g tr (map (fun wt => op f g (fst wt * snd wt)) (combine (map (rnd f) ws) ts)) <=
              torch_sum f g tr (map (fun wt => op f g (fst wt * snd wt)) (combine (map (rnd f) ws) ts'))).
  { unfold torch_sum. apply rnd_le; [exact Hf|]. apply run_le; [exact Hg|]. intros i. rewrite !products_nth by assumption. apply op_le; [assumption..|].
    apply Rmult_le_compat_l; [now apply rnd_pos|apply Hle]. }
  destruct normalize; [|exact E]. apply op_le; [assumption..|].
  assert (D : 0 <= torch_sum f g tr' (map (rnd f) ws)).
  { unfold torch_sum. apply rnd_pos; [exact Hf|]. induction tr' as [i|a IHa b IHb]; cbn [run_sum].
    - rewrite <- (rnd_0 f) at 2. rewrite (map_nth (rnd f)). now apply rnd_pos.
    - apply rnd_pos; [exact Hg|]. lra. }
  unfold Rdiv. destruct (Req_dec (torch_sum f g tr' (map (rnd f) ws)) 0) as [Hz|Hnz].
  - rewrite Hz, Rinv_0, !Rmult_0_r. lra.
  - apply Rmult_le_compat_r; [|exact E]. left. apply Rinv_0_lt_compat. lra.
Qed.

(** Error of the sum: a few units of the last place of the sum of absolute values, whatever the order of summation. *)
Theorem C71_error f g tr tr' ws ts :
  good f -> wider f g -> length ws = length ts -> sums_all tr (length ts) ->
  Rabs (linear_entry f g false tr tr' ws ts - dot ws ts) <= dot_error f tr ws ts.
Proof.
  intros Hf Hw Hl Htr. unfold linear_entry. cbv zeta. set (ps := map (fun wt => op f g (fst wt * snd wt)) (combine (map (rnd f) ws) ts)).
  assert (Hps : Forall (in_fmt f) ps) by now apply products_in.
  assert (Hlen : length ps = length ts) by now apply products_len.
  pose proof (torch_sum_error f g tr ps Hf Hw Hps ltac:(now rewrite Hlen)) as E. set (u := unit_of f) in *. set (e := tiny_of f) in *.
  pose proof (unit_pos f) as Hu. fold u in Hu. pose proof (tiny_pos f) as Hep. fold e in Hep.
  (* error of the products *)
  assert (HP : Rabs (rsum ps - dot ws ts) <= ((1 + u) ^ 3 - 1) * abs_dot ws ts + (1 + u) ^ 2 * e * abs_total ts + (2 + u) * e * INR (length ts) /\
               abs_total ps <= (1 + u) ^ 3 * abs_dot ws ts + (1 + u) ^ 2 * e * abs_total ts + (2 + u) * e * INR (length ts) /\
               0 <= abs_dot ws ts /\ 0 <= abs_total ts).
  { unfold ps, dot, abs_dot, abs_total, rsum. clear E Hps Hlen Htr ps. revert ts Hl. induction ws as [|w ws IH]; intros [|t ts] Hl; try discriminate; cbn [map combine fold_right length fst snd].
    - cbn [INR]. rewrite Rminus_0_r, Rabs_R0. lra.
    - destruct (IH ts ltac:(now injection Hl)) as (I1 & I2 & I3 & I4). clear IH. rewrite S_INR. cbn [fst snd].
      set (p := op f g (rnd f w * t)). assert (Hq : Rabs (p - w * t) <= ((1 + u) ^ 3 - 1) * Rabs (w * t) + (1 + u) ^ 2 * e * Rabs t + (2 + u) * e).
      { pose proof (rnd_error f w Hf) as R1. pose proof (op_error f g (rnd f w * t) Hf Hw) as R2. fold u e in R1, R2. fold p in R2.
        assert (R1' : Rabs (rnd f w * t - w * t) <= u * Rabs (w * t) + e * Rabs t).
        { replace (rnd f w * t - w * t) with ((rnd f w - w) * t) by ring. rewrite !Rabs_mult. pose proof (Rabs_pos t). nra. }
        assert (R3 : Rabs (rnd f w * t) <= (1 + u) * Rabs (w * t) + e * Rabs t).
        { replace (rnd f w * t) with ((rnd f w * t - w * t) + w * t) by ring. eapply Rle_trans; [apply Rabs_triang|]. lra. }
        replace (p - w * t) with ((p - rnd f w * t) + (rnd f w * t - w * t)) by ring. eapply Rle_trans; [apply Rabs_triang|].
        assert (0 <= (1 + u) * (1 + u) - 1) by nra.
        assert (((1 + u) * (1 + u) - 1) * Rabs (rnd f w * t) <= ((1 + u) * (1 + u) - 1) * ((1 + u) * Rabs (w * t) + e * Rabs t)) by (now apply Rmult_le_compat_l).
        cbn [pow]. rewrite !Rmult_1_r. lra. }
      assert (Hq' : Rabs p <= (1 + u) ^ 3 * Rabs (w * t) + (1 + u) ^ 2 * e * Rabs t + (2 + u) * e).
      { replace p with ((p - w * t) + w * t) by ring. eapply Rle_trans; [apply Rabs_triang|]. lra. }
      set (sp := fold_right Rplus 0 (map (fun wt : R * R => op f g (fst wt * snd wt)) (combine (map (rnd f) ws) ts))) in *.
      set (sd := fold_right Rplus 0 (map (fun wt : R * R => fst wt * snd wt) (combine ws ts))) in *.
      set (sa := fold_right Rplus 0 (map (fun wt : R * R => Rabs (fst wt * snd wt)) (combine ws ts))) in *.
      set (st := fold_right Rplus 0 (map Rabs ts)) in *.
      pose proof (Rabs_pos (w * t)). pose proof (Rabs_pos t). split; [|split; [|split]].
      + replace (p + sp - (w * t + sd)) with ((p - w * t) + (sp - sd)) by ring. eapply Rle_trans; [apply Rabs_triang|]. lra.
      + lra.
      + lra.
      + lra. }
  destruct HP as (H1 & H2 & H3 & H4). replace (torch_sum f g tr ps - dot ws ts) with ((torch_sum f g tr ps - rsum ps) + (rsum ps - dot ws ts)) by ring.
  eapply Rle_trans; [apply Rabs_triang|]. unfold dot_error. cbv zeta. fold u e. set (A := abs_dot ws ts) in *. set (T := abs_total ts) in *. set (N := INR (length ts)) in *.
  set (P := (1 + u) ^ (depth tr + 1)) in *. assert (HP1 : 1 <= P) by (unfold P; apply pow_R1_Rle; lra).
  assert (E' : (P - 1) * abs_total ps <= (P - 1) * ((1 + u) ^ 3 * A + (1 + u) ^ 2 * e * T + (2 + u) * e * N)) by (apply Rmult_le_compat_l; [lra|exact H2]).
  replace ((1 + u) ^ (depth tr + 4)) with (P * (1 + u) ^ 3) by (unfold P; rewrite <- pow_add; f_equal; lia). lra.
Qed.

(** Error of the normalised merge (the default) when the computed weight sum cannot vanish. *)
Theorem C71_normalised_error f g tr tr' ws ts :
  good f -> wider f g -> length ws = length ts -> sums_all tr (length ts) -> sums_all tr' (length ts) ->
  let A := dot_error f tr ws ts in let B := weight_error f tr' ws in let mean := dot ws ts / rsum ws in
  B < rsum ws ->
  let q := (A + Rabs mean * B) / (rsum ws - B) in
  Rabs (linear_entry f g true tr tr' ws ts - mean) <= q + ((1 + unit_of f) ^ 2 - 1) * (Rabs mean + q) + (2 + unit_of f) * tiny_of f.
Proof.
  intros Hf Hw Hl Htr Htr' A B mean HB q. pose proof (C71_error f g tr tr' ws ts Hf Hw Hl Htr) as EN. fold A in EN. unfold linear_entry in *. cbv zeta in *.
  set (N := torch_sum f g tr _) in *. set (D := torch_sum f g tr' (map (rnd f) ws)).
  assert (ED : Rabs (D - rsum ws) <= B).
  { pose proof (torch_sum_error f g tr' (map (rnd f) ws) Hf Hw (weights_in _ _ Hf) ltac:(now rewrite map_length, Hl)) as E. fold D in E.
    pose proof (unit_pos f) as Hu. pose proof (tiny_pos f) as He. unfold B, weight_error. cbv zeta. set (u := unit_of f) in *. set (e := tiny_of f) in *.
    assert (HP : Rabs (rsum (map (rnd f) ws) - rsum ws) <= u * abs_total ws + e * INR (length ws) /\
                 abs_total (map (rnd f) ws) <= (1 + u) * abs_total ws + e * INR (length ws) /\ 0 <= abs_total ws).
    { unfold abs_total, rsum. clear -Hf u e Hu He. induction ws as [|w ws IH]; cbn [map fold_right length].
      - cbn [INR]. rewrite Rminus_0_r, Rabs_R0. lra.
      - destruct IH as (I1 & I2 & I3). rewrite S_INR. pose proof (rnd_error f w Hf) as R1. fold u e in R1. pose proof (Rabs_pos w).
        assert (R2 : Rabs (rnd f w) <= (1 + u) * Rabs w + e) by (replace (rnd f w) with ((rnd f w - w) + w) by ring; eapply Rle_trans; [apply Rabs_triang|]; lra).
        set (sr := fold_right Rplus 0 (map (rnd f) ws)) in *. set (sw := fold_right Rplus 0 ws) in *. split; [|lra].
        replace (rnd f w + sr - (w + sw)) with ((rnd f w - w) + (sr - sw)) by ring. eapply Rle_trans; [apply Rabs_triang|]. lra. }
    destruct HP as (H1 & H2 & H3). replace (D - rsum ws) with ((D - rsum (map (rnd f) ws)) + (rsum (map (rnd f) ws) - rsum ws)) by ring.
    eapply Rle_trans; [apply Rabs_triang|]. set (P := (1 + u) ^ (depth tr' + 1)) in *. assert (HP1 : 1 <= P) by (unfold P; apply pow_R1_Rle; lra).
    assert (E' : (P - 1) * abs_total (map (rnd f) ws) <= (P - 1) * ((1 + u) * abs_total ws + e * INR (length ws))) by (apply Rmult_le_compat_l; [lra|exact H2]).
    replace ((1 + u) ^ (depth tr' + 2)) with (P * (1 + u)) by (unfold P; rewrite <- (pow_1 (1 + u)) at 2; rewrite <- pow_add; f_equal; lia). lra. }
  set (W := rsum ws) in *. assert (HB0 : 0 <= B) by (eapply Rle_trans; [apply Rabs_pos|exact ED]). assert (HW : 0 < W) by lra.
  assert (HD : W - B <= D) by (apply Rabs_le_inv in ED; lra). assert (HA0 : 0 <= A) by (eapply Rle_trans; [apply Rabs_pos|exact EN]).
  assert (Hq : Rabs (N / D - mean) <= q).
  { replace (N / D - mean) with (((N - dot ws ts) + mean * (W - D)) / D) by (unfold mean; field; lra).
    unfold Rdiv. rewrite Rabs_mult, Rabs_inv, (Rabs_pos_eq D) by lra. unfold q, Rdiv. apply Rmult_le_compat; [apply Rabs_pos|left; apply Rinv_0_lt_compat; lra| |].
    - eapply Rle_trans; [apply Rabs_triang|]. rewrite Rabs_mult, (Rabs_minus_sym W D). pose proof (Rabs_pos mean). assert (Rabs mean * Rabs (D - W) <= Rabs mean * B) by (now apply Rmult_le_compat_l). lra.
    - apply Rinv_le_contravar; lra. }
  assert (Hq0 : 0 <= q) by (eapply Rle_trans; [apply Rabs_pos|exact Hq]).
  pose proof (op_error f g (N / D) Hf Hw) as E. replace ((1 + unit_of f) ^ 2) with ((1 + unit_of f) * (1 + unit_of f)) by ring. pose proof (unit_pos f) as Hu.
  assert (HQ : Rabs (N / D) <= Rabs mean + q) by (replace (N / D) with ((N / D - mean) + mean) by ring; eapply Rle_trans; [apply Rabs_triang|]; lra).
  assert (((1 + unit_of f) * (1 + unit_of f) - 1) * Rabs (N / D) <= ((1 + unit_of f) * (1 + unit_of f) - 1) * (Rabs mean + q)) by (apply Rmult_le_compat_l; [nra|exact HQ]).
  replace (op f g (N / D) - mean) with ((op f g (N / D) - N / D) + (N / D - mean)) by ring. eapply Rle_trans; [apply Rabs_triang|]. lra.
Qed.

(** Sums and differences of reduced-precision tensors are rounded as if once: going through the wider format costs nothing. *)
Definition rounds_once (f g : fmt) : Prop := g = f \/ (f_emin g <= f_emin f)%Z /\ (2 * f_prec f + 1 <= f_prec g)%Z.
Theorem C71_add_rounded_once f g x y : good f -> rounds_once f g -> in_fmt f x -> in_fmt f y ->
  op f g (x + y) = rnd f (x + y) /\ op f g (x - y) = rnd f (x - y).
Proof.
  intros Hf [->|(He & Hp)] Hx Hy; [split; apply rnd_id, in_rnd, Hf|]. assert (Hg : good g) by (unfold good in *; lia).
  assert (Hx' : FLT_format radix2 (f_emin f) (f_prec f) x) by (apply FLT_format_generic; [exact Hf|exact Hx]).
  assert (Hy' : FLT_format radix2 (f_emin f) (f_prec f) y) by (apply FLT_format_generic; [exact Hf|exact Hy]).
  assert (Hf' : Prec_gt_0 (f_prec f)) by exact Hf. assert (Hg' : Prec_gt_0 (f_prec g)) by exact Hg.
  split; [apply (round_round_plus_FLT radix2 (f_emin f) (f_prec f) (f_emin g) (f_prec g)); auto | apply (round_round_minus_FLT radix2 (f_emin f) (f_prec f) (f_emin g) (f_prec g)); auto].
Qed.
Theorem C71_formats_round_once : rounds_once bfloat16 float32 /\ rounds_once float16 float32 /\ rounds_once float32 float32 /\ rounds_once float64 float64.
Proof. unfold rounds_once. cbn. repeat split; try (left; reflexivity); right; lia. Qed.

(** Finding: merging a single bfloat16 model with weight 0.3 and normalisation does not give the model back. *)
Lemma rnd_n f x e n m k : (bpow radix2 (e - 1) <= Rabs x < bpow radix2 e) -> Z.max (e - f_prec f) (f_emin f) = k ->
  Rabs (x * bpow radix2 (- k) - IZR n) < / 2 -> m = IZR n * bpow radix2 k -> rnd f x = m.
Proof. intros He <- Hn ->. now apply rnd_value. Qed.
Lemma in_int f n k : (f_emin f <= k)%Z -> (Z.abs n < 2 ^ f_prec f)%Z -> good f -> in_fmt f (IZR n * bpow radix2 k).
Proof.
  intros Hk Hn Hf. apply generic_format_FLT. exists (Float radix2 n k); cbn [Fnum Fexp]; [reflexivity| |exact Hk]. exact Hn.
Qed.
Theorem C71_normalised_single_refuted : exists t, in_fmt bfloat16 t /\
  linear_entry bfloat16 float32 true (Leaf 0) (Leaf 0) [3 / 10] [t] <> t.
Proof.
  exists (215 / 128). assert (Ht : in_fmt bfloat16 (215 / 128)).
  { replace (215 / 128) with (IZR 215 * bpow radix2 (-7)) by (cbn; lra). apply in_int; cbn; unfold good; cbn; lia. }
  split; [exact Ht|]. unfold linear_entry, torch_sum. cbn [map combine fst snd run_sum nth].
  assert (E1 : rnd bfloat16 (3 / 10) = 77 / 256).
  { apply (rnd_n bfloat16 _ (-1) 154 _ (-9)); [|reflexivity| |].
    - rewrite Rabs_pos_eq by lra. cbn. lra.
    - cbn. apply Rabs_def1; lra.
    - cbn. lra. }
  assert (I1 : in_fmt bfloat16 (77 / 256)) by (rewrite <- E1; apply in_rnd; unfold good; cbn; lia).
  assert (W : wider bfloat16 float32) by (unfold wider; cbn; lia).
  assert (G1 : good bfloat16) by (unfold good; cbn; lia).
  rewrite E1. assert (E2 : op bfloat16 float32 (77 / 256 * (215 / 128)) = 129 / 256).
  { unfold op. rewrite (rnd_id float32).
    - apply (rnd_n bfloat16 _ 0 129 _ (-8)); [|reflexivity| |].
      + rewrite Rabs_pos_eq by lra. cbn. lra.
      + cbn. apply Rabs_def1; lra.
      + cbn. lra.
    - replace (77 / 256 * (215 / 128)) with (IZR 16555 * bpow radix2 (-15)) by (cbn; lra). apply in_int; cbn; unfold good; cbn; lia. }
  assert (I2 : in_fmt bfloat16 (129 / 256)) by (rewrite <- E2; now apply in_op).
  rewrite E2, (rnd_id bfloat16 _ I1), (rnd_id bfloat16 _ I2). replace (129 / 256 / (77 / 256)) with (129 / 77) by lra.
  assert (E3 : op bfloat16 float32 (129 / 77) = 107 / 64).
  { unfold op. rewrite (rnd_n float32 (129 / 77) 1 14053642 (14053642 / 8388608) (-23)); [|rewrite Rabs_pos_eq by lra; cbn; lra|reflexivity| |cbn; lra].
    - apply (rnd_n bfloat16 _ 1 214 _ (-7)); [|reflexivity| |].
      + rewrite Rabs_pos_eq by lra. cbn. lra.
      + cbn. apply Rabs_def1; lra.
      + cbn. lra.
    - cbn. apply Rabs_def1; lra. }
  rewrite E3. lra.
Qed.

Example C71_nonvacuous :
  exists f g tr ws ts, good f /\ (f_emin f <= 0)%Z /\ wider f g /\ Forall (in_fmt f) ts /\ length ws = length ts /\
    sums_all tr (length ts) /\ nth 1 ws 0 = 1 /\ (forall i, i <> 1%nat -> nth i ws 0 = 0) /\ weight_error f tr ws < rsum ws /\
    linear_entry f g true tr tr ws ts = 3 / 2.
Proof.
  exists bfloat16, float32, (Add (Leaf 1) (Add (Leaf 0) (Leaf 2))), [0; 1; 0], [5; 3 / 2; 7].
  assert (G1 : good bfloat16) by (unfold good; cbn; lia). assert (W : wider bfloat16 float32) by (unfold wider; cbn; lia).
  assert (F : Forall (in_fmt bfloat16) [5; 3 / 2; 7]).
  { repeat constructor.
    - replace 5 with (IZR 5 * bpow radix2 0) by (cbn; lra). apply in_int; cbn; unfold good; cbn; lia.
    - replace (3 / 2) with (IZR 3 * bpow radix2 (-1)) by (cbn; lra). apply in_int; cbn; unfold good; cbn; lia.
    - replace 7 with (IZR 7 * bpow radix2 0) by (cbn; lra). apply in_int; cbn; unfold good; cbn; lia. }
  assert (P : sums_all (Add (Leaf 1) (Add (Leaf 0) (Leaf 2))) 3) by (unfold sums_all; cbn; apply perm_swap).
  assert (N0 : forall i, i <> 1%nat -> nth i [0; 1; 0] 0 = 0) by (intros [|[|[|[|i]]]] Hi; try reflexivity; congruence).
  split; [exact G1|]. split; [cbn; lia|]. split; [exact W|]. split; [exact F|]. split; [reflexivity|]. split; [exact P|]. split; [reflexivity|]. split; [exact N0|]. split.
  - unfold weight_error, unit_of, abs_total, rsum. cbn [depth Nat.max Nat.add map fold_right length]. rewrite !Rabs_R0, Rabs_R1. cbn [f_prec bfloat16].
    assert (Ht : tiny_of bfloat16 <= / 1024).
    { unfold tiny_of. cbn [f_emin bfloat16]. apply Rle_trans with (/ 2 * bpow radix2 (-9)); [apply Rmult_le_compat_l; [lra|apply bpow_le; lia]|cbn; lra]. }
    pose proof (tiny_pos bfloat16). replace (INR 3) with 3 by (cbn; lra). replace (/ 2 * bpow radix2 (- (8) + 1)) with (/ 256) by (cbn; lra).
    assert (P3 : (1 + / 256) ^ 3 <= 2) by (cbn [pow]; lra). assert (P4 : (1 + / 256) ^ 4 <= 3 / 2) by (cbn [pow]; lra).
    assert ((1 + / 256) ^ 3 * tiny_of bfloat16 <= 2 * / 1024) by (apply Rmult_le_compat; [cbn [pow]; lra|lra|exact P3|exact Ht]). lra.
  - apply (C71_selects bfloat16 float32 true _ _ [0; 1; 0] [5; 3 / 2; 7] 1); auto; try reflexivity; [cbn; lia|cbn; lia].
Qed.

(** ** Task arithmetic *)
Lemma gta_len f g base ws xs : length ws = length xs ->
  length (map (fun wd : R * R => op f g (snd wd * fst wd)) (combine (map (rnd f) ws) (map (fun x => op f g (x - base)) xs))) = length xs.
Proof. intros H. rewrite map_length, combine_length, !map_length. lia. Qed.
Lemma gta_nth f g base ws xs i : length ws = length xs -> (i < length xs)%nat ->
  nth i (map (fun wd : R * R => op f g (snd wd * fst wd)) (combine (map (rnd f) ws) (map (fun x => op f g (x - base)) xs))) 0 =
  op f g (op f g (nth i xs 0 - base) * rnd f (nth i ws 0)).
Proof.
  intros H Hi. rewrite (nth_indep _ 0 (op f g (snd (rnd f 0, op f g (0 - base)) * fst (rnd f 0, op f g (0 - base))))) by (now rewrite gta_len).
  rewrite (map_nth (fun wd : R * R => op f g (snd wd * fst wd))). rewrite combine_nth by (now rewrite !map_length). cbn [fst snd].
  rewrite (map_nth (rnd f)). now rewrite (map_nth (fun x => op f g (x - base))).
Qed.
Lemma gta_in f g base ws xs : good f ->
  Forall (in_fmt f) (map (fun wd : R * R => op f g (snd wd * fst wd)) (combine (map (rnd f) ws) (map (fun x => op f g (x - base)) xs))).
Proof. intros H. apply Forall_forall. intros x Hx. apply in_map_iff in Hx as (wt & <- & _). now apply in_op. Qed.
Lemma run_zero g tr xs : (forall i, nth i xs 0 = 0) -> run_sum g tr xs = 0.
Proof. intros H. induction tr as [i|a IHa b IHb]; cbn [run_sum]; [apply H|]. rewrite IHa, IHb, Rplus_0_r. apply rnd_0. Qed.

(** Models equal to the base, and models of weight zero, leave the base exactly as it was, whatever lambda and the divisor. *)
Theorem C72_base_copies f g normalize lam tr tr' base ws xs :
  good f -> wider f g -> in_fmt f base -> length ws = length xs ->
  (forall i, (i < length xs)%nat -> nth i ws 0 = 0 \/ nth i xs 0 = base) ->
  gta_entry f g normalize lam tr tr' base ws xs = base.
Proof.
  intros Hf Hw Hb Hl H. unfold gta_entry. cbv zeta.
  assert (E : torch_sum f g tr (map (fun wd => op f g (snd wd * fst wd)) (combine (map (rnd f) ws) (map (fun x => op f g (x - base)) xs))) = 0).
  { unfold torch_sum. rewrite run_zero; [apply rnd_0|]. intros i. destruct (Nat.lt_ge_cases i (length xs)) as [Hi|Hi].
    - rewrite gta_nth by assumption. destruct (H i Hi) as [-> | ->].
      + rewrite rnd_0, Rmult_0_r. apply op_0.
      + rewrite Rminus_diag_eq, op_0, Rmult_0_l by reflexivity. apply op_0.
    - apply nth_overflow. now rewrite gta_len. }
  rewrite E. unfold Rdiv. rewrite Rmult_0_l, op_0.
  replace (if Req_EM_T lam 1 then if normalize then 0 else 0 else op f g ((if normalize then 0 else 0) * lam)) with 0.
  - rewrite Rplus_0_r, (op_id f g _ Hw Hb). now apply rnd_id.
  - destruct (Req_EM_T lam 1), normalize; try reflexivity; now rewrite Rmult_0_l, op_0.
Qed.

Lemma gta_single f g normalize tr tr' base x : good f -> (f_emin f <= 0)%Z -> wider f g -> sums_all tr 1 -> sums_all tr' 1 ->
  gta_entry f g normalize 1 tr tr' base [1] [x] = op f g (base + op f g (x - base)).
Proof.
  intros Hf He Hw Htr Htr'. pose proof (in_1 f Hf He) as I1. unfold gta_entry. cbn [map combine fst snd]. rewrite (rnd_id f 1 I1), Rmult_1_r.
  assert (E : forall y tr, in_fmt f y -> sums_all tr 1 -> torch_sum f g tr [y] = y).
  { intros y tr0 Hy Htr0. apply (torch_sum_one f g tr0 [y] 0 Hf Hw); [auto|exact Htr0|cbn; lia|]. intros [|[|i]] Hi; [congruence|reflexivity|reflexivity]. }
  rewrite !E by (auto using in_op). rewrite !(op_id f g (op f g (x - base)) Hw) by now apply in_op. rewrite Rabs_R1. destruct (Rlt_dec 1 (/ 100000000)) as [Hc|_]; [lra|]. destruct (Req_EM_T 1 1) as [_|Hc]; [|congruence].
  unfold Rdiv. rewrite Rinv_1, Rmult_1_r, (op_id f g (op f g (x - base)) Hw) by now apply in_op.
  destruct normalize; apply rnd_id; now apply in_op.
Qed.

(** One model with weight one and lambda one comes back exactly when its difference from the base is a number of the format. *)
Theorem C72_single_exact f g normalize tr tr' base x :
  good f -> (f_emin f <= 0)%Z -> wider f g -> sums_all tr 1 -> sums_all tr' 1 -> in_fmt f x -> in_fmt f (x - base) ->
  gta_entry f g normalize 1 tr tr' base [1] [x] = x.
Proof.
  intros Hf He Hw Htr Htr' Hx Hd. rewrite gta_single by assumption. rewrite (op_id f g _ Hw Hd). replace (base + (x - base)) with x by ring. now apply op_id.
Qed.
(** In particular when the two entries are within a factor of two of each other, as fine-tuned weights usually are. *)
Theorem C72_single_close f g normalize tr tr' base x :
  good f -> (f_emin f <= 0)%Z -> wider f g -> sums_all tr 1 -> sums_all tr' 1 -> in_fmt f x -> in_fmt f base ->
  (base / 2 <= x <= 2 * base \/ 2 * base <= x <= base / 2) ->
  gta_entry f g normalize 1 tr tr' base [1] [x] = x.
Proof.
  intros Hf He Hw Htr Htr' Hx Hb Hc. apply C72_single_exact; auto. destruct Hc as [Hc|Hc].
  - apply (@sterbenz radix2 (FLT_exp (f_emin f) (f_prec f))); [apply FLT_exp_valid; exact Hf|apply FLT_exp_monotone|exact Hx|exact Hb|exact Hc].
  - replace (x - base) with (- ((- x) - (- base))) by ring. apply in_opp.
    apply (@sterbenz radix2 (FLT_exp (f_emin f) (f_prec f))); [apply FLT_exp_valid; exact Hf|apply FLT_exp_monotone|now apply in_opp|now apply in_opp|lra].
Qed.
(** Otherwise the error is a few units in the last place of the difference, which may be far more than of the entry itself. *)
Theorem C72_single_error f g normalize tr tr' base x :
  good f -> (f_emin f <= 0)%Z -> wider f g -> sums_all tr 1 -> sums_all tr' 1 -> in_fmt f x -> in_fmt f base ->
  let U := (1 + unit_of f) ^ 2 - 1 in
  Rabs (gta_entry f g normalize 1 tr tr' base [1] [x] - x) <= U * Rabs x + (1 + U) * (U * Rabs (x - base) + tiny_of f) + tiny_of f.
Proof.
  intros Hf He Hw Htr Htr' Hx Hb U. rewrite gta_single by assumption.
  pose proof (op_add_error f g x (- base) Hf Hw Hx (in_opp _ _ Hb)) as E1. fold (x - base) in E1.
  pose proof (op_add_error f g base (op f g (x - base)) Hf Hw Hb (in_op _ _ _ Hf)) as E2. set (d := op f g (x - base)) in *. set (r := op f g (base + d)) in *.
  assert (HU : (1 + unit_of f) * (1 + unit_of f) - 1 = U) by (unfold U; ring). rewrite HU in E1, E2. pose proof (unit_pos f). assert (HU0 : 0 <= U) by (unfold U; nra).
  assert (E3 : Rabs (base + d) <= Rabs x + Rabs (d - (x - base))) by (replace (base + d) with (x + (d - (x - base))) by ring; apply Rabs_triang).
  replace (r - x) with ((r - (base + d)) + (d - (x - base))) by ring. eapply Rle_trans; [apply Rabs_triang|].
  assert (U * Rabs (base + d) <= U * (Rabs x + Rabs (d - (x - base)))) by (now apply Rmult_le_compat_l).
  assert (U * Rabs (d - (x - base)) <= U * (U * Rabs (x - base) + tiny_of f)) by (now apply Rmult_le_compat_l). lra.
Qed.

(** In general the result is within this distance of [base + sum of weight * (x - base)]. *)
Definition gta_error (f : fmt) (tr : sum_tree) (base : R) (ws xs : list R) : R :=
  let U := (1 + unit_of f) ^ 2 - 1 in
  dot_error f tr ws (map (fun x => (1 + U) * Rabs (x - base) + tiny_of f) xs) +
  rsum (map (fun wx => Rabs (fst wx) * (U * Rabs (snd wx - base) + tiny_of f)) (combine ws xs)).
Theorem C72_error f g tr tr' base ws xs :
  good f -> wider f g -> in_fmt f base -> Forall (in_fmt f) xs -> length ws = length xs -> sums_all tr (length xs) ->
  let ideal := base + dot ws (map (fun x => x - base) xs) in let M := gta_error f tr base ws xs in
  Rabs (gta_entry f g false 1 tr tr' base ws xs - ideal) <= M + ((1 + unit_of f) ^ 2 - 1) * (Rabs ideal + M) + tiny_of f.
Proof.
  intros Hf Hw Hb Hx Hl Htr ideal M. unfold gta_entry. cbv zeta. destruct (Req_EM_T 1 1) as [_|Hc]; [|congruence].
  set (ds := map (fun x => op f g (x - base)) xs).
  assert (Hprod : map (fun wd : R * R => op f g (snd wd * fst wd)) (combine (map (rnd f) ws) ds) = map (fun wt : R * R => op f g (fst wt * snd wt)) (combine (map (rnd f) ws) ds))
    by (apply map_ext; intros (w & d); cbn [fst snd]; now rewrite Rmult_comm).
  rewrite Hprod. assert (Hld : length ds = length xs) by (unfold ds; apply map_length).
  pose proof (C71_error f g tr tr' ws ds Hf Hw ltac:(now rewrite Hld) ltac:(now rewrite Hld)) as E. unfold linear_entry in E. cbv zeta in E.
  set (mixed := torch_sum f g tr _) in *. pose proof (unit_pos f) as Hu. pose proof (tiny_pos f) as He. set (u := unit_of f) in *. set (e := tiny_of f) in *.
  set (U := (1 + u) ^ 2 - 1) in *. assert (HU0 : 0 <= U) by (unfold U; nra).
  assert (Hd : forall x, in_fmt f x -> Rabs (op f g (x - base) - (x - base)) <= U * Rabs (x - base) + e).
  { intros x Hx0. pose proof (op_add_error f g x (- base) Hf Hw Hx0 (in_opp _ _ Hb)) as E1. fold (x - base) in E1. fold u e in E1.
    replace U with ((1 + u) * (1 + u) - 1) by (unfold U; ring). exact E1. }
  assert (HM : Rabs (mixed - dot ws (map (fun x => x - base) xs)) <= M).
  { assert (H1 : abs_dot ws ds <= abs_dot ws (map (fun x => (1 + U) * Rabs (x - base) + e) xs) /\
                 abs_total ds <= abs_total (map (fun x => (1 + U) * Rabs (x - base) + e) xs) /\
                 Rabs (dot ws ds - dot ws (map (fun x => x - base) xs)) <= rsum (map (fun wx => Rabs (fst wx) * (U * Rabs (snd wx - base) + e)) (combine ws xs))).
    { unfold ds, abs_dot, abs_total, dot, rsum. clear -Hd Hx Hl HU0 He Hu. revert ws Hl. induction xs as [|x xs IH]; intros [|w ws] Hl; try discriminate; cbn [map combine fold_right fst snd].
      - rewrite Rminus_0_r, Rabs_R0. lra.
      - inversion Hx as [|? ? Hx1 Hx2]; subst. destruct (IH Hx2 ws ltac:(now injection Hl)) as (I1 & I2 & I3). pose proof (Hd x Hx1) as E1. set (d := op f g (x - base)) in *.
        assert (E2 : Rabs d <= (1 + U) * Rabs (x - base) + e) by (replace d with ((d - (x - base)) + (x - base)) by ring; eapply Rle_trans; [apply Rabs_triang|]; lra).
        assert (E3 : 0 <= (1 + U) * Rabs (x - base) + e) by (pose proof (Rabs_pos d); lra).
        assert (E4 : Rabs (w * d) <= Rabs (w * ((1 + U) * Rabs (x - base) + e))) by (rewrite !Rabs_mult, (Rabs_pos_eq ((1 + U) * _ + e)) by exact E3; apply Rmult_le_compat_l; [apply Rabs_pos|exact E2]).
        assert (E5 : Rabs (w * d - w * (x - base)) <= Rabs w * (U * Rabs (x - base) + e)) by (replace (w * d - w * (x - base)) with (w * (d - (x - base))) by ring; rewrite Rabs_mult; apply Rmult_le_compat_l; [apply Rabs_pos|exact E1]).
        split; [|split].
        + lra.
        + rewrite (Rabs_pos_eq ((1 + U) * _ + e)) by exact E3. lra.
        + set (s1 := fold_right Rplus 0 (map (fun wt : R * R => fst wt * snd wt) (combine ws (map (fun x0 : R => op f g (x0 - base)) xs)))) in *.
          set (s2 := fold_right Rplus 0 (map (fun wt : R * R => fst wt * snd wt) (combine ws (map (fun x0 : R => x0 - base) xs)))) in *.
          replace (w * d + s1 - (w * (x - base) + s2)) with ((w * d - w * (x - base)) + (s1 - s2)) by ring. eapply Rle_trans; [apply Rabs_triang|]. lra. }
    destruct H1 as (H1 & H2 & H3). replace (mixed - dot ws (map (fun x => x - base) xs)) with ((mixed - dot ws ds) + (dot ws ds - dot ws (map (fun x => x - base) xs))) by ring.
    eapply Rle_trans; [apply Rabs_triang|]. unfold M, gta_error. cbv zeta. fold u e U. apply Rplus_le_compat; [|exact H3]. eapply Rle_trans; [exact E|].
    unfold dot_error. cbv zeta. fold u e. rewrite map_length, Hld. apply Rplus_le_compat_r. apply Rplus_le_compat.
    - apply Rmult_le_compat_l; [|exact H1]. assert (1 <= (1 + u) ^ (depth tr + 4)) by (apply pow_R1_Rle; lra). lra.
    - apply Rmult_le_compat_l; [apply Rmult_le_pos; [apply pow_le; lra|exact He]|]. apply Rplus_le_compat_r. apply Rmult_le_compat_l; [apply pow_le; lra|exact H2]. }
  assert (Im : in_fmt f mixed) by (unfold mixed, torch_sum; now apply in_rnd).
  rewrite (rnd_id f (op f g (base + mixed))) by now apply in_op.
  pose proof (op_add_error f g base mixed Hf Hw Hb Im) as E2. fold u e in E2. replace ((1 + u) * (1 + u) - 1) with U in E2 by (unfold U; ring).
  assert (E4 : Rabs (base + mixed - ideal) <= M) by (unfold ideal; replace (base + mixed - (base + dot ws (map (fun x => x - base) xs))) with (mixed - dot ws (map (fun x => x - base) xs)) by ring; exact HM).
  assert (E3 : Rabs (base + mixed) <= Rabs ideal + M) by (replace (base + mixed) with ((base + mixed - ideal) + ideal) by ring; eapply Rle_trans; [apply Rabs_triang|]; lra).
  replace (op f g (base + mixed) - ideal) with ((op f g (base + mixed) - (base + mixed)) + (base + mixed - ideal)) by ring. eapply Rle_trans; [apply Rabs_triang|].
  assert (U * Rabs (base + mixed) <= U * (Rabs ideal + M)) by (now apply Rmult_le_compat_l). lra.
Qed.

(** Finding: in every format a single model of weight one is not always given back. *)
Theorem C72_single_refuted f g normalize : (3 <= f_prec f)%Z -> (f_emin f <= 1 - f_prec f)%Z -> wider f g -> rounds_once f g ->
  exists base x, in_fmt f base /\ in_fmt f x /\ gta_entry f g normalize 1 (Leaf 0) (Leaf 0) base [1] [x] <> x.
Proof.
  intros Hp He Hw Ho. set (p := f_prec f) in *. assert (Hf : good f) by (unfold good; fold p; lia).
  exists (bpow radix2 p), (1 + bpow radix2 (1 - p)).
  assert (H2p : IZR (2 ^ p) = bpow radix2 p) by (change 2%Z with (radix_val radix2); apply IZR_Zpower; lia).
  assert (Hpp : bpow radix2 p = 2 * bpow radix2 (p - 1)) by (replace p with (1 + (p - 1))%Z at 1 by lia; rewrite bpow_plus; reflexivity).
  assert (Hsmall : 0 < bpow radix2 (1 - p) <= / 4).
  { split; [apply bpow_gt_0|]. apply Rle_trans with (bpow radix2 (-2)); [apply bpow_le; lia|cbn; lra]. }
  assert (Hbig : 4 <= bpow radix2 (p - 1)) by (apply Rle_trans with (bpow radix2 2); [cbn; lra|apply bpow_le; lia]).
  assert (I0 : in_fmt f (bpow radix2 p)) by (apply generic_format_bpow; unfold FLT_exp; fold p; lia).
  assert (I1 : in_fmt f (1 + bpow radix2 (1 - p))).
  { replace (1 + bpow radix2 (1 - p)) with (IZR (2 ^ (p - 1) + 1) * bpow radix2 (1 - p)).
    - apply in_int; [exact He| |exact Hf]. fold p. rewrite Z.abs_eq by (pose proof (Z.pow_pos_nonneg 2 (p - 1)); lia).
      replace p with (Z.succ (p - 1)) at 2 by lia. rewrite Z.pow_succ_r by lia. assert (2 ^ 2 <= 2 ^ (p - 1))%Z by (apply Z.pow_le_mono_r; lia). lia.
    - rewrite plus_IZR. replace (IZR (2 ^ (p - 1))) with (bpow radix2 (p - 1)) by (symmetry; change 2%Z with (radix_val radix2); apply IZR_Zpower; lia).
      rewrite Rmult_plus_distr_r, <- bpow_plus. replace (p - 1 + (1 - p))%Z with 0%Z by lia. cbn [bpow]. lra. }
  split; [exact I0|]. split; [exact I1|].
  assert (L : sums_all (Leaf 0) 1) by (unfold sums_all; cbn; apply Permutation_refl). rewrite gta_single; try assumption; [|lia].
  assert (I2 : in_fmt f (1 - bpow radix2 p)).
  { replace (1 - bpow radix2 p) with (IZR (1 - 2 ^ p) * bpow radix2 0) by (rewrite minus_IZR, H2p; cbn [bpow]; lra).
    apply in_int; [lia| |exact Hf]. fold p. assert (2 ^ 2 <= 2 ^ p)%Z by (apply Z.pow_le_mono_r; lia). lia. }
  destruct (C71_add_rounded_once f g _ _ Hf Ho I1 I0) as (_ & E1). rewrite E1.
  assert (E2 : rnd f (1 + bpow radix2 (1 - p) - bpow radix2 p) = 1 - bpow radix2 p).
  { apply (rnd_n f _ p (1 - 2 ^ p) _ 0).
    - rewrite <- Rabs_Ropp, Rabs_pos_eq by lra. lra.
    - fold p. lia.
    - cbn [bpow Z.opp]. rewrite minus_IZR, H2p, Rmult_1_r. replace (1 + bpow radix2 (1 - p) - bpow radix2 p - (1 - bpow radix2 p)) with (bpow radix2 (1 - p)) by ring. rewrite Rabs_pos_eq; lra.
    - rewrite minus_IZR, H2p. cbn [bpow]. lra. }
  rewrite E2. replace (bpow radix2 p + (1 - bpow radix2 p)) with 1 by ring. rewrite (op_id f g 1 Hw) by (apply in_1; [exact Hf|lia]). lra.
Qed.

(** ** SLERP endpoints and passthrough *)
Theorem C72_slerp_start f h s acos_ sin_ dot v0 v1 :
  good s -> (f_emin s <= 0)%Z -> wider f h -> in_fmt f v0 -> sin_ 0 = 0 -> in_fmt s (acos_ dot) -> sin_ (acos_ dot) <> 0 ->
  slerp_entry f h s acos_ sin_ dot 0 v0 v1 = v0.
Proof.
  intros Hs He Hw Hv H0 Ha Hn. pose proof (in_1 s Hs He) as I1. pose proof (in_wider _ _ _ Hw Hv) as Hv'. unfold slerp_entry, lerp_entry. cbv zeta.
  rewrite !Rmult_0_r, rnd_0, !Rminus_0_r, (rnd_id s 1 I1), (rnd_id s _ Ha), H0. replace (sin_ (acos_ dot) / sin_ (acos_ dot)) with 1 by (field; exact Hn).
  rewrite (rnd_id s 1 I1). unfold Rdiv. rewrite !Rmult_0_l, !rnd_0, Rmult_0_l, rnd_0, Rmult_1_l, (rnd_id h v0 Hv'), Rplus_0_r, (rnd_id h v0 Hv').
  destruct (Rlt_dec _ _); now apply rnd_id.
Qed.
Theorem C72_slerp_end f h s acos_ sin_ dot v0 v1 :
  good s -> (f_emin s <= 0)%Z -> wider f h -> in_fmt f v1 -> sin_ 0 = 0 -> in_fmt s (acos_ dot) -> sin_ (acos_ dot) <> 0 ->
  slerp_entry f h s acos_ sin_ dot 1 v0 v1 = v1.
Proof.
  intros Hs He Hw Hv H0 Ha Hn. pose proof (in_1 s Hs He) as I1. pose proof (in_wider _ _ _ Hw Hv) as Hv'. unfold slerp_entry, lerp_entry. cbv zeta.
  rewrite !Rmult_1_r, (rnd_id s _ Ha), !Rminus_diag_eq, !rnd_0, H0 by reflexivity. replace (sin_ (acos_ dot) / sin_ (acos_ dot)) with 1 by (field; exact Hn).
  rewrite (rnd_id s 1 I1). unfold Rdiv. rewrite !Rmult_0_l, !rnd_0, Rmult_0_l, rnd_0, Rmult_1_l, (rnd_id h v1 Hv'), Rplus_0_l, (rnd_id h v1 Hv').
  destruct (Rlt_dec _ _); now apply rnd_id.
Qed.
Theorem C72_passthrough f g scale x : wider f g -> in_fmt f x -> scale = None \/ scale = Some 1 -> passthrough_entry f g scale x = x.
Proof. intros Hw Hx [-> | ->]; cbn [passthrough_entry]; [reflexivity|]. rewrite Rmult_1_r. now apply op_id. Qed.

Example C72_nonvacuous :
  exists f g base x, good f /\ (f_emin f <= 0)%Z /\ wider f g /\ rounds_once f g /\ (3 <= f_prec f)%Z /\ (f_emin f <= 1 - f_prec f)%Z /\
    in_fmt f x /\ in_fmt f base /\ base / 2 <= x <= 2 * base /\ x <> base /\
    gta_entry f g true 1 (Leaf 0) (Leaf 0) base [1] [x] = x.
Proof.
  exists bfloat16, float32, 3, 5. assert (G1 : good bfloat16) by (unfold good; cbn; lia). assert (W : wider bfloat16 float32) by (unfold wider; cbn; lia).
  assert (I5 : in_fmt bfloat16 5) by (replace 5 with (IZR 5 * bpow radix2 0) by (cbn; lra); apply in_int; cbn; unfold good; cbn; lia).
  assert (I3 : in_fmt bfloat16 3) by (replace 3 with (IZR 3 * bpow radix2 0) by (cbn; lra); apply in_int; cbn; unfold good; cbn; lia).
  split; [exact G1|]. split; [cbn; lia|]. split; [exact W|]. split; [apply C71_formats_round_once|]. split; [cbn; lia|]. split; [cbn; lia|]. split; [exact I5|]. split; [exact I3|]. split; [lra|]. split; [lra|].
  apply C72_single_close; auto; try (unfold sums_all; cbn; apply Permutation_refl); [cbn; lia|lra].
Qed.
Example C72_slerp_nonvacuous :
  exists f h s acos_ sin_ dot, good s /\ (f_emin s <= 0)%Z /\ wider f h /\ sin_ 0 = 0 /\ in_fmt s (acos_ dot) /\ sin_ (acos_ dot) <> 0 /\ Rabs dot <= 1 /\
    slerp_entry f h s acos_ sin_ dot 1 2 1 = 1 /\ slerp_entry f h s acos_ sin_ dot 0 2 1 = 2.
Proof.
  exists bfloat16, float32, float32, (fun _ => 1), sin, 0.
  assert (G1 : good float32) by (unfold good; cbn; lia). assert (W : wider bfloat16 float32) by (unfold wider; cbn; lia).
  assert (I1 : in_fmt float32 1) by (apply in_1; [exact G1|cbn; lia]).
  assert (Hn : sin 1 <> 0) by (apply Rgt_not_eq, sin_gt_0; [lra|pose proof PI2_1; lra]).
  split; [exact G1|]. split; [cbn; lia|]. split; [exact W|]. split; [apply sin_0|]. split; [exact I1|]. split; [exact Hn|]. split; [rewrite Rabs_R0; lra|]. split.
  - apply C72_slerp_end; auto using sin_0; [cbn; lia|]. apply in_1; [unfold good; cbn; lia|cbn; lia].
  - apply C72_slerp_start; auto using sin_0; [cbn; lia|]. replace 2 with (IZR 2 * bpow radix2 0) by (cbn; lra). apply in_int; cbn; unfold good; cbn; lia.
Qed.

Print Assumptions C71_selects.
Print Assumptions C71_power_of_two.
Print Assumptions C71_two_copies.
Print Assumptions C71_monotone.
Print Assumptions C71_error.
Print Assumptions C71_normalised_error.
Print Assumptions C71_add_rounded_once.
Print Assumptions C71_formats_round_once.
Print Assumptions C71_normalised_single_refuted.
Print Assumptions C72_base_copies.
Print Assumptions C72_single_exact.
Print Assumptions C72_single_close.
Print Assumptions C72_single_error.
Print Assumptions C72_error.
Print Assumptions C72_single_refuted.
Print Assumptions C72_slerp_start.
Print Assumptions C72_slerp_end.
Print Assumptions C72_passthrough.
