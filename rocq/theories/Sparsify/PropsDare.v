(** C62: random pruning as used by DARE. *)
From Coq Require Import Reals Lra Lia Permutation.
From Flocq Require Import Core.
From Verif.Base Require Import Py PyFacts RList.
From Verif.Sparsify Require Import Spec Model Proofs Props.
Local Open Scope list_scope.
Local Open Scope R_scope.

(** ** Specification *)
(** expectation over independent draws that keep each entry with probability [density] *)
Definition average (density : R) (n : nat) (f : list bool -> R) : R := expect (repeat density n) f.
(** a real function of the pruned tensor *)
Definition on_result (f : list R -> R) (r : result (list R)) : R := match r with Ok y => f y | Err _ => 0 end.

(** ** Lemmas *)
Lemma expect_ext_len ps f g : (forall l, length l = length ps -> f l = g l) -> expect ps f = expect ps g.
Proof.
  revert f g. induction ps as [|p ps IH]; intros f g H; cbn; [now apply H|]. rewrite (IH (fun l => f (true :: l)) (fun l => g (true :: l))) by (intros; apply H; cbn; lia).
  rewrite (IH (fun l => f (false :: l)) (fun l => g (false :: l))) by (intros; apply H; cbn; lia). reflexivity.
Qed.
Lemma expect_nth p n i : (i < n)%nat -> expect (repeat p n) (fun l => if nth i l false then 1 else 0) = p.
Proof.
  revert i. induction n as [|n IH]; intros i Hi; [lia|]. cbn [repeat expect]. destruct i as [|i].
  - cbn [nth]. rewrite !expect_const. ring.
  - cbn [nth]. rewrite IH by lia. ring.
Qed.
Lemma expect_some p n c : expect (repeat p n) (fun l => if existsb (fun b => b) l then c else 0) = c * (1 - (1 - p) ^ n).
Proof.
  induction n as [|n IH]; [cbn; ring|]. cbn [repeat expect]. rewrite (expect_ext _ (fun l => if existsb (fun b => b) (true :: l) then c else 0) (fun _ => c)) by reflexivity.
  rewrite expect_const. rewrite (expect_ext _ (fun l => if existsb (fun b => b) (false :: l) then c else 0) (fun l => if existsb (fun b => b) l then c else 0)) by reflexivity. rewrite IH. cbn [pow]. ring.
Qed.
Lemma bernoulli_run x density norm draw : 0 <= density < 1 -> length draw = length x -> bernoulli x density norm draw = rescaled_masked x (draw_mask draw) norm.
Proof.
  intros Hd L. unfold bernoulli. destruct (Rle_dec 1 density); [lra|]. destruct x as [|a x]; [destruct draw; [reflexivity|discriminate]|].
  destruct (prob_dec density) as [|Hn]; [reflexivity|]. exfalso. apply Hn. unfold prob_ok. lra.
Qed.
Lemma masked_nth x draw i : (i < length x)%nat -> length draw = length x -> nth i (vmul x (draw_mask draw)) 0 = (if nth i draw false then 1 else 0) * nth i x 0.
Proof.
  intros Hi L. unfold vmul, draw_mask. rewrite (map2_nth Rmult _ _ i 0 0 0) by (rewrite ?map_length; lia). rewrite (map_nth_in _ draw i false 0) by lia. destruct (nth i draw false); ring.
Qed.

(** ** The theorems *)
(** Without rescaling an entry is [density] times itself on average, *)
Theorem C62_mean (x : list R) (density : R) (i : nat) : 0 <= density < 1 -> (i < length x)%nat ->
  average density (length x) (fun draw => on_result (fun y => nth i y 0) (bernoulli x density None draw)) = density * nth i x 0.
Proof.
  intros Hd Hi. unfold average. rewrite (expect_ext_len _ _ (fun draw => nth i x 0 * (if nth i draw false then 1 else 0))).
  - rewrite expect_scale, expect_nth by exact Hi. ring.
  - intros l L. rewrite repeat_length in L. rewrite bernoulli_run by assumption. cbn [rescaled_masked on_result]. rewrite masked_nth by assumption. ring.
Qed.
(** so dividing by the density, as in the paper, would be unbiased. *)
Theorem C62_paper (x : list R) (density : R) (i : nat) : 0 < density < 1 -> (i < length x)%nat ->
  average density (length x) (fun draw => on_result (fun y => nth i y 0 / density) (bernoulli x density None draw)) = nth i x 0.
Proof.
  intros Hd Hi. unfold average. rewrite (expect_ext_len _ _ (fun draw => / density * on_result (fun y => nth i y 0) (bernoulli x density None draw))).
  - rewrite expect_scale. pose proof (C62_mean x density i ltac:(lra) Hi) as H. unfold average in H. rewrite H. field. lra.
  - intros l L. rewrite repeat_length in L. rewrite bernoulli_run by (assumption || lra). cbn [rescaled_masked on_result]. unfold Rdiv. ring.
Qed.

(** The rescaling used instead keeps the l1 norm whenever anything is kept: on average the norm is that of the original
    times the probability of keeping anything. *)
Theorem C62_norm (x : list R) (density : R) : 0 <= density < 1 -> (forall v, In v x -> eps <= Rabs v) ->
  average density (length x) (fun draw => on_result norm1 (bernoulli x density (Some L1) draw)) = norm1 x * (1 - (1 - density) ^ length x).
Proof.
  intros Hd Hx. unfold average. rewrite <- expect_some. apply expect_ext_len. intros draw L. rewrite repeat_length in L. rewrite bernoulli_run by assumption.
  unfold rescaled_masked. cbn [scale_of rbind]. set (m := vmul x (draw_mask draw)).
  assert (Heps : 0 < eps) by (unfold eps; apply Rinv_0_lt_compat, pow_lt; lra).
  assert (Hn : forall y i, (i < length y)%nat -> Rabs (nth i y 0) <= norm1 y).
  { clear. induction y as [|a y IH]; intros i Hi; cbn in Hi; [lia|]. unfold norm1 in *. cbn [map]. rewrite rsum_cons.
    assert (0 <= rsum (map Rabs y)) by (apply rsum_nonneg; intros v Hv; apply in_map_iff in Hv as (w & <- & _); apply Rabs_pos). pose proof (Rabs_pos a). destruct i as [|i]; cbn [nth]; [lra|]. specialize (IH i ltac:(lia)). lra. }
  assert (Lm : length m = length x) by (unfold m, vmul, draw_mask; rewrite map2_length, map_length; lia).
  destruct (existsb (fun b => b) draw) eqn:Hex.
  - apply existsb_exists in Hex as (b & Hin & Hb). subst b. apply (In_nth _ _ false) in Hin as (i & Hi & Ei). rewrite L in Hi.
    assert (Ha : eps <= norm1 m). { apply Rle_trans with (Rabs (nth i m 0)); [|apply Hn; lia]. unfold m. rewrite masked_nth, Ei, Rmult_1_l by assumption. apply Hx. now apply nth_In. }
    assert (Hb : eps <= norm1 x). { apply Rle_trans with (Rabs (nth i x 0)); [|now apply Hn]. apply Hx. now apply nth_In. }
    destruct (Rlt_dec (norm1 x) eps); [lra|]. destruct (Rlt_dec (norm1 m) eps); [lra|]. cbn [on_result].
    rewrite (map_ext _ (Rmult (norm1 x / norm1 m))) by (intros; ring). change (map (Rmult (norm1 x / norm1 m)) m) with (vscale (norm1 x / norm1 m) m).
    rewrite norm1_scale, Rabs_pos_eq by (apply Rmult_le_pos; [lra|left; apply Rinv_0_lt_compat; lra]). field. lra.
  - assert (Hm : norm1 m = 0).
    { unfold norm1. rewrite (map_ext_in _ (fun _ => 0)); [rewrite rsum_const; ring|]. intros v Hv. apply (In_nth _ _ 0) in Hv as (i & Hi & <-). rewrite Lm in Hi. unfold m. rewrite masked_nth by assumption.
      destruct (nth i draw false) eqn:Eb; [|rewrite Rmult_0_l; apply Rabs_R0]. exfalso. rewrite <- not_true_iff_false in Hex. apply Hex. apply existsb_exists. exists true. split; [rewrite <- Eb; apply nth_In; lia|reflexivity]. }
    destruct (Rlt_dec (norm1 x) eps); cbn [on_result]; [exact Hm|]. rewrite Hm. destruct (Rlt_dec 0 eps); [|lra]. cbn [on_result]. exact Hm.
Qed.
(** but the average result is not the original, nor a multiple of it: the average of [[1; 3]] at density 1/2 is
    [[5/4; 7/4]]. *)
Theorem C62_rescaled_refuted :
  average (1 / 2) 2 (fun draw => on_result (fun y => nth 0 y 0) (bernoulli [1; 3] (1 / 2) (Some L1) draw)) = 5 / 4 /\
  average (1 / 2) 2 (fun draw => on_result (fun y => nth 1 y 0) (bernoulli [1; 3] (1 / 2) (Some L1) draw)) = 7 / 4.
Proof.
  assert (He : 0 < eps < 1) by (unfold eps; split; [apply Rinv_0_lt_compat, pow_lt; lra|rewrite <- Rinv_1; apply Rinv_lt_contravar; lra]).
  assert (Hr : forall b c, bernoulli [1; 3] (1 / 2) (Some L1) [b; c] = Ok (match b, c with true, true => [1; 3] | true, false => [4; 0] | false, true => [0; 4] | false, false => [0; 0] end)).
  { intros b c. rewrite bernoulli_run by (cbn; lra || lia). unfold rescaled_masked. cbn [scale_of rbind].
    assert (N : norm1 [1; 3] = 4) by (unfold norm1, rsum; cbn; rewrite !Rabs_pos_eq by lra; lra). rewrite N. destruct (Rlt_dec 4 eps); [lra|].
    assert (G : forall p q, 0 <= p -> 0 <= q -> norm1 [p; q] = p + q) by (intros p q Hp Hq; unfold norm1, rsum; cbn; rewrite !Rabs_pos_eq by lra; lra).
    destruct b, c; unfold vmul, draw_mask; cbn [map map2]; rewrite G by lra;
      match goal with |- context [Rlt_dec ?a eps] => destruct (Rlt_dec a eps) end; try lra; cbn [map]; repeat f_equal; lra. }
  split; unfold average; cbn [repeat expect]; rewrite !Hr; cbn; lra.
Qed.

Example C62_nonvacuous : 0 <= 1 / 2 < 1 /\ (forall v, In v [1; 3] -> eps <= Rabs v) /\ (1 < length [1; 3])%nat.
Proof.
  assert (He : 0 < eps < 1) by (unfold eps; split; [apply Rinv_0_lt_compat, pow_lt; lra|rewrite <- Rinv_1; apply Rinv_lt_contravar; lra]).
  repeat split; try lra; try (cbn; lia). intros v [<-|[<-|[]]]; rewrite Rabs_pos_eq; lra.
Qed.

Print Assumptions C62_norm.
