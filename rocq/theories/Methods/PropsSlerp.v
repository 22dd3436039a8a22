(** C32: spherical interpolation. *)
From Coq Require Import Reals Lra Psatz.
From Verif.Base Require Import Py PyFacts RList.
From Verif.Methods Require Import Model LinearProofs PropsLinear.
Local Open Scope string_scope.
Local Open Scope list_scope.
Local Open Scope R_scope.

Lemma dot_comm a b : dot a b = dot b a.
Proof. unfold dot. f_equal. revert b. induction a as [|x a IH]; intros [|y b]; cbn; auto. f_equal; [ring|apply IH]. Qed.
Lemma map2_swap {A B C} (f : A -> B -> C) a b : map2 f a b = map2 (fun y x => f x y) b a.
Proof. revert b. induction a as [|x a IH]; intros [|y b]; cbn; auto. f_equal. apply IH. Qed.
Lemma map2_ext {A B C} (f g : A -> B -> C) a b : (forall x y, f x y = g x y) -> map2 f a b = map2 g a b.
Proof. intros H. revert b. induction a as [|x a IH]; intros [|y b]; cbn; auto. rewrite H, IH. reflexivity. Qed.
Lemma map2_left (f : R -> R -> R) a b : length a = length b -> (forall x y, f x y = x) -> map2 f a b = a.
Proof. intros L H. revert b L. induction a as [|x a IH]; intros [|y b] L; cbn in *; try lia; auto. rewrite H, IH by lia. reflexivity. Qed.
Lemma angle_sin d : Rabs d <= dot_threshold -> 0 < sin (acos d) /\ cos (acos d) = d.
Proof.
  intros H. unfold dot_threshold in H. assert (Hd : -1 < d < 1) by (unfold Rabs in H; destruct (Rcase_abs d); lra).
  split; [|apply cos_acos; lra]. apply sin_gt_0.
  - destruct (acos_bound d) as [[Hb|Hb] _]; [exact Hb|]. exfalso. assert (cos (acos d) = d) by (apply cos_acos; lra). rewrite <- Hb, cos_0 in H0. lra.
  - destruct (acos_bound d) as [_ [Hb|Hb]]; [exact Hb|]. exfalso. assert (cos (acos d) = d) by (apply cos_acos; lra). rewrite Hb, cos_PI in H0. lra.
Qed.

Definition unit_vec (v : list R) : Prop := norm2 v = 1.
Lemma eps_lt_1 : / 10 ^ 8 < 1.
Proof. rewrite <- Rinv_1. apply Rinv_lt_contravar; [rewrite Rmult_1_l; apply pow_lt; lra|]. apply Rlt_pow_R1; [lra|lia]. Qed.
Lemma normalize_unit v : unit_vec v -> normalize_vec v (/ 10 ^ 8) = v.
Proof.
  intros H. unfold normalize_vec. rewrite H. pose proof eps_lt_1. destruct (Rlt_dec (/ 10 ^ 8) 1); [|contradiction].
  rewrite <- (map_id v) at 2. apply map_ext. intros; field.
Qed.
Lemma norm2_dot v : norm2 v = sqrt (dot v v).
Proof. unfold norm2, dot, vmul. f_equal. f_equal. induction v; cbn; congruence. Qed.
Lemma dot_self v : unit_vec v -> dot v v = 1.
Proof.
  unfold unit_vec. intros H. assert (Hd : 0 <= dot v v).
  { apply rsum_nonneg. intros x Hx. unfold dot in Hx. clear H. induction v as [|a v IH]; cbn in Hx; [contradiction|]. destruct Hx as [<-|Hx]; [|auto]. nra. }
  rewrite <- (sqrt_sqrt (dot v v)) by exact Hd. rewrite norm2_dot in H. rewrite H. ring.
Qed.
Lemma dot_lin p q p' q' a b : length a = length b ->
  dot (map2 (fun x y => p * x + q * y) a b) (map2 (fun x y => p' * x + q' * y) a b) = p * p' * dot a a + (p * q' + q * p') * dot a b + q * q' * dot b b.
Proof.
  intros L. unfold dot, vmul. revert b L. induction a as [|x a IH]; intros [|y b] L; cbn in L; try lia; cbn [map2]; rewrite ?rsum_cons; [cbn; ring|]. rewrite IH by lia. ring.
Qed.

(** The endpoints are reproduced exactly. *)
Theorem C32_endpoints (a b : list R) : length a = length b -> slerp 0 a b = a /\ slerp 1 a b = b.
Proof.
  intros L. unfold slerp. cbv zeta. set (d := dot _ _). destruct (Rlt_dec dot_threshold (Rabs d)) as [|H].
  - unfold lerp. split; [apply map2_left; [exact L|intros; ring]|]. rewrite map2_swap. apply map2_left; [auto|intros; ring].
  - destruct (angle_sin d) as [Hs _]; [lra|]. split.
    + apply map2_left; [exact L|]. intros x y. rewrite Rmult_0_r, Rminus_0_r, sin_0. field. lra.
    + rewrite map2_swap. apply map2_left; [auto|]. intros y x. rewrite Rmult_1_r. unfold Rminus. rewrite Rplus_opp_r, sin_0. field. lra.
Qed.

(** Interpolating the other way round gives the same curve. *)
Theorem C32_symmetric (t : R) (a b : list R) : slerp t a b = slerp (1 - t) b a.
Proof.
  unfold slerp. cbv zeta. rewrite (dot_comm (normalize_vec b _)). set (d := dot _ _). destruct (Rlt_dec dot_threshold (Rabs d)).
  - unfold lerp. rewrite (map2_swap _ b a). apply map2_ext. intros; ring.
  - rewrite (map2_swap _ b a). apply map2_ext. intros x y. replace (acos d - acos d * (1 - t)) with (acos d * t) by ring.
    replace (acos d * (1 - t)) with (acos d - acos d * t) by ring. ring.
Qed.

(** Unit vectors: the angle between two points of the curve is proportional to
    the difference of their parameters, so every point is a unit vector and the
    curve turns from [a] to [b] at constant speed. *)
Theorem C32_constant_speed (t u : R) (a b : list R) : length a = length b -> unit_vec a -> unit_vec b -> Rabs (dot a b) <= 9995 / 10000 ->
  dot (slerp t a b) (slerp u a b) = cos ((t - u) * acos (dot a b)).
Proof.
  intros L Ua Ub Hd. change (9995 / 10000) with dot_threshold in Hd. unfold slerp. cbv zeta. rewrite !normalize_unit by auto. destruct (Rlt_dec dot_threshold (Rabs (dot a b))); [lra|].
  rewrite dot_lin by exact L. rewrite !dot_self by auto. destruct (angle_sin _ Hd) as [Hs Hc].
  set (th := acos (dot a b)) in *. clearbody th. rewrite <- Hc. rewrite !sin_minus. replace ((t - u) * th) with (th * t - th * u) by ring. rewrite cos_minus.
  set (st := sin (th * t)). set (ct := cos (th * t)). set (su := sin (th * u)). set (cu := cos (th * u)).
  pose proof (sin2_cos2 th) as Hp. unfold Rsqr in Hp. set (s := sin th) in *. set (c := cos th) in *. clearbody st ct su cu s c.
  assert (Hss : s * s = 1 - c * c) by lra.
  field_simplify; [|lra]. apply Rmult_eq_reg_r with (s ^ 2); [|apply pow_nonzero; lra]. unfold Rdiv. rewrite Rmult_assoc, Rinv_l, Rmult_1_r by (apply pow_nonzero; lra).
  ring_simplify. replace (s ^ 2) with (1 - c ^ 2) by (cbn; lra). ring.
Qed.
Theorem C32_unit (t : R) (a b : list R) : length a = length b -> unit_vec a -> unit_vec b -> Rabs (dot a b) <= 9995 / 10000 ->
  unit_vec (slerp t a b) /\ dot (slerp t a b) a = cos (t * acos (dot a b)).
Proof.
  intros L Ua Ub Hd. split.
  - unfold unit_vec. rewrite norm2_dot. pose proof (C32_constant_speed t t a b L Ua Ub Hd) as E. unfold Rminus in E. rewrite Rplus_opp_r, Rmult_0_l, cos_0 in E.
    rewrite E. apply sqrt_1.
  - pose proof (C32_constant_speed t 0 a b L Ua Ub Hd) as E. rewrite (proj1 (C32_endpoints a b L)), Rminus_0_r in E. exact E.
Qed.

(** Vectors whose directions are nearly the same or nearly opposite are
    interpolated linearly. *)
Theorem C32_colinear (t : R) (a b : list R) : length a = length b -> / 10 ^ 8 < norm2 a -> / 10 ^ 8 < norm2 b ->
  9995 / 10000 * (norm2 a * norm2 b) < Rabs (dot a b) ->
  slerp t a b = vadd (vscale (1 - t) a) (vscale t b).
Proof.
  intros L Ha Hb H. unfold slerp. cbv zeta.
  assert (0 < / 10 ^ 8) by (apply Rinv_0_lt_compat, pow_lt; lra).
  assert (Ed : dot (normalize_vec a (/ 10 ^ 8)) (normalize_vec b (/ 10 ^ 8)) = dot a b / (norm2 a * norm2 b)).
  { unfold normalize_vec. destruct (Rlt_dec _ (norm2 a)); [|contradiction]. destruct (Rlt_dec _ (norm2 b)); [|contradiction].
    set (na := norm2 a) in *. set (nb := norm2 b) in *. clearbody na nb. clear H. unfold dot, vmul. revert b L. induction a as [|x a IH]; intros [|y b] L; cbn in L; try lia; cbn [map map2]; rewrite ?rsum_cons.
    - cbn. unfold Rdiv. ring.
    - rewrite IH by lia. field. lra. }
  rewrite Ed. assert (0 < norm2 a * norm2 b) by (apply Rmult_lt_0_compat; lra).
  destruct (Rlt_dec dot_threshold (Rabs (dot a b / (norm2 a * norm2 b)))) as [|Hn].
  - unfold lerp, vadd, vscale. clear -L. revert b L. induction a as [|x a IH]; intros [|y b] L; cbn in *; try lia; auto. f_equal. apply IH. lia.
  - exfalso. apply Hn. unfold Rdiv. rewrite Rabs_mult, (Rabs_pos_eq (/ _)) by (left; now apply Rinv_0_lt_compat).
    unfold dot_threshold. apply Rmult_lt_reg_r with (norm2 a * norm2 b); [assumption|]. rewrite Rmult_assoc, Rinv_l by lra. lra.
Qed.

(** The merge step applies [slerp] from the base model's tensor to the other one,
    whichever is listed first; a single tensor is passed through. *)
Theorem C32_task (e : bool) (t : R) (bm m : string) (a b : tensor) (tensors : dict string tensor) :
  m <> bm -> shp a = shp b -> tensors = [(bm, a); (m, b)] \/ tensors = [(m, b); (bm, a)] ->
  slerp_task e t bm tensors = Ok {| shp := shp a; dat := slerp t (dat a) (dat b) |} /\
  slerp_task e t bm [(m, b)] = Ok b.
Proof.
  intros Hm Hs Ht. split; [|reflexivity].
  assert (Hr : forall x y, shp x = shp y -> rectify_embed_sizes e [x; y] = Ok [x; y]).
  { intros x y Hxy. pose proof (rectify_fit e [x; y]) as Hf. rewrite Hf. f_equal. cbn [map]. rewrite !(fit_same e [x; y] (shp y)); cbn; auto; intros u [<-|[<-|[]]]; auto. }
  unfold slerp_task. destruct Ht as [->| ->].
  - assert (Hd : dmem [(bm, a); (m, b)] bm = true) by (apply dmem_In; unfold dkeys; cbn; auto). rewrite Hd, eqb_refl. cbv iota. rewrite Hr by exact Hs. cbn [rbind].
    rewrite (proj2 (shape_eqb_true _ _) Hs). reflexivity.
  - assert (Hd : dmem [(m, b); (bm, a)] bm = true) by (apply dmem_In; unfold dkeys; cbn; auto). rewrite Hd, (proj2 (eqb_neq m bm) Hm). cbv iota. rewrite Hr by exact Hs. cbn [rbind].
    rewrite (proj2 (shape_eqb_true _ _) Hs). reflexivity.
Qed.

Example C32_nonvacuous : length [1; 0] = length [0; 1] /\ unit_vec [1; 0] /\ unit_vec [0; 1] /\ Rabs (dot [1; 0] [0; 1]) <= dot_threshold /\
  slerp (1 / 2) [1; 0] [0; 1] = [1 / sqrt 2; 1 / sqrt 2].
Proof.
  assert (U1 : unit_vec [1; 0]) by (unfold unit_vec, norm2; cbn; replace (_ + _) with 1 by ring; apply sqrt_1).
  assert (U2 : unit_vec [0; 1]) by (unfold unit_vec, norm2; cbn; replace (_ + _) with 1 by ring; apply sqrt_1).
  assert (Ed : dot [1; 0] [0; 1] = 0) by (unfold dot; cbn; ring).
  assert (Hd : Rabs (dot [1; 0] [0; 1]) <= dot_threshold) by (rewrite Ed, Rabs_R0; unfold dot_threshold; lra).
  repeat (split; [assumption || reflexivity|]).
  unfold slerp. cbv zeta. rewrite !normalize_unit by auto. rewrite Ed, Rabs_R0. destruct (Rlt_dec dot_threshold 0); [unfold dot_threshold in *; lra|].
  rewrite acos_0, sin_PI2. replace (PI / 2 - PI / 2 * (1 / 2)) with (PI / 4) by field. replace (PI / 2 * (1 / 2)) with (PI / 4) by field. rewrite sin_PI4.
  cbn [map2]. f_equal; [field|f_equal; field]; apply sqrt2_neq_0.
Qed.

Print Assumptions C32_constant_speed.
Print Assumptions C32_colinear.
