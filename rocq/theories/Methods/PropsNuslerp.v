(** C59: NuSLERP. *)
From Coq Require Import Reals Lra Lia Psatz Permutation.
From Verif.Base Require Import Py PyFacts RList.
From Verif.Methods Require Import Model LinearProofs PropsLinear PropsSlerp PropsStock More PropsRam.
Local Open Scope string_scope.
Local Open Scope list_scope.
Local Open Scope R_scope.

Definition nu_cos (a b : list R) : R :=
  clamp (-1) 1 (dot (map (fun x => x / Rmax (norm2 a) (/ 10 ^ 7)) a) (map (fun x => x / Rmax (norm2 b) (/ 10 ^ 7)) b)).
Lemma nuslerp_vec_eq t a b : nuslerp_vec t a b =
  let theta := acos (nu_cos a b) in
  if Rlt_dec (Rabs (sin theta)) (/ 10 ^ 8) then lerp t a b
  else map2 (fun x y => (sin ((1 - t) * theta) * x + sin (t * theta) * y) / sin theta) a b.
Proof. reflexivity. Qed.
Lemma nu_cos_comm a b : nu_cos a b = nu_cos b a.
Proof. unfold nu_cos. now rewrite dot_comm. Qed.
Lemma nuslerp_vec_length t a b : length (nuslerp_vec t a b) = Nat.min (length a) (length b).
Proof. rewrite nuslerp_vec_eq. cbv zeta. destruct (Rlt_dec _ _); unfold lerp; apply map2_length. Qed.
Lemma abs_le x y : Rabs x <= y -> - y <= x <= y.
Proof. unfold Rabs. destruct (Rcase_abs x); lra. Qed.
Lemma e8_pos : 0 < / 10 ^ 8. Proof. apply Rinv_0_lt_compat, pow_lt. lra. Qed.
Lemma e7_pos : 0 < / 10 ^ 7. Proof. apply Rinv_0_lt_compat, pow_lt. lra. Qed.

(** The endpoints are reproduced exactly. *)
Theorem C59_endpoints a b : length a = length b -> nuslerp_vec 0 a b = a /\ nuslerp_vec 1 a b = b.
Proof.
  intros L. pose proof e8_pos. rewrite !nuslerp_vec_eq. cbv zeta. set (th := acos (nu_cos a b)). destruct (Rlt_dec (Rabs (sin th)) (/ 10 ^ 8)) as [|Hs].
  - unfold lerp. split; [apply map2_left; [exact L|intros; ring]|]. rewrite map2_swap. apply map2_left; [auto|intros; ring].
  - assert (Hn : sin th <> 0) by (intros E; rewrite E, Rabs_R0 in Hs; lra). split.
    + apply map2_left; [exact L|]. intros x y. rewrite Rmult_0_l, sin_0, Rminus_0_r, Rmult_1_l. field. exact Hn.
    + rewrite map2_swap. apply map2_left; [auto|]. intros y x. replace ((1 - 1) * th) with 0 by ring. rewrite Rmult_1_l, sin_0. field. exact Hn.
Qed.
(** The other way round, the same curve. *)
Theorem C59_symmetric t a b : nuslerp_vec t a b = nuslerp_vec (1 - t) b a.
Proof.
  rewrite !nuslerp_vec_eq. cbv zeta. rewrite (nu_cos_comm b a). set (th := acos (nu_cos a b)). destruct (Rlt_dec _ _).
  - unfold lerp. rewrite (map2_swap _ b a). apply map2_ext. intros; ring.
  - rewrite (map2_swap _ b a). apply map2_ext. intros x y. replace (1 - (1 - t)) with t by ring. unfold Rdiv. ring.
Qed.
Lemma unit_map v : unit_vec v -> map (fun x => x / Rmax (norm2 v) (/ 10 ^ 7)) v = v.
Proof.
  intros U. rewrite U. assert (Hm : Rmax 1 (/ 10 ^ 7) = 1). { apply Rmax_left. rewrite <- Rinv_1. apply Rinv_le_contravar; [lra|]. apply pow_R1_Rle. lra. }
  rewrite Hm. rewrite <- (map_id v) at 2. apply map_ext. intros. field.
Qed.
(** Unit vectors: every point is a unit vector, and the curve turns at constant speed. *)
Theorem C59_constant_speed t u a b : length a = length b -> unit_vec a -> unit_vec b -> Rabs (dot a b) <= 1 -> / 10 ^ 8 <= sin (acos (dot a b)) ->
  dot (nuslerp_vec t a b) (nuslerp_vec u a b) = cos ((t - u) * acos (dot a b)).
Proof.
  intros L Ua Ub Hd Hs. pose proof e8_pos. assert (Hd' : -1 <= dot a b <= 1) by (apply abs_le in Hd; lra).
  assert (Ec : nu_cos a b = dot a b) by (unfold nu_cos; rewrite !unit_map by assumption; now apply clamp_id).
  rewrite !nuslerp_vec_eq. cbv zeta. rewrite Ec. set (th := acos (dot a b)) in *. destruct (Rlt_dec (Rabs (sin th)) (/ 10 ^ 8)) as [H'|_]; [rewrite Rabs_pos_eq in H' by lra; lra|].
  assert (Hc : cos th = dot a b) by (apply cos_acos; exact Hd'). set (s := sin th) in *.
  rewrite (map2_ext _ (fun x y => (sin ((1 - t) * th) / s) * x + (sin (t * th) / s) * y)) by (intros; field; lra).
  rewrite (map2_ext (fun x y => (sin ((1 - u) * th) * x + sin (u * th) * y) / s) (fun x y => (sin ((1 - u) * th) / s) * x + (sin (u * th) / s) * y)) by (intros; field; lra).
  rewrite dot_lin by exact L. rewrite !dot_self by assumption. rewrite <- Hc.
  replace ((1 - t) * th) with (th - t * th) by ring. replace ((1 - u) * th) with (th - u * th) by ring. replace ((t - u) * th) with (t * th - u * th) by ring. rewrite !sin_minus, cos_minus.
  fold s. pose proof (sin2_cos2 th) as Hp. unfold Rsqr in Hp. fold s in Hp. set (c := cos th) in *. set (st := sin (t * th)). set (ct := cos (t * th)). set (su := sin (u * th)). set (cu := cos (u * th)).
  assert (Hs0 : s <> 0) by lra. clearbody st ct su cu c. clear -Hp Hs0.
  apply Rmult_eq_reg_r with (s * s); [|nra]. field_simplify; [|exact Hs0]. replace (s ^ 2) with (1 - c ^ 2) by (cbn; lra). ring.
Qed.
Theorem C59_unit t a b : length a = length b -> unit_vec a -> unit_vec b -> Rabs (dot a b) <= 1 -> / 10 ^ 8 <= sin (acos (dot a b)) -> unit_vec (nuslerp_vec t a b).
Proof.
  intros L Ua Ub Hd Hs. unfold unit_vec. rewrite norm2_dot, (C59_constant_speed t t a b L Ua Ub Hd Hs). replace ((t - t) * acos (dot a b)) with 0 by ring. rewrite cos_0. apply sqrt_1.
Qed.

(** docs/merge_methods.md 82: NuSLERP replicates SLERP. It does where SLERP does not fall back to linear interpolation... *)
Lemma dot_scaled p q a b : length a = length b -> dot (map (fun x => x / p) a) (map (fun x => x / q) b) = dot a b / (p * q) \/ p * q = 0.
Proof.
  intros L. destruct (Req_dec (p * q) 0) as [|Hn]; [now right|left]. assert (p <> 0 /\ q <> 0) as [Hp Hq] by (split; intros ->; apply Hn; ring).
  unfold dot, vmul. revert b L. induction a as [|x a IH]; intros [|y b] L; cbn in L; try lia; cbn [map map2]; rewrite ?rsum_cons; [cbn; unfold Rdiv; ring|]. rewrite IH by lia. field. auto.
Qed.
Theorem C59_slerp t a b : length a = length b -> / 10 ^ 7 <= norm2 a -> / 10 ^ 7 <= norm2 b ->
  Rabs (dot a b) <= 9995 / 10000 * (norm2 a * norm2 b) -> nuslerp_vec t a b = slerp t a b.
Proof.
  intros L Ha Hb Hd. pose proof e8_pos as H8. pose proof e7_pos as H7. assert (H87 : / 10 ^ 8 < / 10 ^ 7) by (apply Rinv_lt_contravar; [apply Rmult_lt_0_compat; apply pow_lt; lra|apply Rlt_pow; [lra|lia]]).
  assert (Hpos : 0 < norm2 a * norm2 b) by (apply Rmult_lt_0_compat; lra). set (d := dot a b / (norm2 a * norm2 b)).
  assert (Hdd : Rabs d <= dot_threshold).
  { unfold d, Rdiv. rewrite Rabs_mult, (Rabs_pos_eq (/ _)) by (left; now apply Rinv_0_lt_compat). apply Rmult_le_reg_r with (norm2 a * norm2 b); [exact Hpos|]. rewrite Rmult_assoc, Rinv_l, Rmult_1_r by lra. exact Hd. }
  destruct (angle_sin d Hdd) as [Hsin Hcos].
  assert (E1 : nu_cos a b = d).
  { unfold nu_cos. rewrite !Rmax_left by lra. destruct (dot_scaled (norm2 a) (norm2 b) a b L) as [->|Hz]; [|lra]. fold d. apply clamp_id. unfold dot_threshold in Hdd. apply abs_le in Hdd. lra. }
  assert (E2 : dot (normalize_vec a (/ 10 ^ 8)) (normalize_vec b (/ 10 ^ 8)) = d).
  { unfold normalize_vec. destruct (Rlt_dec _ (norm2 a)); [|lra]. destruct (Rlt_dec _ (norm2 b)); [|lra]. destruct (dot_scaled (norm2 a) (norm2 b) a b L) as [->|Hz]; [reflexivity|lra]. }
  assert (Hbig : / 10 ^ 8 <= sin (acos d)).
  { assert (Hs2 : sin (acos d) * sin (acos d) = 1 - d * d) by (pose proof (sin2_cos2 (acos d)) as H; unfold Rsqr in H; rewrite Hcos in H; lra).
    assert (Hd2 : d * d <= 9995 / 10000 * (9995 / 10000)) by (unfold dot_threshold in Hdd; apply abs_le in Hdd; nra).
    destruct (Rle_lt_dec (/ 10 ^ 8) (sin (acos d))) as [|Hlt]; [assumption|exfalso]. assert (Hsmall : / 10 ^ 8 <= / 10 ^ 2) by (apply Rinv_le_contravar; [lra|apply Rle_pow; [lra|lia]]). nra. }
  rewrite nuslerp_vec_eq. unfold slerp. cbv zeta. rewrite E1, E2. destruct (Rlt_dec (Rabs (sin (acos d))) (/ 10 ^ 8)) as [H'|_]; [rewrite Rabs_pos_eq in H' by lra; lra|].
  destruct (Rlt_dec dot_threshold (Rabs d)); [lra|]. apply map2_ext. intros x y. replace ((1 - t) * acos d) with (acos d - acos d * t) by ring. replace (t * acos d) with (acos d * t) by ring. field. lra.
Qed.
(** ... and does not where SLERP does. *)
Theorem C59_slerp_refuted : exists a b, length a = length b /\ unit_vec a /\ unit_vec b /\ nuslerp_vec (1 / 2) a b <> slerp (1 / 2) a b.
Proof.
  set (a := [1; 0]). set (b := [9999 / 10001; 200 / 10001]). exists a, b.
  assert (Ua : unit_vec a) by (unfold unit_vec, norm2, a; cbn; replace (_ + _) with 1 by ring; apply sqrt_1).
  assert (Ub : unit_vec b) by (unfold unit_vec, norm2, b; cbn; replace (_ + _) with 1 by field; apply sqrt_1).
  assert (Ed : dot a b = 9999 / 10001) by (unfold dot, a, b; cbn; field).
  split; [reflexivity|]. split; [exact Ua|]. split; [exact Ub|]. intros E.
  assert (Hs : 0 <= sin (acos (dot a b))) by (apply sin_ge_0; apply acos_bound).
  assert (Hc : cos (acos (dot a b)) = 9999 / 10001) by (rewrite Ed; apply cos_acos; lra).
  assert (Hbig : / 10 ^ 8 <= sin (acos (dot a b))).
  { pose proof (sin2_cos2 (acos (dot a b))) as H2. unfold Rsqr in H2. rewrite Hc in H2. destruct (Rle_lt_dec (/ 10 ^ 8) (sin (acos (dot a b)))) as [|Hlt]; [assumption|exfalso].
    assert (Hsmall : / 10 ^ 8 <= / 10 ^ 3) by (apply Rinv_le_contravar; [lra|apply Rle_pow; [lra|lia]]). nra. }
  pose proof (C59_constant_speed (1 / 2) (1 / 2) a b eq_refl Ua Ub ltac:(rewrite Ed, Rabs_pos_eq; lra) Hbig) as Hn. rewrite E in Hn. replace ((1 / 2 - 1 / 2) * acos (dot a b)) with 0 in Hn by ring. rewrite cos_0 in Hn.
  unfold slerp in Hn. cbv zeta in Hn. rewrite !normalize_unit in Hn by assumption. rewrite Ed in Hn. unfold dot_threshold in Hn. rewrite Rabs_pos_eq in Hn by lra.
  destruct (Rlt_dec (9995 / 10000) (9999 / 10001)) as [_|n]; [|lra]. unfold lerp, dot, a, b in Hn. cbn in Hn. lra.
Qed.

(** ** Row-wise and column-wise *)
(** nuslerp_flatten off: the rows of the matrix are interpolated one by one ... *)
Theorem C59_rows t r c v0 v1 d : length v0 = (r * c)%nat -> length v1 = (r * c)%nat -> nuslerp t [r; c] false false v0 v1 = Ok d ->
  length d = (r * c)%nat /\ forall i, (i < r)%nat -> firstn c (skipn (i * c) d) = nuslerp_vec t (firstn c (skipn (i * c) v0)) (firstn c (skipn (i * c) v1)).
Proof.
  intros L0 L1 E. cbn [nuslerp] in E. assert (E' : concat (map2 (nuslerp_vec t) (chunk r c v0) (chunk r c v1)) = d) by congruence. clear E. subst d.
  set (rows := map2 (nuslerp_vec t) (chunk r c v0) (chunk r c v1)).
  assert (Lr : length rows = r) by (unfold rows; rewrite map2_length, !chunk_length; lia).
  assert (Hr : forall i, (i < r)%nat -> nth i rows [] = nuslerp_vec t (firstn c (skipn (i * c) v0)) (firstn c (skipn (i * c) v1))).
  { intros i Hi. unfold rows. rewrite (map2_nth _ _ _ i [] [] []) by (rewrite chunk_length; exact Hi). now rewrite !chunk_nth. }
  assert (Hl : forall x, In x rows -> length x = c).
  { intros x Hx. apply (In_nth _ _ []) in Hx as (i & Hi & <-). rewrite Lr in Hi. rewrite (Hr i Hi), nuslerp_vec_length, !firstn_length, !skipn_length. nia. }
  assert (Hcl : length (concat rows) = (r * c)%nat).
  { rewrite <- Lr. clearbody rows. clear -Hl. induction rows as [|x rows IH]; [reflexivity|]. cbn [concat length]. rewrite app_length, IH by (intros; apply Hl; now right). rewrite (Hl x) by now left. reflexivity. }
  split; [exact Hcl|]. intros i Hi. rewrite <- (Hr i Hi). clearbody rows. clear -Hl Hi Lr. revert i r Hi Lr. induction rows as [|x rows IH]; intros i r Hi Lr; [cbn in Lr; lia|]. cbn [concat]. assert (Lx : length x = c) by (apply Hl; now left).
  destruct i as [|i].
  - cbn [Nat.mul skipn nth]. rewrite firstn_app, <- Lx, firstn_all, Nat.sub_diag. cbn. apply app_nil_r.
  - cbn [nth]. rewrite skipn_app. rewrite (skipn_all2 x) by nia. cbn [app]. replace (S i * c - length x)%nat with (i * c)%nat by nia. apply (IH (fun z Hz => Hl z (or_intror Hz)) i (length rows)); [cbn in Lr; lia|reflexivity].
Qed.
(** ... and with nuslerp_row_wise the columns are, the opposite of what docs/merge_methods.md 91 says. *)
Theorem C59_row_wise_refuted t r c v0 v1 d : length v0 = (r * c)%nat -> length v1 = (r * c)%nat -> nuslerp t [r; c] true false v0 v1 = Ok d ->
  forall j, (j < c)%nat -> map (fun i => nth (i * c + j) d 0) (seq 0 r) =
    nuslerp_vec t (map (fun i => nth (i * c + j) v0 0) (seq 0 r)) (map (fun i => nth (i * c + j) v1 0) (seq 0 r)).
Proof.
  intros L0 L1 E j Hj. cbn [nuslerp] in E. set (f := fun i => map (fun j => nth i (nuslerp_vec t (col_of c j r v0) (col_of c j r v1)) 0) (seq 0 c)) in E.
  assert (E' : flat_map f (seq 0 r) = d) by congruence. clear E. subst d. fold (col_of c j r v0). fold (col_of c j r v1). apply nth_ext_R.
  - rewrite nuslerp_vec_length. unfold col_of. rewrite !map_length, !seq_length. lia.
  - rewrite map_length, seq_length. intros i Hi. rewrite nth_map_seq by exact Hi. rewrite (flat_map_nth f (seq 0 r) c i j 0 0%nat).
    + rewrite seq_nth by exact Hi. unfold f. now rewrite nth_map_seq.
    + intros x _. unfold f. now rewrite map_length, seq_length.
    + now rewrite seq_length.
    + exact Hj.
Qed.

(** ** The merge step *)
Lemma rectify_same e ts s : (forall t, In t ts -> shp t = s) -> rectify_embed_sizes e ts = Ok ts.
Proof.
  intros H. rewrite rectify_fit. f_equal. transitivity (map (fun t => t) ts); [|apply map_id]. apply map_ext_in. intros t Ht. now apply (fit_same e ts s).
Qed.
(** Without a base model the two tensors are interpolated, with the fraction [w1 / (w0 + w1)], or 1/2 for weights that
    cancel; only the ratio of the weights matters. *)
Theorem C59_task e rw k0 k1 a b w0 w1 weights : k0 <> k1 -> shp a = shp b -> dget weights k0 = Some w0 -> dget weights k1 = Some w1 ->
  exists t, nuslerp_task e rw true None [(k0, a); (k1, b)] weights = Ok {| shp := shp a; dat := nuslerp_vec t (dat a) (dat b) |} /\
    (/ 10 ^ 6 <= Rabs (w0 + w1) -> t * (w0 + w1) = w1) /\ (Rabs (w0 + w1) < / 10 ^ 6 -> t = 1 / 2).
Proof.
  intros Hk Hs H0 H1. exists (nuslerp_t w0 w1). split.
  - unfold nuslerp_task. cbn [rbind rmapM fst]. unfold dgetE. rewrite H0, H1. cbn [rbind]. rewrite (rectify_same e [a; b] (shp b)) by (intros t [<-|[<-|[]]]; auto). cbn [rbind].
    rewrite (proj2 (shape_eqb_true _ _) Hs). reflexivity.
  - unfold nuslerp_t. assert (He : 0 < / 10 ^ 6) by (apply Rinv_0_lt_compat, pow_lt; lra). destruct (Rlt_dec _ _); split; intros; try lra. field. intros E. rewrite E, Rabs_R0 in H. lra.
Qed.
(** With a base model, the differences to it are interpolated. The base must come as a third tensor. *)
Theorem C59_base e rw kb x k0 k1 a b w0 w1 weights tensors : NoDup [kb; k0; k1] -> shp a = shp x -> shp b = shp x -> dget weights k0 = Some w0 -> dget weights k1 = Some w1 ->
  In tensors [[(kb, x); (k0, a); (k1, b)]; [(k0, a); (kb, x); (k1, b)]; [(k0, a); (k1, b); (kb, x)]] -> / 10 ^ 6 <= Rabs (w0 + w1) ->
  nuslerp_task e rw true (Some kb) tensors weights =
    Ok {| shp := shp x; dat := vadd (dat x) (nuslerp_vec (w1 / (w0 + w1)) (vsub (dat a) (dat x)) (vsub (dat b) (dat x))) |} /\
  nuslerp_task e rw true (Some kb) [(k0, a); (k1, b)] weights = Err RuntimeError.
Proof.
  intros Hnd Ha Hb H0 H1 Ht Hw. split; [|reflexivity]. inversion Hnd as [|? ? N1 N2]; subst. inversion N2 as [|? ? N3 N4]; subst.
  assert (K0 : kb <> k0) by (intros ->; apply N1; now left). assert (K1 : kb <> k1) by (intros ->; apply N1; right; now left).
  assert (Hd : forall d : dict string tensor, dgetE d kb = Ok x -> ddel d kb = [(k0, a); (k1, b)] -> length d = 3%nat -> nuslerp_task e rw true (Some kb) d weights =
    Ok {| shp := shp x; dat := vadd (dat x) (nuslerp_vec (w1 / (w0 + w1)) (vsub (dat a) (dat x)) (vsub (dat b) (dat x))) |}).
  { intros d E1 E2 E3. unfold nuslerp_task. destruct d as [|[p1 q1] [|[p2 q2] d]]; try discriminate E3. set (dd := (p1, q1) :: (p2, q2) :: d) in *. rewrite E3. cbn [Nat.eqb]. rewrite E1. cbn [rbind]. rewrite E2. cbn [rmapM fst]. unfold dgetE. rewrite H0, H1. cbn [rbind].
    rewrite (rectify_same e [a; b; x] (shp x)) by (intros t [<-|[<-|[<-|[]]]]; auto). cbn [rbind]. rewrite (proj2 (shape_eqb_true _ _) Ha), (proj2 (shape_eqb_true _ _) Hb). cbn [andb nuslerp rbind]. unfold nuslerp_t. destruct (Rlt_dec _ _); [lra|reflexivity]. }
  pose proof (proj2 (eqb_neq kb k0) K0) as B0. pose proof (proj2 (eqb_neq kb k1) K1) as B1.
  destruct Ht as [<-|[<-|[<-|[]]]]; apply Hd; try reflexivity; unfold dgetE, ddel; cbn [dget filter fst]; rewrite ?B0, ?B1, ?eqb_refl; cbn [negb]; rewrite ?B0, ?B1, ?eqb_refl; cbn; rewrite ?B0, ?B1, ?eqb_refl; reflexivity.
Qed.

(** ** Examples *)
Example C59_nonvacuous : length [1; 0] = length [0; 1] /\ unit_vec [1; 0] /\ unit_vec [0; 1] /\ Rabs (dot [1; 0] [0; 1]) <= 1 /\ / 10 ^ 8 <= sin (acos (dot [1; 0] [0; 1])) /\
  nuslerp_task false false true None [("a", vec [1; 0]); ("b", vec [0; 1])] [("a", 3); ("b", 3)] = Ok (vec [1 / sqrt 2; 1 / sqrt 2]).
Proof.
  assert (U1 : unit_vec [1; 0]) by (unfold unit_vec, norm2; cbn; replace (_ + _) with 1 by ring; apply sqrt_1).
  assert (U2 : unit_vec [0; 1]) by (unfold unit_vec, norm2; cbn; replace (_ + _) with 1 by ring; apply sqrt_1).
  assert (Ed : dot [1; 0] [0; 1] = 0) by (unfold dot; cbn; ring).
  assert (H8 : / 10 ^ 8 <= 1) by (rewrite <- Rinv_1; apply Rinv_le_contravar; [lra|apply pow_R1_Rle; lra]).
  split; [reflexivity|]. split; [exact U1|]. split; [exact U2|]. rewrite Ed, acos_0, sin_PI2, Rabs_R0. split; [lra|]. split; [exact H8|].
  destruct (C59_task false false "a" "b" (vec [1; 0]) (vec [0; 1]) 3 3 [("a", 3); ("b", 3)]) as (t & -> & Ht & _); [discriminate|reflexivity|reflexivity|reflexivity|].
  assert (E : t = 1 / 2). { assert (/ 10 ^ 6 <= Rabs (3 + 3)); [|specialize (Ht H); lra]. rewrite Rabs_pos_eq by lra. assert (/ 10 ^ 6 <= 1) by (rewrite <- Rinv_1; apply Rinv_le_contravar; [lra|apply pow_R1_Rle; lra]). lra. }
  subst t. unfold vec. cbn [dat shp length]. do 2 f_equal. rewrite C59_slerp; [| reflexivity | | |].
  - apply C32_nonvacuous.
  - rewrite U1. rewrite <- Rinv_1. apply Rinv_le_contravar; [lra|apply pow_R1_Rle; lra].
  - rewrite U2. rewrite <- Rinv_1. apply Rinv_le_contravar; [lra|apply pow_R1_Rle; lra].
  - rewrite Ed, Rabs_R0, U1, U2. lra.
Qed.

Print Assumptions C59_constant_speed.
Print Assumptions C59_rows.
