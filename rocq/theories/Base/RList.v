(** Lists of real numbers: sums, norms and elementwise operations. *)
From Coq Require Import Reals Lra Lia List Permutation Psatz.
Import ListNotations.
Local Open Scope R_scope.

Definition rsum (l : list R) : R := fold_right Rplus 0 l.
Fixpoint map2 {A B C} (f : A -> B -> C) (l : list A) (m : list B) : list C :=
  match l, m with x :: l, y :: m => f x y :: map2 f l m | _, _ => [] end.
Definition vadd := map2 Rplus.
Definition vsub := map2 Rminus.
Definition vmul := map2 Rmult.
Definition vscale (c : R) := map (Rmult c).
Definition dot (x y : list R) : R := rsum (vmul x y).
Definition norm1 (x : list R) : R := rsum (map Rabs x).
Definition norm2 (x : list R) : R := sqrt (rsum (map (fun v => v * v) x)).
Definition maxl (l : list R) : R := fold_right Rmax 0 l.
Definition normi (x : list R) : R := maxl (map Rabs x).

Lemma map2_length {A B C} (f : A -> B -> C) l m : length (map2 f l m) = Nat.min (length l) (length m).
Proof. revert m. induction l as [|x l IH]; intros [|y m]; cbn; auto. Qed.
Lemma map2_nth {A B C} (f : A -> B -> C) l m i a b c : (i < length l)%nat -> (i < length m)%nat ->
  nth i (map2 f l m) c = f (nth i l a) (nth i m b).
Proof.
  revert m i. induction l as [|x l IH]; intros [|y m] i Hl Hm; cbn in *; try lia.
  destruct i; [reflexivity|]. apply IH; lia.
Qed.
Lemma map_nth_in {A B} (f : A -> B) l i a b : (i < length l)%nat -> nth i (map f l) b = f (nth i l a).
Proof. intros H. rewrite nth_indep with (d' := f a) by (now rewrite map_length). apply map_nth. Qed.
Lemma nth_ext_R (l m : list R) : length l = length m -> (forall i, (i < length l)%nat -> nth i l 0 = nth i m 0) -> l = m.
Proof. intros. now apply nth_ext with (d := 0) (d' := 0). Qed.

Lemma rsum_cons x l : rsum (x :: l) = x + rsum l.
Proof. reflexivity. Qed.
Lemma rsum_app l m : rsum (l ++ m) = rsum l + rsum m.
Proof. induction l as [|x l IH]; cbn [app]; [cbn; lra|]. rewrite !rsum_cons, IH. lra. Qed.
Lemma rsum_Permutation l m : Permutation l m -> rsum l = rsum m.
Proof. induction 1; rewrite ?rsum_cons in *; lra. Qed.
Lemma rsum_scale c l : rsum (map (Rmult c) l) = c * rsum l.
Proof. induction l as [|x l IH]; cbn [map]; [cbn; lra|]. rewrite !rsum_cons, IH. lra. Qed.
Lemma rsum_nonneg l : (forall x, In x l -> 0 <= x) -> 0 <= rsum l.
Proof. induction l as [|x l IH]; intros H; cbn; [lra|]. assert (0 <= x) by (apply H; now left). assert (0 <= rsum l) by (apply IH; intros; apply H; now right). unfold rsum in *. lra. Qed.
Lemma rsum_le {A} (f g : A -> R) l : (forall x, In x l -> f x <= g x) -> rsum (map f l) <= rsum (map g l).
Proof.
  induction l as [|x l IH]; intros H; cbn; [lra|]. assert (f x <= g x) by (apply H; now left).
  assert (rsum (map f l) <= rsum (map g l)) by (apply IH; intros; apply H; now right). unfold rsum in *. lra.
Qed.
Lemma rsum_ext {A} (f g : A -> R) l : (forall x, In x l -> f x = g x) -> rsum (map f l) = rsum (map g l).
Proof. intros H. f_equal. now apply map_ext_in. Qed.
Lemma rsum_plus {A} (f g : A -> R) l : rsum (map (fun x => f x + g x) l) = rsum (map f l) + rsum (map g l).
Proof. induction l as [|x l IH]; cbn [map]; [cbn; lra|]. rewrite !rsum_cons, IH. lra. Qed.
Lemma rsum_const {A} (c : R) (l : list A) : rsum (map (fun _ => c) l) = INR (length l) * c.
Proof. induction l as [|x l IH]; [cbn; lra|]. change (map _ (x :: l)) with (c :: map (fun _ : A => c) l). rewrite rsum_cons, IH. cbn [length]. rewrite S_INR. lra. Qed.
Lemma rsum_mul {A} (c : R) (f : A -> R) l : rsum (map (fun x => c * f x) l) = c * rsum (map f l).
Proof. rewrite <- rsum_scale, map_map. reflexivity. Qed.

Lemma maxl_ge l x : In x l -> x <= maxl l.
Proof. induction l as [|y l IH]; intros []; cbn; [subst; apply Rmax_l|]. eapply Rle_trans; [now apply IH|apply Rmax_r]. Qed.
Lemma maxl_nonneg l : 0 <= maxl l.
Proof. induction l as [|y l IH]; cbn; [lra|]. eapply Rle_trans; [apply IH|apply Rmax_r]. Qed.
Lemma maxl_scale c l : 0 <= c -> maxl (map (Rmult c) l) = c * maxl l.
Proof.
  intros Hc. induction l as [|y l IH]; cbn; [lra|]. unfold maxl in *. rewrite IH. unfold Rmax. destruct (Rle_dec _ _), (Rle_dec _ _); try reflexivity; nra.
Qed.

Lemma norm1_scale c x : norm1 (vscale c x) = Rabs c * norm1 x.
Proof. unfold norm1, vscale. rewrite map_map, <- rsum_mul. apply rsum_ext. intros. apply Rabs_mult. Qed.
Lemma norm2_scale c x : norm2 (vscale c x) = Rabs c * norm2 x.
Proof.
  unfold norm2, vscale. rewrite map_map. rewrite (rsum_ext _ (fun v => (c * c) * (v * v))) by (intros; ring).
  rewrite rsum_mul, sqrt_mult; [|nra|apply rsum_nonneg; intros y Hy; apply in_map_iff in Hy as (v & <- & _); nra].
  f_equal. apply sqrt_Rsqr_abs.
Qed.
Lemma normi_scale c x : normi (vscale c x) = Rabs c * normi x.
Proof.
  unfold normi, vscale. rewrite map_map. rewrite <- maxl_scale by apply Rabs_pos. rewrite map_map. f_equal. apply map_ext. intros. apply Rabs_mult.
Qed.
Lemma norm1_nonneg x : 0 <= norm1 x.
Proof. apply rsum_nonneg. intros y Hy. apply in_map_iff in Hy as (v & <- & _). apply Rabs_pos. Qed.
Lemma norm2_nonneg x : 0 <= norm2 x.
Proof. apply sqrt_pos. Qed.
Lemma normi_nonneg x : 0 <= normi x.
Proof. apply maxl_nonneg. Qed.

(** sums over 0..n-1 *)
Lemma rsum_seq n : rsum (map INR (seq 0 n)) = INR n * (INR n - 1) / 2.
Proof.
  induction n as [|n IH]; [cbn; lra|]. rewrite seq_S, map_app, rsum_app, IH. cbn [map rsum fold_right].
  rewrite Nat.add_0_l, S_INR. lra.
Qed.
