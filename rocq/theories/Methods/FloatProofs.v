(** Facts about rounding used by PropsFloat.v *)
From Coq Require Import ZArith Reals Lra Lia Permutation.
From Flocq Require Import Core.Core Relative Plus_error Sterbenz Double_rounding.
From Verif.Base Require Import Py PyFacts.
From Verif.Methods Require Import Float.
Local Open Scope list_scope.
Local Open Scope R_scope.

Definition good (f : fmt) : Prop := (0 < f_prec f)%Z.
Definition wider (f g : fmt) : Prop := (f_prec f <= f_prec g)%Z /\ (f_emin g <= f_emin f)%Z.
(** unit roundoff and the largest underflow error *)
Definition unit_of (f : fmt) : R := / 2 * bpow radix2 (- f_prec f + 1).
Definition tiny_of (f : fmt) : R := / 2 * bpow radix2 (f_emin f).

Lemma wider_refl f : wider f f. Proof. split; lia. Qed.
Lemma wider_good f g : good f -> wider f g -> good g. Proof. unfold good, wider. lia. Qed.
Lemma rnd_id f x : in_fmt f x -> rnd f x = x.
Proof. intros H. unfold rnd. apply round_generic; [apply valid_rnd_N|exact H]. Qed.
Lemma in_rnd f x : good f -> in_fmt f (rnd f x).
Proof. intros H. unfold in_fmt, rnd. apply generic_format_round; [apply FLT_exp_valid; exact H|apply valid_rnd_N]. Qed.
Lemma rnd_le f x y : good f -> x <= y -> rnd f x <= rnd f y.
Proof. intros H. unfold rnd. apply round_le; [apply FLT_exp_valid; exact H|apply valid_rnd_N]. Qed.
Lemma in_0 f : in_fmt f 0. Proof. apply generic_format_0. Qed.
Lemma rnd_0 f : rnd f 0 = 0. Proof. apply rnd_id, in_0. Qed.
Lemma in_opp f x : in_fmt f x -> in_fmt f (- x). Proof. apply generic_format_opp. Qed.
Lemma in_wider f g x : wider f g -> in_fmt f x -> in_fmt g x.
Proof. intros (Hp & He). apply generic_inclusion_mag. intros _. unfold FLT_exp. lia. Qed.
Lemma in_1 f : good f -> (f_emin f <= 0)%Z -> in_fmt f 1.
Proof. intros H He. unfold in_fmt. change 1 with (bpow radix2 0). apply generic_format_bpow. unfold FLT_exp, good in *. lia. Qed.
Lemma rnd_pos f x : good f -> 0 <= x -> 0 <= rnd f x.
Proof. intros H Hx. rewrite <- (rnd_0 f). now apply rnd_le. Qed.
Lemma op_id f g x : wider f g -> in_fmt f x -> op f g x = x.
Proof. intros Hw H. unfold op. rewrite (rnd_id g) by (eapply in_wider; eauto). now apply rnd_id. Qed.
Lemma in_op f g x : good f -> in_fmt f (op f g x). Proof. apply in_rnd. Qed.
Lemma op_le f g x y : good f -> good g -> x <= y -> op f g x <= op f g y.
Proof. intros Hf Hg H. unfold op. auto using rnd_le. Qed.
Lemma op_0 f g : op f g 0 = 0. Proof. unfold op. now rewrite !rnd_0. Qed.

Lemma unit_pos f : 0 <= unit_of f.
Proof. unfold unit_of. pose proof (bpow_gt_0 radix2 (- f_prec f + 1)). lra. Qed.
Lemma tiny_pos f : 0 <= tiny_of f.
Proof. unfold tiny_of. pose proof (bpow_gt_0 radix2 (f_emin f)). lra. Qed.
Lemma unit_wider f g : wider f g -> unit_of g <= unit_of f.
Proof. intros (Hp & _). unfold unit_of. apply Rmult_le_compat_l; [lra|]. apply bpow_le. lia. Qed.
Lemma tiny_wider f g : wider f g -> tiny_of g <= tiny_of f.
Proof. intros (_ & He). unfold tiny_of. apply Rmult_le_compat_l; [lra|]. now apply bpow_le. Qed.
Lemma rnd_error f x : good f -> Rabs (rnd f x - x) <= unit_of f * Rabs x + tiny_of f.
Proof.
  intros H. destruct (error_N_FLT radix2 (f_emin f) (f_prec f) H (fun x => negb (Z.even x)) x) as (eps & eta & He & Ht & _ & E).
  unfold rnd. rewrite E. replace (x * (1 + eps) + eta - x) with (eps * x + eta) by ring.
  eapply Rle_trans; [apply Rabs_triang|]. rewrite Rabs_mult. apply Rplus_le_compat; [|exact Ht]. apply Rmult_le_compat_r; [apply Rabs_pos|exact He].
Qed.
Lemma add_error f x y : good f -> in_fmt f x -> in_fmt f y -> Rabs (rnd f (x + y) - (x + y)) <= unit_of f * Rabs (x + y).
Proof.
  intros H Hx Hy. destruct (@FLT_plus_error_N_ex radix2 (f_emin f) (f_prec f) H (fun x => negb (Z.even x)) x y Hx Hy) as (eps & He & E).
  unfold rnd. rewrite E. replace ((x + y) * (1 + eps) - (x + y)) with (eps * (x + y)) by ring. rewrite Rabs_mult. apply Rmult_le_compat_r; [apply Rabs_pos|].
  eapply Rle_trans; [exact He|]. apply u_rod1pu_ro_le_u_ro.
Qed.
Lemma op_add_error f g x y : good f -> wider f g -> in_fmt f x -> in_fmt f y ->
  Rabs (op f g (x + y) - (x + y)) <= ((1 + unit_of f) * (1 + unit_of f) - 1) * Rabs (x + y) + tiny_of f.
Proof.
  intros Hf Hw Hx Hy. assert (Hg : good g) by (eapply wider_good; eauto). unfold op. pose proof (in_wider _ _ _ Hw Hx) as Hx'. pose proof (in_wider _ _ _ Hw Hy) as Hy'.
  pose proof (add_error g x y Hg Hx' Hy') as E1. pose proof (rnd_error f (rnd g (x + y)) Hf) as E2. pose proof (unit_wider _ _ Hw) as Hu. pose proof (unit_pos f) as Hp.
  set (s := x + y) in *. set (s' := rnd g s) in *. pose proof (Rabs_pos s) as Hs.
  assert (A1 : Rabs (s' - s) <= unit_of f * Rabs s) by (eapply Rle_trans; [exact E1|]; now apply Rmult_le_compat_r).
  assert (A2 : Rabs s' <= (1 + unit_of f) * Rabs s) by (replace s' with ((s' - s) + s) by ring; eapply Rle_trans; [apply Rabs_triang|]; lra).
  replace (rnd f s' - s) with ((rnd f s' - s') + (s' - s)) by ring. eapply Rle_trans; [apply Rabs_triang|].
  assert (unit_of f * Rabs s' <= unit_of f * ((1 + unit_of f) * Rabs s)) by (now apply Rmult_le_compat_l). lra.
Qed.
Lemma op_error f g x : good f -> wider f g ->
  Rabs (op f g x - x) <= ((1 + unit_of f) * (1 + unit_of f) - 1) * Rabs x + (2 + unit_of f) * tiny_of f.
Proof.
  intros Hf Hw. assert (Hg : good g) by (eapply wider_good; eauto). unfold op.
  pose proof (rnd_error g x Hg) as E1. pose proof (rnd_error f (rnd g x) Hf) as E2. pose proof (unit_wider _ _ Hw) as Hu. pose proof (unit_pos f) as Hp.
  pose proof (tiny_wider _ _ Hw) as Ht. pose proof (tiny_pos g) as Htg. set (s' := rnd g x) in *. pose proof (Rabs_pos x) as Hs.
  assert (A1 : Rabs (s' - x) <= unit_of f * Rabs x + tiny_of f).
  { eapply Rle_trans; [exact E1|]. assert (unit_of g * Rabs x <= unit_of f * Rabs x) by (now apply Rmult_le_compat_r). lra. }
  assert (A2 : Rabs s' <= (1 + unit_of f) * Rabs x + tiny_of f) by (replace s' with ((s' - x) + x) by ring; eapply Rle_trans; [apply Rabs_triang|]; lra).
  replace (rnd f s' - x) with ((rnd f s' - s') + (s' - x)) by ring. eapply Rle_trans; [apply Rabs_triang|].
  assert (unit_of f * Rabs s' <= unit_of f * ((1 + unit_of f) * Rabs x + tiny_of f)) by (now apply Rmult_le_compat_l). lra.
Qed.

(** the value of a rounding *)
Lemma rnd_value f x e n : (bpow radix2 (e - 1) <= Rabs x < bpow radix2 e) ->
  Rabs (x * bpow radix2 (- Z.max (e - f_prec f) (f_emin f)) - IZR n) < / 2 ->
  rnd f x = IZR n * bpow radix2 (Z.max (e - f_prec f) (f_emin f)).
Proof.
  intros He Hn. unfold rnd, round, scaled_mantissa, cexp. rewrite (mag_unique radix2 x e He). unfold FLT_exp. rewrite (Znearest_imp _ _ _ Hn). reflexivity.
Qed.

(** ** Sums *)
Lemma run_in f g tr xs : good g -> wider f g -> Forall (in_fmt f) xs -> in_fmt g (run_sum g tr xs).
Proof.
  intros Hg Hw Hx. destruct tr as [i|a b]; cbn [run_sum]; [|now apply in_rnd].
  eapply in_wider; [exact Hw|]. destruct (nth_in_or_default i xs 0) as [Hi | ->]; [|apply in_0]. rewrite Forall_forall in Hx. now apply Hx.
Qed.
Lemma run_le g tr xs ys : good g -> (forall i, nth i xs 0 <= nth i ys 0) -> run_sum g tr xs <= run_sum g tr ys.
Proof. intros Hg H. induction tr as [i|a IHa b IHb]; cbn [run_sum]; [apply H|]. apply rnd_le; [exact Hg|]. lra. Qed.
Lemma run_one_hot f g tr xs k : good g -> wider f g -> Forall (in_fmt f) xs -> NoDup (leaves tr) ->
  (forall i, i <> k -> nth i xs 0 = 0) -> run_sum g tr xs = if in_dec Nat.eq_dec k (leaves tr) then nth k xs 0 else 0.
Proof.
  intros Hg Hw Hx. revert k. induction tr as [i|a IHa b IHb]; intros k Hnd H0; cbn [run_sum leaves] in *.
  - destruct (in_dec Nat.eq_dec k [i]) as [[->|[]]|Hk]; [reflexivity|]. apply H0. intros ->. apply Hk. now left.
  - assert (Ha : NoDup (leaves a) /\ NoDup (leaves b) /\ forall x, In x (leaves a) -> ~ In x (leaves b)).
    { clear -Hnd. revert Hnd. generalize (leaves a), (leaves b). intros l1 l2. induction l1 as [|x l1 IH]; cbn; intros H; [repeat split; auto; [constructor]|].
      inversion H as [|? ? Hx Hr]; subst. destruct (IH Hr) as (H1 & H2 & H3). repeat split; auto.
      - constructor; [|exact H1]. intros Hi. apply Hx, in_or_app. now left.
      - intros y [<-|Hy]; [intros Hi; apply Hx, in_or_app; now right|now apply H3]. }
    destruct Ha as (Ha & Hb & Hab). rewrite (IHa k Ha H0), (IHb k Hb H0).
    assert (Hk : in_fmt g (nth k xs 0)).
    { eapply in_wider; [exact Hw|]. destruct (nth_in_or_default k xs 0) as [Hi | ->]; [|apply in_0]. rewrite Forall_forall in Hx. now apply Hx. }
    destruct (in_dec Nat.eq_dec k (leaves a)) as [Hka|Hka], (in_dec Nat.eq_dec k (leaves b)) as [Hkb|Hkb], (in_dec Nat.eq_dec k (leaves a ++ leaves b)) as [Hk'|Hk'];
      try (exfalso; apply (Hab k); assumption); try (exfalso; apply Hk', in_or_app; tauto); try (exfalso; apply in_app_or in Hk'; tauto).
    + rewrite Rplus_0_r. now apply rnd_id.
    + rewrite Rplus_0_l. now apply rnd_id.
    + rewrite Rplus_0_l. apply rnd_0.
Qed.

(** error of a sum *)
Fixpoint depth (t : sum_tree) : nat := match t with Leaf _ => 0%nat | Add a b => S (Nat.max (depth a) (depth b)) end.
Definition exact_sum (t : sum_tree) (xs : list R) : R := fold_right (fun i s => nth i xs 0 + s) 0 (leaves t).
Definition abs_sum (t : sum_tree) (xs : list R) : R := fold_right (fun i s => Rabs (nth i xs 0) + s) 0 (leaves t).
Lemma fold_app (h : nat -> R) l1 l2 : fold_right (fun i s => h i + s) 0 (l1 ++ l2) = fold_right (fun i s => h i + s) 0 l1 + fold_right (fun i s => h i + s) 0 l2.
Proof. induction l1 as [|i l1 IH]; cbn; [lra|]. rewrite IH. lra. Qed.
Lemma abs_exact t xs : Rabs (exact_sum t xs) <= abs_sum t xs.
Proof.
  unfold exact_sum, abs_sum. generalize (leaves t). intros l. induction l as [|i l IH]; cbn; [rewrite Rabs_R0; lra|].
  eapply Rle_trans; [apply Rabs_triang|]. lra.
Qed.
Lemma abs_sum_pos t xs : 0 <= abs_sum t xs.
Proof. eapply Rle_trans; [apply Rabs_pos|apply abs_exact]. Qed.
Lemma pow_mono u n m : 0 <= u -> (n <= m)%nat -> (1 + u) ^ n <= (1 + u) ^ m.
Proof. intros Hu H. apply Rle_pow; [lra|exact H]. Qed.
Lemma run_error f g tr xs : good g -> wider f g -> Forall (in_fmt f) xs ->
  Rabs (run_sum g tr xs - exact_sum tr xs) <= ((1 + unit_of g) ^ depth tr - 1) * abs_sum tr xs.
Proof.
  intros Hg Hw Hx. pose proof (unit_pos g) as Hu. induction tr as [i|a IHa b IHb].
  - cbn [run_sum depth pow]. unfold exact_sum, abs_sum. cbn [leaves fold_right]. rewrite !Rplus_0_r. replace (nth i xs 0 - nth i xs 0) with 0 by ring. rewrite Rabs_R0. lra.
  - cbn [run_sum depth]. unfold exact_sum, abs_sum. cbn [leaves]. rewrite (fold_app (fun i => nth i xs 0)), (fold_app (fun i => Rabs (nth i xs 0))).
    fold (exact_sum a xs) (exact_sum b xs) (abs_sum a xs) (abs_sum b xs).
    pose proof (add_error g _ _ Hg (run_in f g a xs Hg Hw Hx) (run_in f g b xs Hg Hw Hx)) as E.
    set (ra := run_sum g a xs) in *. set (rb := run_sum g b xs) in *. set (ea := exact_sum a xs) in *. set (eb := exact_sum b xs) in *.
    set (sa := abs_sum a xs) in *. set (sb := abs_sum b xs) in *. set (u := unit_of g) in *. set (d := Nat.max (depth a) (depth b)).
    assert (Ha : Rabs (ra - ea) <= ((1 + u) ^ d - 1) * sa).
    { eapply Rle_trans; [exact IHa|]. apply Rmult_le_compat_r; [apply abs_sum_pos|]. pose proof (pow_mono u (depth a) d Hu ltac:(unfold d; lia)). lra. }
    assert (Hb : Rabs (rb - eb) <= ((1 + u) ^ d - 1) * sb).
    { eapply Rle_trans; [exact IHb|]. apply Rmult_le_compat_r; [apply abs_sum_pos|]. pose proof (pow_mono u (depth b) d Hu ltac:(unfold d; lia)). lra. }
    assert (Hea : Rabs ea <= sa) by apply abs_exact. assert (Heb : Rabs eb <= sb) by apply abs_exact.
    set (P := (1 + u) ^ d) in *. assert (HE : Rabs ((ra + rb) - (ea + eb)) <= (P - 1) * (sa + sb)).
    { replace (ra + rb - (ea + eb)) with ((ra - ea) + (rb - eb)) by ring. eapply Rle_trans; [apply Rabs_triang|]. lra. }
    assert (HS : Rabs (ra + rb) <= P * (sa + sb)).
    { replace (ra + rb) with (((ra + rb) - (ea + eb)) + (ea + eb)) by ring. eapply Rle_trans; [apply Rabs_triang|]. pose proof (Rabs_triang ea eb). lra. }
    replace (rnd g (ra + rb) - (ea + eb)) with ((rnd g (ra + rb) - (ra + rb)) + ((ra + rb) - (ea + eb))) by ring.
    eapply Rle_trans; [apply Rabs_triang|]. assert (u * Rabs (ra + rb) <= u * (P * (sa + sb))) by (now apply Rmult_le_compat_l).
    cbn [pow]. fold P. lra.
Qed.
Lemma perm_sum (h : nat -> R) l l' : Permutation l l' -> fold_right (fun i s => h i + s) 0 l = fold_right (fun i s => h i + s) 0 l'.
Proof. induction 1; cbn; lra. Qed.
Lemma seq_sum (h : nat -> R) n k : fold_right (fun i s => h i + s) 0 (seq k n) = fold_right Rplus 0 (map h (seq k n)).
Proof. revert k. induction n as [|n IH]; intros k; cbn; [reflexivity|]. now rewrite IH. Qed.
