(** C60: Multi-SLERP. *)
From Coq Require Import Reals Lra Lia Psatz Permutation.
From Verif.Base Require Import LinAlg Py PyFacts RList.
From Verif.TokenSurgeon Require Import PropsPca.
From Verif.Methods Require Import Model LinearProofs PropsLinear PropsSlerp PropsStock More PropsRam PropsNuslerp PropsFusion.
Local Open Scope string_scope.
Local Open Scope list_scope.
Local Open Scope R_scope.

(** ** Specification. [l]: weights and vectors *)
(** the weighted sum of the (nearly) normalised vectors, and the weighted mean of the norms *)
Definition sphere_mean (n : nat) (eps : R) (l : list (R * list R)) : list R :=
  map (fun i => rsum (map (fun p => fst p * (nth i (snd p) 0 / (norm2 (snd p) + eps))) l)) (seq 0 n).
Definition mean_length (l : list (R * list R)) : R := rsum (map (fun p => fst p * norm2 (snd p)) l).

(** ** Lemmas *)
Lemma dot_Sum a b n : length a = n -> length b = n -> dot a b = Sum n (fun i => nth i a 0 * nth i b 0).
Proof.
  intros La Lb. unfold dot, vmul. rewrite rsum_nth, map2_length, La, Lb, Nat.min_id. apply Sum_ext. intros i Hi. now rewrite (map2_nth Rmult a b i 0 0 0) by lia.
Qed.
Lemma comb_pairs n l : comb n (map fst l) (map snd l) = map (fun i => rsum (map (fun p => fst p * nth i (snd p) 0) l)) (seq 0 n).
Proof. unfold comb. apply map_ext. intros i. now rewrite map2_map. Qed.
Lemma comb_length n ws xs : length (comb n ws xs) = n.
Proof. unfold comb. now rewrite map_length, seq_length. Qed.
Lemma dot_comb n l v : length v = n -> (forall p, In p l -> length (snd p) = n) ->
  dot (comb n (map fst l) (map snd l)) v = rsum (map (fun p => fst p * dot (snd p) v) l).
Proof.
  intros Lv Hl. rewrite (dot_Sum _ _ n (comb_length _ _ _) Lv). rewrite comb_pairs.
  rewrite (rsum_ext _ (fun p => Sum n (fun i => fst p * nth i (snd p) 0 * nth i v 0))).
  - rewrite rsum_Sum. apply Sum_ext. intros i Hi. rewrite nth_map_seq by exact Hi. rewrite (Rmult_comm _ (nth i v 0)), <- rsum_mul. apply rsum_ext. intros; ring.
  - intros p Hp. rewrite (dot_Sum _ _ n (Hl p Hp) Lv), <- Sum_scal. apply Sum_ext. intros; ring.
Qed.
Lemma dot_scale_r a c b : dot a (vscale c b) = c * dot a b.
Proof. unfold dot, vmul, vscale. rewrite map2_map_r. revert b. induction a as [|x a IH]; intros [|y b]; cbn [map2]; rewrite ?rsum_cons; try (cbn; ring). rewrite IH. ring. Qed.
Lemma vscale_length c v : length (vscale c v) = length v.
Proof. unfold vscale. apply map_length. Qed.
Lemma nth_vscale c v i : nth i (vscale c v) 0 = c * nth i v 0.
Proof. unfold vscale. destruct (Nat.lt_ge_cases i (length v)) as [H|H]; [now rewrite (map_nth_in _ v i 0 0)|]. rewrite !nth_overflow by (rewrite ?map_length; exact H). ring. Qed.
Lemma norm2_sq v : norm2 v * norm2 v = dot v v.
Proof. rewrite norm2_dot. apply sqrt_sqrt. apply rsum_nonneg. intros x Hx. unfold vmul in Hx. rewrite map2_diag in Hx. apply in_map_iff in Hx as (y & <- & _). apply Rle_0_sqr. Qed.

Lemma flat_value n l eps : 0 < eps -> (forall p, In p l -> length (snd p) = n) -> eps <= norm2 (sphere_mean n eps l) ->
  multislerp_flat n (map snd l) (map fst l) eps = Ok (vscale (mean_length l * cos eps / norm2 (sphere_mean n eps l)) (sphere_mean n eps l)).
Proof.
  intros He Hl Hm. unfold multislerp_flat.
  assert (Hex : existsb (fun m => if Req_EM_T (m + eps) 0 then true else false) (map norm2 (map snd l)) = false).
  { apply not_true_is_false. intros H. apply existsb_exists in H as (m & Hin & Hz). apply in_map_iff in Hin as (x & <- & _). pose proof (norm2_nonneg x). destruct (Req_EM_T (norm2 x + eps) 0); [lra|discriminate]. }
  rewrite Hex. set (lu := map (fun p => (fst p, vscale (/ (norm2 (snd p) + eps)) (snd p))) l).
  assert (Eu : map (fun x => vscale (/ (norm2 x + eps)) x) (map snd l) = map snd lu) by (unfold lu; rewrite !map_map; reflexivity).
  assert (Ew : map fst l = map fst lu) by (unfold lu; rewrite map_map; reflexivity).
  assert (Hlu : forall p, In p lu -> length (snd p) = n) by (intros p Hp; unfold lu in Hp; apply in_map_iff in Hp as (q & <- & Hq); cbn; rewrite vscale_length; auto).
  assert (Em : comb n (map fst lu) (map snd lu) = sphere_mean n eps l).
  { rewrite comb_pairs. unfold sphere_mean. apply map_ext. intros i. unfold lu. rewrite map_map. apply rsum_ext. intros p _. cbn [fst snd]. rewrite nth_vscale. unfold Rdiv. ring. }
  cbv zeta. rewrite Eu, Ew, Em. set (m := sphere_mean n eps l) in *. assert (Lm : length m = n) by (unfold m, sphere_mean; now rewrite map_length, seq_length).
  destruct (Rlt_dec (norm2 m) eps); [lra|]. destruct (Req_EM_T (norm2 m) 0); [lra|]. set (u := vscale (/ norm2 m) m).
  assert (Lu : length u = n) by (unfold u; rewrite vscale_length; exact Lm).
  assert (Ht : comb n (map fst lu) (map (fun x => vsub x (vscale (dot x u) u)) (map snd lu)) = repeat 0 n).
  { apply nth_ext_R; [rewrite comb_length, repeat_length; reflexivity|]. rewrite comb_length. intros i Hi. rewrite nth_repeat. unfold comb. rewrite nth_map_seq by exact Hi. rewrite map_map, map2_map.
    transitivity (rsum (map (fun p => fst p * nth i (snd p) 0) lu) - rsum (map (fun p => fst p * dot (snd p) u) lu) * nth i u 0).
    - transitivity (rsum (map (fun p => fst p * nth i (snd p) 0 + - nth i u 0 * (fst p * dot (snd p) u)) lu)).
      + apply rsum_ext. intros p Hp. unfold vsub. rewrite (map2_nth Rminus _ _ i 0 0 0) by (rewrite ?vscale_length, ?Lu, ?(Hlu p Hp); exact Hi). rewrite nth_vscale. ring.
      + rewrite rsum_plus, (rsum_mul (- nth i u 0) (fun p => fst p * dot (snd p) u)). ring.
    - rewrite <- (dot_comb n lu u Lu Hlu). rewrite Em. unfold u at 1. rewrite dot_scale_r, <- norm2_sq. unfold u. rewrite nth_vscale.
      assert (Ei : rsum (map (fun p => fst p * nth i (snd p) 0) lu) = nth i m 0). { rewrite <- Em, comb_pairs. now rewrite nth_map_seq. }
      rewrite Ei. field. assumption. }
  rewrite Ht. assert (Hz : norm2 (repeat 0 n) = 0).
  { rewrite norm2_dot. replace (dot (repeat 0 n) (repeat 0 n)) with 0; [apply sqrt_0|]. rewrite (dot_Sum _ _ n) by apply repeat_length. symmetry. apply Sum_0. intros i Hi. rewrite nth_repeat. ring. }
  rewrite Hz, Rplus_0_l. destruct (Req_EM_T eps 0); [lra|]. f_equal.
  assert (Hn : rsum (map2 Rmult (map norm2 (map snd l)) (map fst lu)) = mean_length l).
  { unfold lu. rewrite map_map. rewrite (map_map _ fst). rewrite map2_map. unfold mean_length. apply rsum_ext. intros p _. cbn [fst]. ring. }
  rewrite Hn. apply nth_ext_R.
  - rewrite !vscale_length. unfold vadd. rewrite map2_length, !vscale_length, Lu, repeat_length, Lm. lia.
  - intros i Hi. rewrite vscale_length in Hi. unfold vadd in *. rewrite map2_length, !vscale_length, Lu, repeat_length, Nat.min_id in Hi. rewrite !nth_vscale. rewrite (map2_nth Rplus _ _ i 0 0 0) by (rewrite vscale_length, ?Lu, ?repeat_length; exact Hi).
    rewrite !nth_vscale, nth_repeat. unfold u. rewrite nth_vscale. field. split; assumption.
Qed.

(** ** The theorems *)
(** what is interpolated: the tensors or their differences to the base, with the weights *)
Definition inputs (ts : list tensor) (weights : list R) (base : option tensor) (normalize : bool) : list (R * list R) :=
  combine (if normalize then map (fun w => w / rsum weights) weights else weights)
          (map (fun t => match base with Some b => vsub (dat t) (dat b) | None => dat t end) ts).

Lemma combine_fst {A B} (l : list A) (m : list B) : length l = length m -> map fst (combine l m) = l.
Proof. revert m. induction l; intros [|] H; cbn in *; try lia; auto. f_equal. apply IHl. lia. Qed.
Lemma combine_snd {A B} (l : list A) (m : list B) : length l = length m -> map snd (combine l m) = m.
Proof. revert m. induction l; intros [|] H; cbn in *; try lia; auto. f_equal. apply IHl. lia. Qed.

Definition admissible (ts : list tensor) (weights : list R) (base : option tensor) (normalize : bool) (shape : list nat) (n : nat) : Prop :=
  (2 <= length ts)%nat /\ length weights = length ts /\ (normalize = true -> rsum weights <> 0) /\
  (forall t, In t ts -> shp t = shape /\ length (dat t) = n) /\ (forall b, base = Some b -> shp b = shape /\ length (dat b) = n).
Lemma multislerp_run ts weights base normalize eps shape n : admissible ts weights base normalize shape n ->
  multislerp ts weights base normalize eps =
  let! r := multislerp_flat n (map snd (inputs ts weights base normalize)) (map fst (inputs ts weights base normalize)) eps in
  Ok {| shp := shape; dat := match base with Some b => vadd r (dat b) | None => r end |}.
Proof.
  intros (H2 & Hw & Hz & Ht & Hb). destruct ts as [|t0 [|t1 ts]]; cbn in H2; try lia. set (l := t0 :: t1 :: ts) in *.
  assert (Lin : length (if normalize then map (fun w => w / rsum weights) weights else weights) = length (map (fun t => match base with Some b => vsub (dat t) (dat b) | None => dat t end) l)).
  { rewrite map_length, <- Hw. destruct normalize; [apply map_length|reflexivity]. }
  unfold inputs. rewrite combine_fst, combine_snd by exact Lin. unfold multislerp, l at 1. fold l.
  assert (Es : match base with Some b => shp b | None => shp t0 end = shape) by (destruct base as [b|]; [now apply Hb|apply Ht; now left]). rewrite Es.
  assert (Ef : forallb (fun t => shape_eqb (shp t) shape) l = true) by (apply forallb_forall; intros t Hin; apply shape_eqb_true; now apply Ht). rewrite Ef, Hw, Nat.eqb_refl. cbn [andb].
  assert (En : length (dat t0) = n) by (apply Ht; now left). rewrite En.
  destruct normalize; cbn [andb]; [|reflexivity]. destruct (Req_EM_T (rsum weights) 0); [exfalso; now apply Hz|reflexivity].
Qed.
Lemma inputs_length ts weights base normalize shape n : admissible ts weights base normalize shape n -> forall p, In p (inputs ts weights base normalize) -> length (snd p) = n.
Proof.
  intros (H2 & Hw & Hz & Ht & Hb) [w x] Hp. apply in_combine_r in Hp. apply in_map_iff in Hp as (t & <- & Hin). cbn [snd]. destruct (Ht t Hin) as [_ L]. destruct base as [b|]; [|exact L].
  unfold vsub. rewrite map2_length. destruct (Hb b eq_refl) as [_ L']. lia.
Qed.

(** The result is the weighted sum of the normalised tensors, scaled to the weighted mean of the norms times cos(eps): the
    tangent vectors always cancel, so the projection to the tangent space and back does nothing but turn by eps. *)
Theorem C60_value ts weights base normalize eps shape n : admissible ts weights base normalize shape n -> 0 < eps ->
  let l := inputs ts weights base normalize in let m := sphere_mean n eps l in eps <= norm2 m ->
  exists out, multislerp ts weights base normalize eps = Ok out /\ shp out = shape /\ length (dat out) = n /\
    forall i, (i < n)%nat -> nth i (dat out) 0 = match base with Some b => nth i (dat b) 0 | None => 0 end + mean_length l * cos eps * (nth i m 0 / norm2 m).
Proof.
  intros Ha He l m Hm. rewrite (multislerp_run _ _ _ _ eps _ _ Ha). fold l. rewrite (flat_value n l eps He (inputs_length _ _ _ _ _ _ Ha) Hm). fold m. cbn [rbind].
  eexists. split; [reflexivity|]. cbn [shp dat]. split; [reflexivity|]. assert (Lm : length m = n) by (unfold m, sphere_mean; now rewrite map_length, seq_length). destruct Ha as (_ & _ & _ & _ & Hb). destruct base as [b|].
  - destruct (Hb b eq_refl) as [_ Lb]. unfold vadd. split; [rewrite map2_length, vscale_length; lia|]. intros i Hi. rewrite (map2_nth Rplus _ _ i 0 0 0) by (rewrite ?vscale_length; lia). rewrite nth_vscale. unfold Rdiv. ring.
  - split; [rewrite vscale_length; exact Lm|]. intros i Hi. rewrite nth_vscale. unfold Rdiv. ring.
Qed.

(** The order of the models does not matter. *)
Lemma sphere_mean_perm n eps l l' : Permutation l l' -> sphere_mean n eps l = sphere_mean n eps l'.
Proof. intros Hp. unfold sphere_mean. apply map_ext. intros i. apply rsum_Permutation. now apply Permutation_map. Qed.
Theorem C60_order ts weights ts' weights' base normalize eps shape n :
  admissible ts weights base normalize shape n -> admissible ts' weights' base normalize shape n -> 0 < eps ->
  Permutation (combine weights ts) (combine weights' ts') -> eps <= norm2 (sphere_mean n eps (inputs ts weights base normalize)) ->
  multislerp ts weights base normalize eps = multislerp ts' weights' base normalize eps.
Proof.
  intros Ha Ha' He Hp Hm.
  assert (Hin : forall ts weights, length weights = length ts -> inputs ts weights base normalize =
    map (fun wt => ((if normalize then fst wt / rsum weights else fst wt), match base with Some b => vsub (dat (snd wt)) (dat b) | None => dat (snd wt) end)) (combine weights ts)).
  { intros ts0 w0 L. unfold inputs. set (s := rsum w0). clearbody s. destruct normalize.
    - clear -L. revert ts0 L. induction w0 as [|w w0 IH]; intros [|t ts0] L; cbn in *; try lia; auto. f_equal. apply IH. lia.
    - clear -L. revert ts0 L. induction w0 as [|w w0 IH]; intros [|t ts0] L; cbn in *; try lia; auto. f_equal. apply IH. lia. }
  assert (Hsum : rsum weights = rsum weights').
  { rewrite <- (combine_fst weights ts) by apply Ha. rewrite <- (combine_fst weights' ts') by apply Ha'. apply rsum_Permutation. now apply Permutation_map. }
  assert (Hpi : Permutation (inputs ts weights base normalize) (inputs ts' weights' base normalize)).
  { rewrite !Hin by (apply Ha || apply Ha'). rewrite <- Hsum. now apply Permutation_map. }
  assert (Hm' : eps <= norm2 (sphere_mean n eps (inputs ts' weights' base normalize))) by (rewrite <- (sphere_mean_perm n eps _ _ Hpi); exact Hm).
  rewrite (multislerp_run _ _ _ _ eps _ _ Ha), (multislerp_run _ _ _ _ eps _ _ Ha'). rewrite (flat_value n _ eps He (inputs_length _ _ _ _ _ _ Ha) Hm), (flat_value n _ eps He (inputs_length _ _ _ _ _ _ Ha') Hm').
  rewrite (sphere_mean_perm n eps _ _ Hpi). unfold mean_length. rewrite (rsum_Permutation _ _ (Permutation_map _ Hpi)). reflexivity.
Qed.

(** Copies of one model give that model, times cos(eps). *)
Theorem C60_same t weights eps out : (2 <= length weights)%nat -> rsum weights <> 0 -> 0 < eps -> eps * (norm2 (dat t) + eps) <= norm2 (dat t) ->
  multislerp (repeat t (length weights)) weights None true eps = Ok out -> out = {| shp := shp t; dat := vscale (cos eps) (dat t) |}.
Proof.
  intros H2 Hz He Hn E. set (k := length weights) in *. set (n := length (dat t)).
  assert (Ha : admissible (repeat t k) weights None true (shp t) n).
  { repeat split; try discriminate; try (rewrite repeat_length); auto; intros; apply repeat_spec in H; now subst. }
  set (l := inputs (repeat t k) weights None true) in *. set (x := dat t) in *. pose proof (norm2_nonneg x) as Hx.
  assert (Hl : l = map (fun w => (w / rsum weights, x)) weights).
  { unfold l, inputs, k. set (s := rsum weights). clearbody s. clear. induction weights as [|w ws IH]; cbn; [reflexivity|]. f_equal. exact IH. }
  assert (Hs1 : rsum (map (fun w => w / rsum weights) weights) = 1).
  { rewrite (rsum_ext _ (fun w => / rsum weights * w)) by (intros; unfold Rdiv; ring). rewrite (rsum_mul (/ rsum weights) (fun w => w)), map_id. field. exact Hz. }
  assert (Hmean : forall c, rsum (map (fun p => fst p * c) l) = c).
  { intros c. rewrite Hl, map_map. cbn [fst]. rewrite (rsum_ext _ (fun w => c * (w / rsum weights))) by (intros; ring). rewrite rsum_mul, Hs1. ring. }
  assert (Hm : sphere_mean n eps l = vscale (/ (norm2 x + eps)) x).
  { unfold sphere_mean. apply nth_ext_R; [rewrite map_length, seq_length, vscale_length; reflexivity|]. rewrite map_length, seq_length. intros i Hi. rewrite nth_map_seq by exact Hi. rewrite nth_vscale.
    rewrite (rsum_ext _ (fun p => fst p * (nth i x 0 / (norm2 x + eps)))); [rewrite Hmean; unfold Rdiv; ring|]. intros p Hp. rewrite Hl in Hp. apply in_map_iff in Hp as (w & <- & _). reflexivity. }
  assert (Hlen : mean_length l = norm2 x).
  { unfold mean_length. rewrite (rsum_ext _ (fun p => fst p * norm2 x)); [apply Hmean|]. intros p Hp. rewrite Hl in Hp. apply in_map_iff in Hp as (w & <- & _). reflexivity. }
  assert (Hnm : norm2 (sphere_mean n eps l) = norm2 x / (norm2 x + eps)).
  { rewrite Hm, norm2_scale, Rabs_pos_eq by (left; apply Rinv_0_lt_compat; lra). unfold Rdiv. ring. }
  assert (Hpos : 0 < norm2 x) by nra.
  destruct (C60_value _ _ _ _ eps _ _ Ha He) as (o & E' & S & L & V).
  { fold l. rewrite Hnm. apply Rmult_le_reg_r with (norm2 x + eps); [lra|]. unfold Rdiv. rewrite Rmult_assoc, Rinv_l by lra. lra. }
  assert (o = out) by congruence. subst o. destruct out as [so d]. cbn [shp dat] in *. subst so. f_equal. apply nth_ext_R; [rewrite vscale_length; exact L|]. intros i Hi. rewrite V by lia. fold l. rewrite Hlen, Hnm, Hm, !nth_vscale. field. split; lra.
Qed.

(** Not spherical interpolation: two orthogonal unit vectors with weights 1/3 and 2/3 give the direction (1, 2), not that
    of SLERP with t = 2/3, which is (1, sqrt 3). *)
Lemma sqrt_unit2 : norm2 [1; 0] = 1 /\ norm2 [0; 1] = 1.
Proof. split; unfold norm2; cbn; replace (_ + _) with 1 by ring; apply sqrt_1. Qed.
Theorem C60_slerp_refuted eps : 0 < eps <= / 10 ->
  exists out, multislerp [vec [1; 0]; vec [0; 1]] [1; 2] None true eps = Ok out /\
    nth 1 (dat out) 0 = 2 * nth 0 (dat out) 0 /\ nth 0 (dat out) 0 <> 0 /\
    nth 1 (slerp (2 / 3) [1; 0] [0; 1]) 0 = sqrt 3 * nth 0 (slerp (2 / 3) [1; 0] [0; 1]) 0.
Proof.
  intros He. destruct sqrt_unit2 as [N1 N2].
  assert (Ha : admissible [vec [1; 0]; vec [0; 1]] [1; 2] None true [2%nat] 2).
  { repeat split; try discriminate; cbn; try lia; try lra; destruct H as [<-|[<-|[]]]; reflexivity. }
  set (l := inputs [vec [1; 0]; vec [0; 1]] [1; 2] None true).
  assert (El : l = [(1 / 3, [1; 0]); (2 / 3, [0; 1])]) by (unfold l, inputs; cbn; repeat f_equal; lra).
  assert (Em : sphere_mean 2 eps l = vscale (/ (3 * (1 + eps))) [1; 2]).
  { rewrite El. unfold sphere_mean. cbn [seq map fst snd nth vscale]. rewrite N1, N2. unfold rsum. cbn [fold_right]. f_equal; [field; lra|]. f_equal. field. lra. }
  assert (N5 : norm2 [1; 2] = sqrt 5) by (unfold norm2; cbn; f_equal; ring). assert (H5 : 2 <= sqrt 5) by (rewrite <- (sqrt_square 2) by lra; apply sqrt_le_1; lra).
  assert (Hm : eps <= norm2 (sphere_mean 2 eps l)).
  { rewrite Em, norm2_scale, N5, Rabs_pos_eq by (left; apply Rinv_0_lt_compat; lra). apply Rmult_le_reg_l with (3 * (1 + eps)); [lra|]. rewrite <- Rmult_assoc, Rinv_r by lra. nra. }
  destruct (C60_value _ _ _ _ eps _ _ Ha ltac:(lra) Hm) as (out & E & _ & _ & V). exists out. split; [exact E|]. fold l in V. rewrite (V 0%nat), (V 1%nat) by lia.
  assert (Hml : mean_length l = 1) by (rewrite El; unfold mean_length; cbn [map fst snd]; rewrite N1, N2; cbn; lra).
  assert (Hc : 0 < cos eps) by (apply cos_gt_0; pose proof PI_RGT_0; pose proof PI2_1; lra).
  rewrite Hml, Em, !nth_vscale. cbn [nth]. set (N := norm2 _). assert (HN : 0 < N) by (unfold N; rewrite <- Em; lra). repeat split.
  - field. lra.
  - assert (Hp : 0 < 1 * cos eps * (/ (3 * (1 + eps)) * 1 / N)); [|lra]. apply Rmult_lt_0_compat; [lra|]. apply Rdiv_lt_0_compat; [|exact HN]. rewrite Rmult_1_r. apply Rinv_0_lt_compat. lra.
  - unfold slerp. cbv zeta. rewrite !normalize_unit by assumption. assert (Ed : dot [1; 0] [0; 1] = 0) by (unfold dot; cbn; ring). rewrite Ed, Rabs_R0. destruct (Rlt_dec dot_threshold 0); [unfold dot_threshold in *; lra|].
    rewrite acos_0, sin_PI2. cbn [map2 nth]. replace (PI / 2 * (2 / 3)) with (PI / 3) by field. replace (PI / 2 - PI / 3) with (PI / 6) by field. rewrite sin_PI3, sin_PI6. field.
Qed.

(** With eps = 0 the last step divides zero by zero. *)
Theorem C60_eps_refuted n l : (forall p, In p l -> length (snd p) = n) -> multislerp_flat n (map snd l) (map fst l) 0 = Err ZeroDivisionError.
Proof.
  intros Hl. unfold multislerp_flat. destruct (existsb _ _) eqn:Hex; [reflexivity|].
  assert (Hnz : forall p, In p l -> norm2 (snd p) <> 0).
  { intros p Hp Hz. rewrite <- not_true_iff_false in Hex. apply Hex. apply existsb_exists. exists (norm2 (snd p)). split; [rewrite map_map; apply in_map_iff; eauto|]. destruct (Req_EM_T _ 0); [reflexivity|lra]. }
  set (lu := map (fun p => (fst p, vscale (/ (norm2 (snd p) + 0)) (snd p))) l).
  assert (Eu : map (fun x => vscale (/ (norm2 x + 0)) x) (map snd l) = map snd lu) by (unfold lu; rewrite !map_map; reflexivity).
  assert (Ew : map fst l = map fst lu) by (unfold lu; rewrite map_map; reflexivity).
  assert (Hlu : forall p, In p lu -> length (snd p) = n) by (intros p Hp; unfold lu in Hp; apply in_map_iff in Hp as (q & <- & Hq); cbn; rewrite vscale_length; auto).
  cbv zeta. rewrite Eu, Ew. set (m := comb n (map fst lu) (map snd lu)). assert (Lm : length m = n) by apply comb_length.
  pose proof (norm2_nonneg m). destruct (Rlt_dec (norm2 m) 0); [lra|]. destruct (Req_EM_T (norm2 m) 0); [reflexivity|]. set (u := vscale (/ norm2 m) m).
  assert (Lu : length u = n) by (unfold u; rewrite vscale_length; exact Lm).
  assert (Ht : comb n (map fst lu) (map (fun x => vsub x (vscale (dot x u) u)) (map snd lu)) = repeat 0 n).
  { apply nth_ext_R; [rewrite comb_length, repeat_length; reflexivity|]. rewrite comb_length. intros i Hi. rewrite nth_repeat. unfold comb. rewrite nth_map_seq by exact Hi. rewrite map_map, map2_map.
    transitivity (rsum (map (fun p => fst p * nth i (snd p) 0) lu) - rsum (map (fun p => fst p * dot (snd p) u) lu) * nth i u 0).
    - transitivity (rsum (map (fun p => fst p * nth i (snd p) 0 + - nth i u 0 * (fst p * dot (snd p) u)) lu)).
      + apply rsum_ext. intros p Hp. unfold vsub. rewrite (map2_nth Rminus _ _ i 0 0 0) by (rewrite ?vscale_length, ?Lu, ?(Hlu p Hp); exact Hi). rewrite nth_vscale. ring.
      + rewrite rsum_plus, (rsum_mul (- nth i u 0) (fun p => fst p * dot (snd p) u)). ring.
    - rewrite <- (dot_comb n lu u Lu Hlu). fold m. unfold u at 1. rewrite dot_scale_r, <- norm2_sq. unfold u. rewrite nth_vscale.
      assert (Ei : rsum (map (fun p => fst p * nth i (snd p) 0) lu) = nth i m 0). { unfold m. rewrite comb_pairs. now rewrite nth_map_seq. }
      rewrite Ei. field. assumption. }
  rewrite Ht. assert (Hz : norm2 (repeat 0 n) = 0).
  { rewrite norm2_dot. replace (dot (repeat 0 n) (repeat 0 n)) with 0; [apply sqrt_0|]. rewrite (dot_Sum _ _ n) by apply repeat_length. symmetry. apply Sum_0. intros i Hi. rewrite nth_repeat. ring. }
  rewrite Hz. destruct (Req_EM_T (0 + 0) 0); [reflexivity|lra].
Qed.

Example C60_nonvacuous : exists eps, 0 < eps <= / 10 /\ admissible [vec [1; 0]; vec [0; 1]] [1; 2] None true [2%nat] 2 /\
  exists out, multislerp [vec [1; 0]; vec [0; 1]] [1; 2] None true eps = Ok out.
Proof.
  exists (/ 10 ^ 8). assert (He : 0 < / 10 ^ 8 <= / 10) by (split; [apply Rinv_0_lt_compat, pow_lt; lra|apply Rinv_le_contravar; lra]). split; [exact He|]. split.
  - repeat split; try discriminate; cbn; try lia; try lra; destruct H as [<-|[<-|[]]]; reflexivity.
  - destruct (C60_slerp_refuted _ He) as (out & E & _). eauto.
Qed.

Print Assumptions C60_value.
Print Assumptions C60_order.
