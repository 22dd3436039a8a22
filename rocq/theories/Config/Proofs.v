From Coq Require Import Lia QArith Lqa Qround.
From Verif.Base Require Import Py PyFacts.
From Verif.Config Require Import Model Spec.
Local Open Scope Q_scope.

(** * Strings *)
Lemma prefix_app p s : String.prefix p s = true <-> exists b, s = (p ++ b)%string.
Proof.
  revert s; induction p as [|c p IH]; intros s; simpl.
  - split; [intros _; exists s; reflexivity|destruct s; reflexivity].
  - destruct s as [|d s]; [split; [discriminate|intros [b Hb]; discriminate]|].
    cbn [String.prefix]. destruct (Ascii.ascii_dec c d) as [->|Hn].
    + rewrite IH. split; intros [b Hb]; exists b; [rewrite Hb; reflexivity|injection Hb; auto].
    + split; [discriminate|intros [b Hb]; injection Hb; intros; congruence].
Qed.

Lemma infix_spec sub s : infix sub s = true <-> exists a b, s = (a ++ sub ++ b)%string.
Proof.
  induction s as [|c s IH]; cbn [infix].
  - rewrite orb_false_r, prefix_app. split.
    + intros [b Hb]. exists EmptyString, b. exact Hb.
    + intros (a & b & Hab). destruct a; [exists b; exact Hab|discriminate].
  - rewrite orb_true_iff, prefix_app, IH. split.
    + intros [[b Hb]|(a & b & Hab)]; [exists EmptyString, b; exact Hb|].
      exists (String c a), b. simpl. rewrite Hab at 1. reflexivity.
    + intros (a & b & Hab). destruct a as [|d a]; [left; exists b; exact Hab|].
      right. exists a, b. injection Hab; auto.
Qed.

Lemma filter_matches_spec name f : filter_matches name f = true <-> applies name f.
Proof.
  unfold filter_matches, applies. destruct f as [f|]; [|tauto].
  rewrite orb_true_iff, String.eqb_eq. split.
  - intros [->|Hm]; [tauto|]. right; right. destruct name as [s|]; [|discriminate].
    apply andb_true_iff in Hm. destruct Hm as [Hne Hi].
    apply infix_spec in Hi. destruct Hi as (a & b & Hab).
    exists s, f, a, b. repeat split; auto. intros ->. discriminate.
  - intros [Hd|[Hs|(s & sub & a & b & Hn & Hne & Hf & Hab)]]; [discriminate|left; congruence|].
    right. rewrite Hn. injection Hf as <-. apply andb_true_iff. split.
    + destruct s; [congruence|reflexivity].
    + apply infix_spec. eauto.
Qed.

(** * Interpolation *)
Lemma Qtrunc_floor q : 0 <= q -> Qtrunc q = Qfloor q.
Proof.
  intros Hq. destruct q as [n d]. unfold Qtrunc, Qfloor; simpl.
  apply Z.quot_div_nonneg; [|reflexivity]. unfold Qle in Hq; simpl in Hq. lia.
Qed.

Lemma py_index_nat {A} (l : list A) n : py_index l (Z.of_nat n) = nthE l n.
Proof. unfold py_index. destruct (Z.leb_spec 0 (Z.of_nat n)); [rewrite Nat2Z.id; reflexivity|lia]. Qed.

Lemma nthE_map_num (ps : list Q) i : nthE (map PNum ps) i = match nth_error ps i with Some q => Ok (PNum q) | None => Err IndexError end.
Proof. unfold nthE. rewrite nth_error_map. destruct (nth_error ps i); reflexivity. Qed.

Lemma forallb_num ps : forallb is_num (map PNum ps) = true.
Proof. induction ps; simpl; auto. Qed.

Lemma inject_nat_le a b : (a <= b)%Z -> inject_Z a <= inject_Z b.
Proof. rewrite <- Zle_Qle. auto. Qed.

(** the interpolated value, with its segment *)
Lemma eval_gradient name ps t :
  ps <> [] -> 0 <= t <= 1 ->
  exists v, evaluate_setting name t (PList (map PNum ps)) = Ok (Some (PNum v)) /\
    exists i a b, nth_error ps i = Some a /\
      nth_error ps (Nat.min (length ps - 1) (S i)) = Some b /\
      inject_Z (Z.of_nat i) <= abscissa (length ps) t /\
      abscissa (length ps) t < inject_Z (Z.of_nat (S i)) /\
      v == a + (abscissa (length ps) t - inject_Z (Z.of_nat i)) * (b - a).
Proof.
  intros Hne [Ht0 Ht1].
  assert (Hlen : (1 <= length ps)%nat) by (destruct ps; simpl; [congruence|lia]).
  set (x := abscissa (length ps) t).
  assert (Hx0 : 0 <= x).
  { unfold x, abscissa. apply Qmult_le_0_compat; [assumption|].
    change 0 with (inject_Z 0). apply inject_nat_le. lia. }
  assert (Hxn : x <= inject_Z (Z.of_nat (length ps) - 1)).
  { unfold x, abscissa. rewrite <- (Qmult_1_l (inject_Z (Z.of_nat (length ps) - 1))) at 2.
    apply Qmult_le_compat_r; [assumption|]. change 0 with (inject_Z 0). apply inject_nat_le. lia. }
  pose proof (Qfloor_le x) as Hfl. pose proof (Qlt_floor x) as Hfu.
  assert (Hf0 : (0 <= Qfloor x)%Z).
  { pose proof (Qfloor_resp_le _ _ Hx0) as Hr. change (Qfloor 0) with 0%Z in Hr. exact Hr. }
  assert (Hfn : (Qfloor x <= Z.of_nat (length ps) - 1)%Z).
  { pose proof (Qfloor_resp_le _ _ Hxn) as Hr. rewrite Qfloor_Z in Hr. exact Hr. }
  set (i := Z.to_nat (Qfloor x)).
  assert (Hi : Z.of_nat i = Qfloor x) by (unfold i; lia).
  assert (Hilt : (i < length ps)%nat) by lia.
  destruct (nth_error ps i) as [a|] eqn:Ha; [|apply nth_error_None in Ha; lia].
  destruct (nth_error ps (Nat.min (length ps - 1) (S i))) as [b|] eqn:Hb;
    [|apply nth_error_None in Hb; lia].
  assert (Hev : evaluate_setting name t (PList (map PNum ps)) =
                Ok (Some (PNum ((1 - (x - inject_Z (Z.of_nat i))) * a + (x - inject_Z (Z.of_nat i)) * b)))).
  { cbn [evaluate_setting]. rewrite forallb_num, map_length. fold (abscissa (length ps) t). fold x.
    rewrite Qtrunc_floor by assumption. rewrite <- Hi.
    replace (Z.min (Z.of_nat (length ps) - 1) (Z.of_nat i + 1)) with
      (Z.of_nat (Nat.min (length ps - 1) (S i))) by lia.
    rewrite !py_index_nat, !nthE_map_num, Ha, Hb. reflexivity. }
  eexists; split; [exact Hev|].
  exists i, a, b. rewrite Hi. split; [exact Ha|]. split; [exact Hb|]. split; [exact Hfl|].
  split; [replace (Z.of_nat (S i)) with (Qfloor x + 1)%Z by lia; exact Hfu|]. ring.
Qed.

(** on_segment determines the value *)
Lemma on_segment_unique ps x v w : on_segment ps x v -> on_segment ps x w -> v == w.
Proof.
  intros (i & a & b & Ha & Hb & [Hi1 Hi2] & Hv) (j & c & d & Hc & Hd & [Hj1 Hj2] & Hw).
  assert (Hz : (Z.of_nat i <= Z.of_nat (S j))%Z) by (rewrite Zle_Qle; lra).
  assert (Hz' : (Z.of_nat j <= Z.of_nat (S i))%Z) by (rewrite Zle_Qle; lra).
  assert (Hcase : i = j \/ i = S j \/ j = S i) by lia.
  assert (Hs : forall k, inject_Z (Z.of_nat (S k)) == inject_Z (Z.of_nat k) + 1).
  { intros k. rewrite Nat2Z.inj_succ, <- Z.add_1_r, inject_Z_plus. reflexivity. }
  destruct Hcase as [-> | [-> | ->]].
  - rewrite Ha in Hc; injection Hc as <-. rewrite Hb in Hd; injection Hd as <-. rewrite Hv, Hw. reflexivity.
  - rewrite Ha in Hd; injection Hd as <-.
    assert (Hx : x == inject_Z (Z.of_nat (S j))) by lra. rewrite Hv, Hw, Hx, (Hs j). ring.
  - rewrite Hb in Hc; injection Hc as <-.
    assert (Hx : x == inject_Z (Z.of_nat (S i))) by lra. rewrite Hv, Hw, Hx, (Hs i). ring.
Qed.

Lemma inject_S k : inject_Z (Z.of_nat (S k)) == inject_Z (Z.of_nat k) + 1.
Proof. rewrite Nat2Z.inj_succ, <- Z.add_1_r, inject_Z_plus. reflexivity. Qed.

Lemma eval_on_segment name ps t :
  (2 <= length ps)%nat -> 0 <= t <= 1 ->
  exists v, evaluate_setting name t (PList (map PNum ps)) = Ok (Some (PNum v)) /\
            on_segment ps (abscissa (length ps) t) v.
Proof.
  intros Hlen Ht.
  assert (Hne : ps <> []) by (destruct ps; simpl in *; [lia|discriminate]).
  destruct (eval_gradient name ps t Hne Ht) as (v & Hv & i & a & b & Ha & Hb & H1 & H2 & Hval).
  exists v. split; [assumption|].
  assert (Hi : (i < length ps)%nat) by (apply nth_error_Some; congruence).
  destruct (Nat.eq_dec i (length ps - 1)) as [He|He].
  - (* t = 1: use the previous segment *)
    destruct i as [|j]; [lia|].
    destruct (nth_error ps j) as [a'|] eqn:Ha'; [|apply nth_error_None in Ha'; lia].
    exists j, a', a. split; [assumption|]. split; [assumption|].
    assert (Hx : abscissa (length ps) t <= inject_Z (Z.of_nat (S j))).
    { rewrite He. unfold abscissa. replace (Z.of_nat (length ps - 1)) with (Z.of_nat (length ps) - 1)%Z by lia.
      rewrite <- (Qmult_1_l (inject_Z (Z.of_nat (length ps) - 1))) at 2.
      apply Qmult_le_compat_r; [tauto|]. change 0 with (inject_Z 0). apply inject_nat_le. lia. }
    rewrite (inject_S j) in *. split; [split; lra|]. rewrite Hval.
    assert (Hxe : abscissa (length ps) t == inject_Z (Z.of_nat j) + 1) by lra.
    rewrite Hxe. ring.
  - exists i, a, b. replace (Nat.min (length ps - 1) (S i)) with (S i) in Hb by lia.
    repeat split; try assumption. lra.
Qed.

Lemma eval_single name q t : 0 <= t <= 1 ->
  exists v, evaluate_setting name t (PList [PNum q]) = Ok (Some (PNum v)) /\ v == q.
Proof.
  intros Ht. destruct (eval_gradient name [q] t ltac:(discriminate) Ht) as (v & Hv & i & a & b & Ha & Hb & H1 & H2 & Hval).
  exists v; split; [exact Hv|]. destruct i; [|destruct i; discriminate]. injection Ha as <-. injection Hb as <-.
  rewrite Hval. ring.
Qed.

(** order facts about [on_segment] *)
Definition nondecreasing (ps : list Q) : Prop :=
  forall i a b, nth_error ps i = Some a -> nth_error ps (S i) = Some b -> a <= b.

Lemma nondecreasing_le ps : nondecreasing ps -> forall i j a b, (i <= j)%nat ->
  nth_error ps i = Some a -> nth_error ps j = Some b -> a <= b.
Proof.
  intros Hm i j. revert i. induction j as [|j IH]; intros i a b Hij Ha Hb.
  - assert (i = 0)%nat by lia. subst. rewrite Ha in Hb. injection Hb as ->. lra.
  - destruct (Nat.eq_dec i (S j)) as [->|Hn].
    + rewrite Ha in Hb. injection Hb as ->. lra.
    + destruct (nth_error ps j) as [c|] eqn:Hc.
      * specialize (IH i a c ltac:(lia) Ha eq_refl). specialize (Hm j c b Hc Hb). lra.
      * apply nth_error_None in Hc. assert (S j < length ps)%nat by (apply nth_error_Some; congruence). lia.
Qed.

Lemma segment_bounds a b u : 0 <= u <= 1 -> a <= b -> a <= a + u * (b - a) <= b.
Proof. intros [H1 H2] Hab. split; nra. Qed.

Lemma on_segment_mono ps x y v w : nondecreasing ps -> x <= y ->
  on_segment ps x v -> on_segment ps y w -> v <= w.
Proof.
  intros Hm Hxy (i & a & b & Ha & Hb & [Hi1 Hi2] & Hv) (j & c & d & Hc & Hd & [Hj1 Hj2] & Hw).
  pose proof (Hm _ _ _ Ha Hb) as Hab. pose proof (Hm _ _ _ Hc Hd) as Hcd.
  pose proof (inject_S i) as Hsi. pose proof (inject_S j) as Hsj.
  destruct (lt_eq_lt_dec i j) as [[Hlt| ->]|Hgt].
  - pose proof (nondecreasing_le ps Hm (S i) j b c ltac:(lia) Hb Hc) as Hbc.
    assert (Hvb : v <= b).
    { rewrite Hv. apply segment_bounds; [split; lra|assumption]. }
    assert (Hcw : c <= w).
    { rewrite Hw. apply segment_bounds; [split; lra|assumption]. }
    lra.
  - rewrite Ha in Hc; injection Hc as <-. rewrite Hb in Hd; injection Hd as <-.
    rewrite Hv, Hw. nra.
  - (* i > j: then x = y = S j and i = S j *)
    assert (Hz : (Z.of_nat i <= Z.of_nat (S j))%Z) by (rewrite Zle_Qle; lra).
    assert (i = S j) by lia. subst i. rewrite Ha in Hd. injection Hd as <-.
    assert (Hx : x == inject_Z (Z.of_nat (S j))) by lra.
    assert (Hy : y == inject_Z (Z.of_nat (S j))) by lra.
    rewrite Hv, Hw, Hx, Hy, Hsj. lra.
Qed.

(** Lipschitz bound *)
Definition step_bound (ps : list Q) (L : Q) : Prop :=
  forall i a b, nth_error ps i = Some a -> nth_error ps (S i) = Some b -> - L <= b - a <= L.

Lemma step_bound_far ps L : step_bound ps L -> forall i j a b, (i <= j)%nat ->
  nth_error ps i = Some a -> nth_error ps j = Some b ->
  - (L * (inject_Z (Z.of_nat j) - inject_Z (Z.of_nat i))) <= b - a <= L * (inject_Z (Z.of_nat j) - inject_Z (Z.of_nat i)).
Proof.
  intros Hm i j. revert i. induction j as [|j IH]; intros i a b Hij Ha Hb.
  - assert (i = 0)%nat by lia. subst. rewrite Ha in Hb. injection Hb as ->. lra.
  - destruct (Nat.eq_dec i (S j)) as [->|Hn].
    + rewrite Ha in Hb. injection Hb as ->. lra.
    + destruct (nth_error ps j) as [c|] eqn:Hc.
      * specialize (IH i a c ltac:(lia) Ha eq_refl). specialize (Hm j c b Hc Hb). rewrite inject_S. lra.
      * apply nth_error_None in Hc. assert (S j < length ps)%nat by (apply nth_error_Some; congruence). lia.
Qed.

Lemma on_segment_lipschitz_le ps L x y v w : step_bound ps L -> x <= y ->
  on_segment ps x v -> on_segment ps y w -> - (L * (y - x)) <= w - v <= L * (y - x).
Proof.
  intros Hm Hxy (i & a & b & Ha & Hb & [Hi1 Hi2] & Hv) (j & c & d & Hc & Hd & [Hj1 Hj2] & Hw).
  pose proof (Hm _ _ _ Ha Hb) as Hab. pose proof (Hm _ _ _ Hc Hd) as Hcd.
  pose proof (inject_S i) as Hsi. pose proof (inject_S j) as Hsj.
  destruct (lt_eq_lt_dec i j) as [[Hlt| ->]|Hgt].
  - pose proof (step_bound_far ps L Hm (S i) j b c ltac:(lia) Hb Hc) as Hbc.
    rewrite Hsi in *.
    set (I := inject_Z (Z.of_nat i)) in *. set (J := inject_Z (Z.of_nat j)) in *.
    assert (H1 : - (L * (I + 1 - x)) <= b - v <= L * (I + 1 - x)) by (split; rewrite Hv; nra).
    assert (H2 : - (L * (y - J)) <= w - c <= L * (y - J)) by (split; rewrite Hw; nra).
    split; lra.
  - rewrite Ha in Hc; injection Hc as <-. rewrite Hb in Hd; injection Hd as <-.
    split; rewrite Hv, Hw; nra.
  - assert (Hz : (Z.of_nat i <= Z.of_nat (S j))%Z) by (rewrite Zle_Qle; lra).
    assert (i = S j) by lia. subst i. rewrite Ha in Hd. injection Hd as <-.
    assert (Hx : x == inject_Z (Z.of_nat (S j))) by lra.
    assert (Hy : y == inject_Z (Z.of_nat (S j))) by lra.
    split; rewrite Hv, Hw, Hx, Hy, Hsj; lra.
Qed.

(** * Conditionals *)
Definition cond_loop (name : option string) (t : Q) :=
  fix go (l : list pval) : result (option pval) :=
    match l with
    | [] => Ok None
    | PCond v f :: rest => if filter_matches name f then evaluate_setting name t v else go rest
    | _ :: _ => Err AttributeError
    end.

Lemma eval_conds name t (cs : list (pval * option string)) : cs <> [] ->
  evaluate_setting name t (PList (map (fun c => PCond (fst c) (snd c)) cs)) =
  cond_loop name t (map (fun c => PCond (fst c) (snd c)) cs).
Proof. intros Hne. destruct cs as [|c cs]; [congruence|]. cbn. reflexivity. Qed.

Lemma cond_loop_spec name t cs :
  (exists pre v f post, cs = pre ++ (v, f) :: post /\ (forall c, In c pre -> ~ applies name (snd c)) /\
     applies name f /\ cond_loop name t (map (fun c => PCond (fst c) (snd c)) cs) = evaluate_setting name t v) \/
  ((forall c, In c cs -> ~ applies name (snd c)) /\
     cond_loop name t (map (fun c => PCond (fst c) (snd c)) cs) = Ok None).
Proof.
  induction cs as [|[v f] cs IH]; [right; split; [intros c []|reflexivity]|].
  cbn [map fst snd]. cbn [cond_loop]. destruct (filter_matches name f) eqn:Hf.
  - left. exists [], v, f, cs. repeat split; auto. apply filter_matches_spec; assumption.
  - assert (Hna : ~ applies name f) by (rewrite <- filter_matches_spec; congruence).
    destruct IH as [(pre & v' & f' & post & -> & Hpre & Hap & He)|[Hn He]].
    + left. exists ((v, f) :: pre), v', f', post. repeat split; auto.
      intros c [<-|Hc]; [assumption|apply Hpre; assumption].
    + right. split; [|assumption]. intros c [<-|Hc]; [assumption|apply Hn; assumption].
Qed.

(** * Parameter lookup *)
Section Lookup.
Context {M : Type} `{Eqb M}.

(** the first setting that is not unset decides *)
Fixpoint first_set (r : reader M) (ls : list pval) (k : result pval) : result pval :=
  match ls with
  | [] => k
  | s :: rest => match evaluate_setting (r_tensor r) (r_t r) s with
                 | Err e => Err e
                 | Ok (Some v) => Ok v
                 | Ok None => first_set r rest k
                 end
  end.

Lemma first_set_app r l1 l2 k : first_set r (l1 ++ l2) k = first_set r l1 (first_set r l2 k).
Proof.
  induction l1 as [|s l1 IH]; simpl; [reflexivity|].
  destruct (evaluate_setting (r_tensor r) (r_t r) s) as [[v|]|e]; [reflexivity|exact IH|reflexivity].
Qed.

Definition present (name : string) (p : params) : list pval :=
  match p with Some d => match dget d name with Some v => [v] | None => [] end | None => [] end.

Lemma try_level_first r name p k :
  try_level r (param_get p name) k = first_set r (present name p) k.
Proof.
  unfold try_level, param_get, present. destruct p as [d|]; [|reflexivity].
  destruct (dget d name) as [s|]; [|reflexivity]. simpl.
  destruct (evaluate_setting (r_tensor r) (r_t r) s) as [[v|]|e]; reflexivity.
Qed.

Lemma try_sources_first r name m srcs k :
  try_sources r name m srcs k =
  first_set r (flat_map (fun src => if eqb (is_model src) m then present name (is_params src) else []) srcs) k.
Proof.
  induction srcs as [|s srcs IH]; simpl; [reflexivity|].
  destruct (eqb (is_model s) m); [|exact IH].
  rewrite first_set_app, try_level_first, IH. reflexivity.
Qed.

Lemma parameter_first r name model default required :
  parameter r name model default required =
  first_set r (levels r name model) (if required then Err RuntimeError else Ok default).
Proof.
  unfold parameter, levels. fold (present name). 
  change (fun p : params => match p with Some d => match dget d name with Some v => [v] | None => [] end | None => [] end)
    with (present name).
  rewrite !try_level_first.
  destruct (r_slice r) as [s|].
  - rewrite !first_set_app. rewrite try_level_first.
    assert (Hm : match r_module r with
                 | Some m => try_level r (param_get (om_params m) name) (first_set r (present name (mc_params (r_config r))) (if required then Err RuntimeError else Ok default))
                 | None => first_set r (present name (mc_params (r_config r))) (if required then Err RuntimeError else Ok default) end =
               first_set r (match r_module r with Some m => present name (om_params m) | None => [] end)
                 (first_set r (present name (mc_params (r_config r))) (if required then Err RuntimeError else Ok default))).
    { destruct (r_module r); [apply try_level_first|reflexivity]. }
    rewrite Hm. destruct model as [m|]; [rewrite try_sources_first; reflexivity|reflexivity].
  - rewrite !first_set_app. destruct (r_module r); [rewrite try_level_first; reflexivity|reflexivity].
Qed.

Lemma first_set_hit r pre s post k :
  (forall p, In p pre -> evaluate_setting (r_tensor r) (r_t r) p = Ok None) ->
  evaluate_setting (r_tensor r) (r_t r) s <> Ok None ->
  first_set r (pre ++ s :: post) k =
  match evaluate_setting (r_tensor r) (r_t r) s with Ok (Some v) => Ok v | Ok None => k | Err e => Err e end.
Proof.
  intros Hpre Hs. induction pre as [|p pre IH]; simpl.
  - destruct (evaluate_setting (r_tensor r) (r_t r) s) as [[v|]|e]; [reflexivity|congruence|reflexivity].
  - rewrite (Hpre p) by (left; reflexivity). apply IH. intros q Hq. apply Hpre. right; assumption.
Qed.

Lemma first_set_miss r ls k :
  (forall p, In p ls -> evaluate_setting (r_tensor r) (r_t r) p = Ok None) -> first_set r ls k = k.
Proof.
  induction ls as [|p ls IH]; intros Hp; simpl; [reflexivity|].
  rewrite (Hp p) by (left; reflexivity). apply IH. intros q Hq. apply Hp. right; assumption.
Qed.
End Lookup.
