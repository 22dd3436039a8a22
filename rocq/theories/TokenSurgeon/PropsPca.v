(** * C54: landmark PCA *)
From Coq Require Import Reals Lra.
From Verif.Base Require Import LinAlg RList Py PyFacts.
From Verif.TokenSurgeon Require Import Approx ApproxSpec.
Local Open Scope list_scope.
Local Open Scope R_scope.

(** the points of [b] are those of [a], moved by c *)
Definition shifted (n : nat) (c : row) (points_a points_b : list row) : Prop :=
  Forall2 (fun a b : row => forall j, (j < n)%nat -> b j = a j + c j) points_a points_b.
(** no direction is orthogonal to all centred points *)
Definition spanning (n : nat) (pts : list row) : Prop :=
  forall z : row, (forall p, In p (center (mean_row pts) pts) -> Sum n (fun j => p j * z j) = 0) -> forall j, (j < n)%nat -> z j = 0.

Lemma rsum_Sum {A} (l : list A) n (f : A -> nat -> R) : rsum (map (fun x => Sum n (f x)) l) = Sum n (fun j => rsum (map (fun x => f x j) l)).
Proof.
  induction l as [|x l IH]; cbn [map]; [symmetry; apply Sum_0; intros; reflexivity|]. rewrite rsum_cons, IH, <- Sum_plus. apply Sum_ext. intros. now rewrite rsum_cons.
Qed.
Lemma rsum_sq_zero {A} (f : A -> R) l : rsum (map (fun x => f x * f x) l) <= 0 -> forall x, In x l -> f x = 0.
Proof.
  induction l as [|y l IH]; cbn [map]; intros H x Hx; [destruct Hx|]. rewrite rsum_cons in H.
  assert (Hn : 0 <= rsum (map (fun x => f x * f x) l)) by (apply rsum_nonneg; intros v Hv; apply in_map_iff in Hv as (w & <- & _); nra).
  assert (f y * f y = 0) by nra. destruct Hx as [<-|Hx]; [now apply Rsqr_0_uniq|]. apply IH; [nra|exact Hx].
Qed.
Lemma means n c pa pb : shifted n c pa pb -> pa <> [] -> forall j, (j < n)%nat -> mean_row pb j = mean_row pa j + c j.
Proof.
  intros H Hn j Hj. unfold mean_row.
  assert (E : length pb = length pa /\ rsum (map (fun p : row => p j) pb) = rsum (map (fun p : row => p j) pa) + INR (length pa) * c j).
  { clear Hn. induction H as [|a b la lb Hab _ (IH1 & IH2)]; [split; [reflexivity|cbn; unfold rsum; cbn; lra]|].
    split; [cbn; now rewrite IH1|]. cbn [map]. rewrite !rsum_cons, IH2, (Hab j Hj). change (length (a :: la)) with (S (length la)). rewrite S_INR. ring. }
  destruct E as (-> & ->). field. apply not_0_INR. destruct pa; [congruence|discriminate].
Qed.

Section Match.
Variables (n : nat) (pa pb : list row).
Variable pca : nat -> list row -> nat -> (nat -> nat -> R).
Variable svd : nat -> (nat -> nat -> R) -> (nat -> nat -> R) * (nat -> nat -> R).
Variable sg : nat -> R.
Notation ca := (center (mean_row pa) pa).
Notation cb := (center (mean_row pb) pb).
Notation vb := (pca n cb n).
Notation va := (pca n ca n).
Hypothesis Hsg : forall j, (j < n)%nat -> sg j * sg j = 1.
Hypothesis Hproj : Forall2 (fun a b : row => forall j, (j < n)%nat -> rmul n a va j = sg j * rmul n b vb j) ca cb.
Hypothesis Hvb : orthogonal n vb.
Hypothesis Hspan : spanning n pb.
Hypothesis Hsvd : is_svd svd n (procrustes pca n n pa pb).
Notation u := (fst (svd n (procrustes pca n n pa pb))).
Notation v := (snd (svd n (procrustes pca n n pa pb))).

Definition gram i j := rsum (map (fun p : row => rmul n p vb i * rmul n p vb j) cb).
Lemma proc i j : (j < n)%nat -> procrustes pca n n pa pb i j = sg j * gram i j.
Proof.
  intros Hj. unfold procrustes. cbv zeta. rewrite Nat.min_id. unfold gram.
  pose proof Hproj as H. set (wa := va) in *. set (wb := vb) in *. clearbody wa wb. clear -H Hj.
  induction H as [|a b la lb Hab _ IH]; cbn [map map2]; [unfold rsum; cbn; ring|]. rewrite !rsum_cons, IH, Hab by exact Hj. ring.
Qed.
Lemma gram_sym i j : gram i j = gram j i.
Proof. apply rsum_ext. intros. ring. Qed.

Lemma aligned l i : (l < n)%nat -> (i < n)%nat -> u i l = sg i * v i l.
Proof.
  destruct Hsvd as (Hu & Hv & s & Hs & Hm). revert l i.
  assert (Hg : forall i j, (i < n)%nat -> (j < n)%nat -> gram i j = Sum n (fun l => u i l * s l * (sg j * v j l))).
  { intros i j Hi Hj. specialize (Hm i j Hi Hj). rewrite proc in Hm by exact Hj.
    rewrite (Sum_ext n _ (fun l => sg j * (u i l * s l * v j l))) by (intros; ring). rewrite Sum_scal, <- Hm, <- Rmult_assoc, Hsg by exact Hj. ring. }
  assert (Hgv : forall l i, (l < n)%nat -> (i < n)%nat -> Sum n (fun j => gram i j * (sg j * v j l)) = s l * u i l).
  { intros l i Hl Hi. rewrite (Sum_ext n _ (fun j => Sum n (fun k => u i k * s k * (v j k * v j l)))).
    - rewrite Sum_swap, (Sum_single n l); [|exact Hl|].
      + rewrite Sum_scal. rewrite (proj1 Hv l l Hl Hl), Nat.eqb_refl. ring.
      + intros k Hk Hkl. rewrite Sum_scal, (proj1 Hv k l Hk Hl). destruct (Nat.eqb_spec k l); [congruence|ring].
    - intros j Hj. rewrite Hg by assumption. rewrite <- Sum_scal_r. apply Sum_ext. intros k _.
      replace (u i k * s k * (sg j * v j k) * (sg j * v j l)) with ((sg j * sg j) * (u i k * s k * (v j k * v j l))) by ring. rewrite Hsg by exact Hj. ring. }
  assert (Hgu : forall l i, (l < n)%nat -> (i < n)%nat -> Sum n (fun j => gram i j * u j l) = s l * (sg i * v i l)).
  { intros l i Hl Hi. rewrite (Sum_ext n _ (fun j => Sum n (fun k => s k * (sg i * v i k) * (u j k * u j l)))).
    - rewrite Sum_swap, (Sum_single n l); [|exact Hl|].
      + rewrite Sum_scal. rewrite (proj1 Hu l l Hl Hl), Nat.eqb_refl. ring.
      + intros k Hk Hkl. rewrite Sum_scal, (proj1 Hu k l Hk Hl). destruct (Nat.eqb_spec k l); [congruence|ring].
    - intros j Hj. rewrite gram_sym, Hg by assumption. rewrite <- Sum_scal_r. apply Sum_ext. intros k _. ring. }
  intros l i Hl Hi. set (z := fun i => u i l - sg i * v i l).
  assert (Hquad : rsum (map (fun p : row => Sum n (fun i => rmul n p vb i * z i) * Sum n (fun i => rmul n p vb i * z i)) cb) = - s l * Sum n (fun i => z i * z i)).
  { transitivity (Sum n (fun i => z i * Sum n (fun j => gram i j * z j))).
    - rewrite (rsum_ext _ (fun p : row => Sum n (fun i => z i * Sum n (fun j => rmul n p vb i * rmul n p vb j * z j)))).
      + rewrite rsum_Sum. apply Sum_ext. intros a Ha. rewrite rsum_mul. f_equal. rewrite rsum_Sum. apply Sum_ext. intros b Hb. unfold gram.
        rewrite (Rmult_comm _ (z b)), <- rsum_mul. apply rsum_ext. intros. ring.
      + intros p _. rewrite <- Sum_scal_r. apply Sum_ext. intros a Ha. rewrite (Rmult_comm (rmul n p vb a) (z a)), Rmult_assoc. f_equal. rewrite <- Sum_scal. apply Sum_ext. intros. ring.
    - rewrite <- Sum_scal. apply Sum_ext. intros a Ha. unfold z at 2.
      rewrite (Sum_ext n _ (fun j => gram a j * u j l - gram a j * (sg j * v j l))) by (intros; ring). rewrite Sum_minus, Hgv, Hgu by assumption. unfold z. ring. }
  assert (Hz : rsum (map (fun p : row => Sum n (fun i => rmul n p vb i * z i) * Sum n (fun i => rmul n p vb i * z i)) cb) <= 0).
  { rewrite Hquad. pose proof (Sum_nonneg n (fun i => z i * z i) ltac:(intros; nra)). specialize (Hs l Hl). nra. }
  pose proof (rsum_sq_zero (fun p : row => Sum n (fun i => rmul n p vb i * z i)) cb Hz) as Hp. clear Hz Hquad.
  assert (Hy : forall a, (a < n)%nat -> Sum n (fun i => vb a i * z i) = 0).
  { apply (Hspan (fun a => Sum n (fun i => vb a i * z i))). intros p Hin. specialize (Hp p Hin). cbv beta in Hp. rewrite <- Hp. unfold rmul.
    rewrite (Sum_ext n _ (fun j => Sum n (fun i => p j * (vb j i * z i)))) by (intros; now rewrite Sum_scal).
    rewrite Sum_swap. apply Sum_ext. intros b Hb. rewrite <- Sum_scal_r. apply Sum_ext. intros. ring. }
  enough (z i = 0) by (unfold z in *; lra).
  transitivity (Sum n (fun a => vb a i * Sum n (fun b => vb a b * z b))).
  - rewrite (Sum_ext n _ (fun a => Sum n (fun b => z b * (vb a i * vb a b)))) by (intros; rewrite <- Sum_scal; apply Sum_ext; intros; ring).
    rewrite Sum_swap, (Sum_single n i); [|exact Hi|].
    + rewrite Sum_scal, (proj1 Hvb i i Hi Hi), Nat.eqb_refl. ring.
    + intros b Hb Hbi. rewrite Sum_scal, (proj1 Hvb i b Hi Hb). destruct (Nat.eqb_spec i b); [congruence|ring].
  - apply Sum_0. intros a Ha. rewrite Hy by exact Ha. ring.
Qed.

(** the target is projected, signs are put right, and it is expressed in the principal directions of the other space *)
Lemma carried : forall target j, (j < n)%nat ->
  landmark_pca pca svd n n pa pb target j = Sum n (fun l => sg l * rmul n (fun x => target x - mean_row pa x) va l * vb j l) + mean_row pb j.
Proof.
  intros target j Hj. unfold landmark_pca. cbv zeta. rewrite Nat.min_id. pose proof aligned as Hal. pose proof Hsvd as (_ & Hv & _).
  destruct (svd n (procrustes pca n n pa pb)) as [uu vv]. cbn [fst snd] in Hal, Hv. f_equal. apply Sum_ext. intros l Hl. f_equal.
  unfold rmul at 1. rewrite (Sum_single n l); [|exact Hl|].
  - rewrite (Sum_ext n (fun k => uu l k * vv l k) (fun k => sg l * (vv l k * vv l k))) by (intros k Hk; rewrite Hal by assumption; ring).
    rewrite Sum_scal, (proj2 Hv l l Hl Hl), Nat.eqb_refl. ring.
  - intros k Hk Hkl. rewrite (Sum_ext n (fun b => uu k b * vv l b) (fun b => sg k * (vv k b * vv l b))) by (intros b Hb; rewrite Hal by assumption; ring).
    rewrite Sum_scal, (proj2 Hv k l Hk Hl). destruct (Nat.eqb_spec k l); [congruence|ring].
Qed.
End Match.

(** points moved by a fixed vector, without change of direction: the target is moved by that vector. The principal directions
    found for the two sets may differ in sign. *)
Theorem C54_translation_partial (n : nat) (c : row) (pa pb : list row) pca svd (sg : nat -> R) :
  let va := pca n (center (mean_row pa) pa) n in
  let vb := pca n (center (mean_row pb) pb) n in
  (forall j, (j < n)%nat -> sg j * sg j = 1) ->
  (forall i j, (i < n)%nat -> (j < n)%nat -> va i j = sg j * vb i j) -> orthogonal n vb ->
  shifted n c pa pb -> spanning n pb -> pa <> [] -> is_svd svd n (procrustes pca n n pa pb) ->
  forall target j, (j < n)%nat -> landmark_pca pca svd n n pa pb target j = target j + c j.
Proof.
  intros va vb Hsg Hva Hvb Hshift Hspan Hne Hsvd target j Hj.
  pose proof (means n c pa pb Hshift Hne) as Hm.
  assert (H : forall ma mb, (forall j, (j < n)%nat -> mb j = ma j + c j) ->
    Forall2 (fun a b : row => forall j, (j < n)%nat -> rmul n a va j = sg j * rmul n b vb j) (map (fun p : row => fun j => p j - ma j) pa) (map (fun p : row => fun j => p j - mb j) pb)).
  { intros ma mb Hmm. clearbody va vb. clear -Hshift Hmm Hva.
    induction Hshift as [|a b la lb Hab _ IH]; cbn [map]; [constructor|]. constructor; [|exact IH].
    intros l Hl. unfold rmul. rewrite <- Sum_scal. apply Sum_ext. intros x Hx. rewrite Hab, Hmm, Hva by assumption. ring. }
  rewrite (carried n pa pb pca svd sg Hsg (H _ _ Hm) Hvb Hspan Hsvd target j Hj).
  fold va vb. rewrite (Sum_ext n _ (fun l => Sum n (fun x => (target x - mean_row pa x) * (vb x l * vb j l)))).
  - rewrite Sum_swap, (Sum_single n j); [|exact Hj|].
    + rewrite Sum_scal, (proj2 Hvb j j Hj Hj), Nat.eqb_refl, (Hm j Hj). ring.
    + intros x Hx Hxj. rewrite Sum_scal, (proj2 Hvb x j Hx Hj). destruct (Nat.eqb_spec x j); [congruence|ring].
  - intros l Hl. unfold rmul. rewrite <- Sum_scal, <- Sum_scal_r. apply Sum_ext. intros x Hx. rewrite Hva by assumption.
    replace (sg l * ((target x - mean_row pa x) * (sg l * vb x l)) * vb j l) with ((sg l * sg l) * ((target x - mean_row pa x) * (vb x l * vb j l))) by ring.
    rewrite Hsg by exact Hl. ring.
Qed.

(** ** Rigid motions *)
(** the points of [b] are those of [a], turned by q and moved by c *)
Definition moved (n : nat) (q : nat -> nat -> R) (c : row) (points_a points_b : list row) : Prop :=
  Forall2 (fun a b : row => forall j, (j < n)%nat -> b j = Sum n (fun l => a l * q l j) + c j) points_a points_b.
(** the columns of v are the principal directions of centred points, with variances (times the number of points) in descending order *)
Definition principal (n : nat) (pts : list row) (v : nat -> nat -> R) (variance : nat -> R) : Prop :=
  orthogonal n v /\
  (forall i l, (i < n)%nat -> (l < n)%nat -> rsum (map (fun p : row => p i * Sum n (fun j => p j * v j l)) pts) = variance l * v i l) /\
  forall l m, (l < m)%nat -> (m < n)%nat -> variance m <= variance l.

Lemma sorted_diagonal n (w : nat -> nat -> R) lam mu :
  orthogonal n w -> (forall k l, (k < n)%nat -> (l < n)%nat -> lam k * w k l = w k l * mu l) ->
  (forall l m, (l < m)%nat -> (m < n)%nat -> lam m < lam l) -> (forall l m, (l < m)%nat -> (m < n)%nat -> mu m <= mu l) ->
  (forall k l, (k < n)%nat -> (l < n)%nat -> k <> l -> w k l = 0) /\ forall l, (l < n)%nat -> w l l * w l l = 1.
Proof.
  intros (Hc & Hr) He Hlam Hmu.
  assert (Hdist : forall k l, (k < n)%nat -> (l < n)%nat -> lam k = lam l -> k = l).
  { intros k l Hk Hl E. destruct (lt_eq_lt_dec k l) as [[Hkl|]|Hkl]; [|assumption|]; [specialize (Hlam k l Hkl Hl)|specialize (Hlam l k Hkl Hk)]; lra. }
  assert (Heq : forall k l, (k < n)%nat -> (l < n)%nat -> w k l <> 0 -> lam k = mu l).
  { intros k l Hk Hl Hw. specialize (He k l Hk Hl). apply (Rmult_eq_reg_l (w k l)); [|exact Hw]. rewrite <- He. ring. }
  assert (Hcol : forall l, (l < n)%nat -> exists k, (k < n)%nat /\ w k l <> 0).
  { intros l Hl. assert (Hone : Sum n (fun i => w i l * w i l) <> 0) by (rewrite (Hc l l Hl Hl), Nat.eqb_refl; lra). clear -Hone.
    induction n as [|n IH]; [now cbn in Hone|]. destruct (Req_dec (w n l) 0) as [E|E]; [|exists n; split; [lia|exact E]].
    destruct IH as (k & Hk & Hw); [cbn in Hone; rewrite E in Hone; lra|]. exists k. split; [lia|exact Hw]. }
  assert (Hrow : forall k, (k < n)%nat -> exists l, (l < n)%nat /\ w k l <> 0).
  { intros k Hk. assert (Hone : Sum n (fun i => w k i * w k i) <> 0) by (rewrite (Hr k k Hk Hk), Nat.eqb_refl; lra). clear -Hone.
    induction n as [|n IH]; [now cbn in Hone|]. destruct (Req_dec (w k n) 0) as [E|E]; [|exists n; split; [lia|exact E]].
    destruct IH as (l & Hl & Hw); [cbn in Hone; rewrite E in Hone; lra|]. exists l. split; [lia|exact Hw]. }
  assert (Honly : forall k k' l, (k < n)%nat -> (k' < n)%nat -> (l < n)%nat -> w k l <> 0 -> k' <> k -> w k' l = 0).
  { intros k k' l Hk Hk' Hl Hw Hne. destruct (Req_dec (w k' l) 0) as [|E]; [assumption|]. exfalso. apply Hne. apply Hdist; auto. rewrite (Heq k l), (Heq k' l) by assumption. reflexivity. }
  assert (Hdiag : forall l, (l < n)%nat -> w l l <> 0).
  { intros l. induction l as [l IH] using (well_founded_induction lt_wf). intros Hl.
    destruct (Hrow l Hl) as (l2 & Hl2 & Hw2). destruct (Hcol l Hl) as (k & Hk & Hwk).
    destruct (Nat.eq_dec l2 l) as [->|N2]; [exact Hw2|]. destruct (Nat.eq_dec k l) as [->|Nk]; [exact Hwk|]. exfalso.
    pose proof (Heq l l2 Hl Hl2 Hw2) as E2. pose proof (Heq k l Hk Hl Hwk) as Ek.
    destruct (lt_dec l2 l) as [L2|L2].
    - pose proof (Heq l2 l2 Hl2 Hl2 (IH l2 L2 Hl2)) as E3. apply N2. apply Hdist; auto. lra.
    - specialize (Hmu l l2 ltac:(lia) Hl2). destruct (lt_dec k l) as [Lk|Lk].
      + assert (Hz : Sum n (fun i => w i k * w i l) = w k k * w k l).
        { apply (Sum_single n k); [exact Hk|]. intros i Hi Hne. rewrite (Honly k i l) by assumption. ring. }
        rewrite (Hc k l Hk Hl) in Hz. destruct (Nat.eqb_spec k l) as [|_]; [contradiction|].
        symmetry in Hz. apply Rmult_integral in Hz as [Hz|Hz]; [exact (IH k Lk Hk Hz)|contradiction].
      + specialize (Hlam l k ltac:(lia) Hk). lra. }
  split.
  - intros k l Hk Hl Hne. apply (Honly l k l Hl Hk Hl (Hdiag l Hl)). congruence.
  - intros l Hl. rewrite <- (Sum_single n l (fun i => w i l * w i l)); [|exact Hl|].
    + rewrite (Hc l l Hl Hl), Nat.eqb_refl. reflexivity.
    + intros i Hi Hne. rewrite (Honly l i l Hl Hi Hl (Hdiag l Hl) Hne). ring.
Qed.

Lemma orthogonal_mul n u w : orthogonal n u -> orthogonal n w -> orthogonal n (fun i j => Sum n (fun l => u i l * w l j)).
Proof.
  intros (Uc & Ur) (Wc & Wr). split.
  - intros a b Ha Hb. transitivity (Sum n (fun l => Sum n (fun m => w l a * w m b * Sum n (fun i => u i l * u i m)))).
    + rewrite (Sum_ext n _ (fun i => Sum n (fun l => Sum n (fun m => w l a * w m b * (u i l * u i m))))).
      * rewrite Sum_swap. apply Sum_ext. intros l Hl. rewrite Sum_swap. apply Sum_ext. intros m Hm. now rewrite Sum_scal.
      * intros i Hi. rewrite <- Sum_scal_r. apply Sum_ext. intros l Hl. rewrite <- Sum_scal. apply Sum_ext. intros m Hm. ring.
    + rewrite <- (Wc a b Ha Hb). apply Sum_ext. intros l Hl. rewrite (Sum_single n l); [|exact Hl|].
      * rewrite (Uc l l Hl Hl), Nat.eqb_refl. ring.
      * intros m Hm Hne. rewrite (Uc l m Hl Hm). destruct (Nat.eqb_spec l m); [congruence|ring].
  - intros i j Hi Hj. transitivity (Sum n (fun l => Sum n (fun m => u i l * u j m * Sum n (fun a => w l a * w m a)))).
    + rewrite (Sum_ext n _ (fun a => Sum n (fun l => Sum n (fun m => u i l * u j m * (w l a * w m a))))).
      * rewrite Sum_swap. apply Sum_ext. intros l Hl. rewrite Sum_swap. apply Sum_ext. intros m Hm. now rewrite Sum_scal.
      * intros a Ha. rewrite <- Sum_scal_r. apply Sum_ext. intros l Hl. rewrite <- Sum_scal. apply Sum_ext. intros m Hm. ring.
    + rewrite <- (Ur i j Hi Hj). apply Sum_ext. intros l Hl. rewrite (Sum_single n l); [|exact Hl|].
      * rewrite (Wr l l Hl Hl), Nat.eqb_refl. ring.
      * intros m Hm Hne. rewrite (Wr l m Hl Hm). destruct (Nat.eqb_spec l m); [congruence|ring].
Qed.
Lemma orthogonal_tr n u : orthogonal n u -> orthogonal n (fun i j => u j i).
Proof. intros (Uc & Ur). split; intros a b Ha Hb; [exact (Ur a b Ha Hb)|exact (Uc a b Ha Hb)]. Qed.

Lemma moved_means n q c pa pb : moved n q c pa pb -> pa <> [] ->
  forall j, (j < n)%nat -> mean_row pb j = Sum n (fun l => mean_row pa l * q l j) + c j.
Proof.
  intros H Hn j Hj. unfold mean_row.
  assert (E : length pb = length pa /\ rsum (map (fun p : row => p j) pb) = Sum n (fun l => rsum (map (fun p : row => p l) pa) * q l j) + INR (length pa) * c j).
  { clear Hn. induction H as [|a b la lb Hab _ (IH1 & IH2)].
    - split; [reflexivity|]. cbn. rewrite Sum_0; [unfold rsum; cbn; ring|]. intros. unfold rsum; cbn; ring.
    - split; [cbn; now rewrite IH1|]. cbn [map]. rewrite rsum_cons, IH2, (Hab j Hj). change (length (a :: la)) with (S (length la)). rewrite S_INR.
      rewrite (Sum_ext n (fun l => rsum (a l :: map (fun p : row => p l) la) * q l j) (fun l => a l * q l j + rsum (map (fun p : row => p l) la) * q l j)) by (intros; rewrite rsum_cons; ring).
      rewrite Sum_plus. ring. }
  destruct E as (-> & ->).
  rewrite (Sum_ext n (fun l => rsum (map (fun p : row => p l) pa) / INR (length pa) * q l j) (fun l => / INR (length pa) * (rsum (map (fun p : row => p l) pa) * q l j))) by (intros; unfold Rdiv; ring).
  rewrite Sum_scal. field. apply not_0_INR. destruct pa; [congruence|discriminate].
Qed.

Lemma rsum_Forall2 {A B} (P : A -> B -> Prop) (f : A -> R) (g : B -> R) la lb :
  Forall2 P la lb -> (forall a b, P a b -> f a = g b) -> rsum (map f la) = rsum (map g lb).
Proof. intros H Hfg. induction H as [|a b la lb Hab _ IH]; cbn [map]; [reflexivity|]. rewrite !rsum_cons, IH, (Hfg a b Hab). reflexivity. Qed.

Section Rigid.
Variables (n : nat) (q : nat -> nat -> R) (c : row) (pa pb : list row).
Variable pca : nat -> list row -> nat -> (nat -> nat -> R).
Variable svd : nat -> (nat -> nat -> R) -> (nat -> nat -> R) * (nat -> nat -> R).
Variable lam mu : nat -> R.
Notation ca := (center (mean_row pa) pa).
Notation cb := (center (mean_row pb) pb).
Notation vb := (pca n cb n).
Notation va := (pca n ca n).
Hypothesis Hq : orthogonal n q.
Hypothesis Hmoved : moved n q c pa pb.
Hypothesis Hne : pa <> [].
Hypothesis Hva : principal n ca va lam.
Hypothesis Hvb : principal n cb vb mu.
Hypothesis Hlam : forall l m, (l < m)%nat -> (m < n)%nat -> lam m < lam l.
Hypothesis Hspan : spanning n pa.
Hypothesis Hsvd : is_svd svd n (procrustes pca n n pa pb).

Lemma turned_centre : Forall2 (fun a b : row => forall j, (j < n)%nat -> b j = rmul n a q j) ca cb.
Proof.
  pose proof (moved_means n q c pa pb Hmoved Hne) as Hm. unfold center. generalize (mean_row pa) (mean_row pb) Hm. intros ma mb Hm'. clear Hm.
  pose proof Hmoved as H. clear -H Hm'. induction H as [|a b la lb Hab _ IH]; cbn [map]; [constructor|]. constructor; [|exact IH].
  intros j Hj. rewrite Hab, Hm' by exact Hj. unfold rmul.
  rewrite (Sum_ext n (fun l => (a l - ma l) * q l j) (fun l => a l * q l j - ma l * q l j)) by (intros; ring). rewrite Sum_minus. ring.
Qed.
(** the directions of b, turned back *)
Let y (l : nat) (x : nat) : R := Sum n (fun z => q x z * vb z l).
Let w (k l : nat) : R := Sum n (fun x => va x k * y l x).

Lemma w_orthogonal : orthogonal n w.
Proof. apply (orthogonal_mul n (fun i j => va j i) (fun x l => y l x)); [apply orthogonal_tr, Hva|]. apply (orthogonal_mul n q vb); [exact Hq|apply Hvb]. Qed.
Lemma turn_back (a b : row) : (forall j, (j < n)%nat -> b j = rmul n a q j) -> forall x, (x < n)%nat -> Sum n (fun z => q x z * b z) = a x.
Proof.
  intros Hab x Hx. rewrite (Sum_ext n _ (fun z => Sum n (fun l => a l * (q x z * q l z)))).
  - rewrite Sum_swap, (Sum_single n x); [|exact Hx|].
    + rewrite Sum_scal, (proj2 Hq x x Hx Hx), Nat.eqb_refl. ring.
    + intros l Hl Hlx. rewrite Sum_scal, (proj2 Hq x l Hx Hl). destruct (Nat.eqb_spec x l); [congruence|ring].
  - intros z Hz. rewrite Hab by exact Hz. unfold rmul. rewrite <- Sum_scal. apply Sum_ext. intros. ring.
Qed.
Lemma project_turned (a b : row) l : (forall j, (j < n)%nat -> b j = rmul n a q j) -> Sum n (fun z => b z * vb z l) = Sum n (fun x => a x * y l x).
Proof.
  intros Hab. rewrite (Sum_ext n _ (fun z => Sum n (fun x => a x * (q x z * vb z l)))).
  - rewrite Sum_swap. apply Sum_ext. intros x Hx. rewrite Sum_scal. reflexivity.
  - intros z Hz. rewrite Hab by exact Hz. unfold rmul. rewrite <- Sum_scal_r. apply Sum_ext. intros. ring.
Qed.
Lemma w_eigen k l : (k < n)%nat -> (l < n)%nat -> lam k * w k l = w k l * mu l.
Proof.
  intros Hk Hl.
  transitivity (rsum (map (fun p : row => Sum n (fun j => p j * va j k) * Sum n (fun x => p x * y l x)) ca)).
  - unfold w. rewrite <- Sum_scal.
    rewrite (Sum_ext n _ (fun x => rsum (map (fun p : row => Sum n (fun j => p j * va j k) * (p x * y l x)) ca))).
    + rewrite <- rsum_Sum. apply rsum_ext. intros p _. rewrite Sum_scal. reflexivity.
    + intros x Hx. rewrite <- Rmult_assoc, <- (proj1 (proj2 Hva) x k Hx Hk). rewrite Rmult_comm, <- rsum_mul. apply rsum_ext. intros. ring.
  - transitivity (rsum (map (fun p : row => Sum n (fun x => va x k * Sum n (fun z => q x z * p z)) * Sum n (fun z => p z * vb z l)) cb)).
    + apply (rsum_Forall2 _ _ _ _ _ turned_centre). intros a b Hab. rewrite (project_turned a b l Hab). f_equal.
      apply Sum_ext. intros x Hx. rewrite (turn_back a b Hab x Hx). ring.
    + unfold w. rewrite <- Sum_scal_r.
      rewrite (rsum_ext _ (fun p : row => Sum n (fun x => va x k * Sum n (fun z => q x z * (p z * Sum n (fun z => p z * vb z l)))))).
      * rewrite rsum_Sum. apply Sum_ext. intros x Hx. rewrite rsum_mul, Rmult_assoc. f_equal. unfold y. rewrite <- Sum_scal_r, rsum_Sum. apply Sum_ext. intros z Hz.
        rewrite rsum_mul, (proj1 (proj2 Hvb) z l Hz Hl). ring.
      * intros p _. rewrite <- Sum_scal_r. apply Sum_ext. intros x Hx. rewrite Rmult_assoc. f_equal. rewrite <- Sum_scal_r. apply Sum_ext. intros. ring.
Qed.

Lemma directions : exists sg : nat -> R, (forall l, (l < n)%nat -> sg l * sg l = 1) /\
  forall l x, (l < n)%nat -> (x < n)%nat -> y l x = sg l * va x l.
Proof.
  destruct (sorted_diagonal n w lam mu w_orthogonal w_eigen Hlam (proj2 (proj2 Hvb))) as (H0 & H1).
  exists (fun l => w l l). split; [exact H1|]. intros l x Hl Hx.
  transitivity (Sum n (fun k => va x k * w k l)).
  - unfold w. rewrite (Sum_ext n _ (fun k => Sum n (fun x' => y l x' * (va x k * va x' k)))) by (intros; rewrite <- Sum_scal; apply Sum_ext; intros; ring).
    rewrite Sum_swap, (Sum_single n x); [|exact Hx|].
    + rewrite Sum_scal, (proj2 (proj1 Hva) x x Hx Hx), Nat.eqb_refl. ring.
    + intros x' Hx' Hxx. rewrite Sum_scal, (proj2 (proj1 Hva) x x' Hx Hx'). destruct (Nat.eqb_spec x x'); [congruence|ring].
  - rewrite (Sum_single n l); [ring|exact Hl|]. intros k Hk Hkl. rewrite H0 by assumption. ring.
Qed.

Lemma spanning_turned : spanning n pb.
Proof.
  intros z Hz. assert (Hx : forall x, (x < n)%nat -> Sum n (fun j => q x j * z j) = 0).
  { apply (Hspan (fun x => Sum n (fun j => q x j * z j))). intros p Hin.
    assert (Hex : exists b, In b cb /\ forall j, (j < n)%nat -> b j = rmul n p q j).
    { pose proof turned_centre as H. clear -H Hin. induction H as [|a b la lb Hab _ IH]; [destruct Hin|]. destruct Hin as [<-|Hin]; [exists b; split; [now left|exact Hab]|].
      destruct (IH Hin) as (b' & H1 & H2). exists b'. split; [now right|exact H2]. }
    destruct Hex as (b & Hb & Hpb). rewrite <- (Hz b Hb).
    rewrite (Sum_ext n (fun j => b j * z j) (fun j => Sum n (fun l => p l * (q l j * z j)))).
    - rewrite Sum_swap. apply Sum_ext. intros l Hl. rewrite Sum_scal. reflexivity.
    - intros j Hj. rewrite Hpb by exact Hj. unfold rmul. rewrite <- Sum_scal_r. apply Sum_ext. intros. ring. }
  intros j Hj. transitivity (Sum n (fun x => q x j * Sum n (fun m => q x m * z m))).
  - rewrite (Sum_ext n _ (fun x => Sum n (fun m => z m * (q x j * q x m)))) by (intros; rewrite <- Sum_scal; apply Sum_ext; intros; ring).
    rewrite Sum_swap, (Sum_single n j); [|exact Hj|].
    + rewrite Sum_scal, (proj1 Hq j j Hj Hj), Nat.eqb_refl. ring.
    + intros m Hm Hmj. rewrite Sum_scal, (proj1 Hq j m Hj Hm). destruct (Nat.eqb_spec j m); [congruence|ring].
  - apply Sum_0. intros x Hx'. rewrite Hx by exact Hx'. ring.
Qed.

Lemma rigid : forall target j, (j < n)%nat ->
  landmark_pca pca svd n n pa pb target j = Sum n (fun l => target l * q l j) + c j.
Proof.
  intros target j Hj. destruct directions as (sg & Hsg & Hy).
  rewrite (carried n pa pb pca svd sg Hsg); [| |apply Hvb|exact spanning_turned|exact Hsvd|exact Hj].
  2:{ eapply Forall2_impl; [|exact turned_centre]. intros a b Hab l Hl. cbv beta in *. unfold rmul at 2. rewrite (project_turned a b l Hab).
      rewrite (Sum_ext n _ (fun x => sg l * (a x * va x l))) by (intros x Hx; rewrite Hy by assumption; ring). rewrite Sum_scal, <- Rmult_assoc, Hsg by exact Hl. unfold rmul. ring. }
  assert (Hvbj : forall l, (l < n)%nat -> vb j l = sg l * Sum n (fun x => q x j * va x l)).
  { intros l Hl. transitivity (Sum n (fun x => q x j * y l x)).
    - unfold y. rewrite (Sum_ext n _ (fun x => Sum n (fun z => vb z l * (q x j * q x z)))) by (intros; rewrite <- Sum_scal; apply Sum_ext; intros; ring).
      rewrite Sum_swap, (Sum_single n j); [|exact Hj|].
      + rewrite Sum_scal, (proj1 Hq j j Hj Hj), Nat.eqb_refl. ring.
      + intros z Hz Hzj. rewrite Sum_scal, (proj1 Hq j z Hj Hz). destruct (Nat.eqb_spec j z); [congruence|ring].
    - rewrite <- Sum_scal. apply Sum_ext. intros x Hx. rewrite Hy by assumption. ring. }
  rewrite (moved_means n q c pa pb Hmoved Hne j Hj).
  enough (E : Sum n (fun l => sg l * rmul n (fun x => target x - mean_row pa x) va l * vb j l) = Sum n (fun x => (target x - mean_row pa x) * q x j)).
  { rewrite E, (Sum_ext n _ (fun x => target x * q x j - mean_row pa x * q x j)) by (intros; ring). rewrite Sum_minus. ring. }
  rewrite (Sum_ext n _ (fun l => Sum n (fun x => Sum n (fun x' => (target x - mean_row pa x) * q x' j * (va x l * va x' l))))).
  - rewrite Sum_swap. apply Sum_ext. intros x Hx. rewrite Sum_swap, (Sum_single n x); [|exact Hx|].
    + rewrite Sum_scal, (proj2 (proj1 Hva) x x Hx Hx), Nat.eqb_refl. ring.
    + intros x' Hx' Hxx. rewrite Sum_scal, (proj2 (proj1 Hva) x x' Hx Hx'). destruct (Nat.eqb_spec x x'); [congruence|ring].
  - intros l Hl. rewrite Hvbj by exact Hl. replace (sg l * rmul n (fun x => target x - mean_row pa x) va l * (sg l * Sum n (fun x => q x j * va x l)))
      with (sg l * sg l * (rmul n (fun x => target x - mean_row pa x) va l * Sum n (fun x => q x j * va x l))) by ring.
    rewrite Hsg, Rmult_1_l by exact Hl. unfold rmul. rewrite <- Sum_scal_r. apply Sum_ext. intros x Hx. rewrite <- Sum_scal. apply Sum_ext. intros. ring.
Qed.
End Rigid.

(** Points turned and moved: the target is turned and moved likewise, if the points vary in every direction and by different
    amounts along their principal directions. *)
Theorem C54_rigid_partial (n : nat) (q : nat -> nat -> R) (c : row) (pa pb : list row) pca svd (variance variance' : nat -> R) :
  orthogonal n q -> moved n q c pa pb -> pa <> [] ->
  principal n (center (mean_row pa) pa) (pca n (center (mean_row pa) pa) n) variance ->
  principal n (center (mean_row pb) pb) (pca n (center (mean_row pb) pb) n) variance' ->
  (forall l m, (l < m)%nat -> (m < n)%nat -> variance m < variance l) -> spanning n pa ->
  is_svd svd n (procrustes pca n n pa pb) ->
  forall target j, (j < n)%nat -> landmark_pca pca svd n n pa pb target j = Sum n (fun l => target l * q l j) + c j.
Proof. intros. eapply rigid; eassumption. Qed.

(** ** The rotation found *)
(** how far points are from others after a rotation: sum of squared distances *)
Definition misfit (e : nat) (r : nat -> nat -> R) (bs xs : list row) : R :=
  rsum (map2 (fun b a : row => Sum e (fun j => (rmul e b r j - a j) * (rmul e b r j - a j))) bs xs).

Lemma rsum_map2_plus {A B} (f g : A -> B -> R) la lb : rsum (map2 (fun a b => f a b + g a b) la lb) = rsum (map2 f la lb) + rsum (map2 g la lb).
Proof. revert lb. induction la as [|a la IH]; intros [|b lb]; cbn [map2]; try (unfold rsum; cbn; ring). rewrite !rsum_cons, IH. ring. Qed.
Lemma rsum_map2_scal {A B} c (f : A -> B -> R) la lb : rsum (map2 (fun a b => c * f a b) la lb) = c * rsum (map2 f la lb).
Proof. revert lb. induction la as [|a la IH]; intros [|b lb]; cbn [map2]; try (unfold rsum; cbn; ring). rewrite !rsum_cons, IH. ring. Qed.
Lemma rsum_map2_ext {A B} (f g : A -> B -> R) la lb : (forall a b, f a b = g a b) -> rsum (map2 f la lb) = rsum (map2 g la lb).
Proof. intros H. revert lb. induction la as [|a la IH]; intros [|b lb]; cbn [map2]; try reflexivity. rewrite !rsum_cons, IH, H. reflexivity. Qed.
Lemma rsum_map2_Sum {A B} n (f : A -> B -> nat -> R) la lb : rsum (map2 (fun a b => Sum n (f a b)) la lb) = Sum n (fun j => rsum (map2 (fun a b => f a b j) la lb)).
Proof.
  revert lb. induction la as [|a la IH]; intros [|b lb]; cbn [map2]; try (symmetry; apply Sum_0; intros; reflexivity).
  rewrite rsum_cons, IH, <- Sum_plus. apply Sum_ext. intros. now rewrite rsum_cons.
Qed.
Lemma rmul_norm e z (b : row) : orthogonal e z -> Sum e (fun j => rmul e b z j * rmul e b z j) = Sum e (fun j => b j * b j).
Proof.
  intros (_ & Hr). unfold rmul. rewrite (Sum_ext e _ (fun j => Sum e (fun x => Sum e (fun x' => b x * b x' * (z x j * z x' j))))).
  - rewrite Sum_swap. apply Sum_ext. intros x Hx. rewrite Sum_swap, (Sum_single e x); [|exact Hx|].
    + rewrite Sum_scal, (Hr x x Hx Hx), Nat.eqb_refl. ring.
    + intros x' Hx' Hne. rewrite Sum_scal, (Hr x x' Hx Hx'). destruct (Nat.eqb_spec x x'); [congruence|ring].
  - intros j Hj. rewrite <- Sum_scal_r. apply Sum_ext. intros x Hx. rewrite <- Sum_scal. apply Sum_ext. intros. ring.
Qed.
Lemma misfit_expand e z bs xs : orthogonal e z ->
  misfit e z bs xs = rsum (map2 (fun b a : row => Sum e (fun j => b j * b j) + Sum e (fun j => a j * a j)) bs xs)
                     - 2 * Sum e (fun i => Sum e (fun j => z i j * rsum (map2 (fun b a : row => b i * a j) bs xs))).
Proof.
  intros Hz. unfold misfit.
  rewrite (rsum_map2_ext _ (fun b a : row => (Sum e (fun j => b j * b j) + Sum e (fun j => a j * a j)) + - 2 * Sum e (fun i => Sum e (fun j => z i j * (b i * a j))))).
  - rewrite rsum_map2_plus, rsum_map2_scal, rsum_map2_Sum.
    rewrite (Sum_ext e (fun i => rsum (map2 (fun b a : row => Sum e (fun j => z i j * (b i * a j))) bs xs)) (fun i => Sum e (fun j => z i j * rsum (map2 (fun b a : row => b i * a j) bs xs)))).
    + ring.
    + intros i Hi. rewrite rsum_map2_Sum. apply Sum_ext. intros j Hj. now rewrite rsum_map2_scal.
  - intros b a. rewrite <- (rmul_norm e z b Hz).
    rewrite (Sum_ext e (fun j => (rmul e b z j - a j) * (rmul e b z j - a j)) (fun j => rmul e b z j * rmul e b z j + (a j * a j - 2 * (rmul e b z j * a j)))) by (intros; ring).
    rewrite Sum_plus, Sum_minus, Sum_scal.
    enough (E : Sum e (fun j => rmul e b z j * a j) = Sum e (fun i => Sum e (fun j => z i j * (b i * a j)))) by (rewrite E; ring).
    rewrite Sum_swap. apply Sum_ext. intros j Hj. unfold rmul. rewrite <- Sum_scal_r. apply Sum_ext. intros. ring.
Qed.
Lemma entry_bound e z l : orthogonal e z -> (l < e)%nat -> z l l <= 1.
Proof.
  intros (Hc & _) Hl. pose proof (Hc l l Hl Hl) as H. rewrite Nat.eqb_refl in H.
  assert (Hle : z l l * z l l <= Sum e (fun i => z i l * z i l)).
  { pose proof (Sum_single e l (fun i => if Nat.eqb i l then z i l * z i l else 0) Hl) as E. cbv beta in E. rewrite Nat.eqb_refl in E. rewrite <- E.
    - apply Sum_le. intros i Hi. destruct (Nat.eqb i l); nra.
    - intros i Hi Hne. destruct (Nat.eqb_spec i l); [contradiction|reflexivity]. }
  nra.
Qed.
Lemma orthogonal_eye e : orthogonal e (fun i j => if Nat.eqb i j then 1 else 0).
Proof.
  split; intros a b Ha Hb.
  - rewrite (Sum_single e a); [|exact Ha|intros i _ Hne; destruct (Nat.eqb_spec i a); [congruence|ring]]. rewrite Nat.eqb_refl. ring.
  - rewrite (Sum_single e a); [|exact Ha|intros i _ Hne; destruct (Nat.eqb_spec a i); [congruence|ring]]. rewrite Nat.eqb_refl, Nat.eqb_sym. ring.
Qed.
(** the matrix product sum of z against u diag(s) v^T, in terms of u^T z v *)
Lemma trace_svd e (z u v : nat -> nat -> R) s m :
  (forall i j, (i < e)%nat -> (j < e)%nat -> m i j = Sum e (fun l => u i l * s l * v j l)) ->
  Sum e (fun i => Sum e (fun j => z i j * m i j)) = Sum e (fun l => s l * Sum e (fun i => Sum e (fun j => u i l * z i j * v j l))).
Proof.
  intros Hm.
  rewrite (Sum_ext e _ (fun i => Sum e (fun l => s l * Sum e (fun j => u i l * z i j * v j l)))).
  - rewrite Sum_swap. apply Sum_ext. intros l Hl. now rewrite Sum_scal.
  - intros i Hi. rewrite (Sum_ext e _ (fun j => Sum e (fun l => s l * (u i l * z i j * v j l)))).
    + rewrite Sum_swap. apply Sum_ext. intros l Hl. now rewrite Sum_scal.
    + intros j Hj. rewrite (Hm i j Hi Hj), <- Sum_scal. apply Sum_ext. intros. ring.
Qed.

(** The rotation put on the projected target is the one which, of all orthogonal matrices, brings the projected shared points of
    the second space closest to those of the first. (It is the target of the first space that it is put on.) *)
Theorem C54_best_rotation pca svd (d_a d_b : nat) (pa pb : list row) :
  let e := Nat.min d_a d_b in
  let project d (pts : list row) (x : row) : row :=
    fun j => Sum d (fun l => (x l - mean_row pts l) * pca d (center (mean_row pts) pts) e l j) in
  is_svd svd e (procrustes pca d_a d_b pa pb) ->
  exists r, orthogonal e r /\
    (forall z, orthogonal e z -> misfit e r (map (project d_b pb) pb) (map (project d_a pa) pa) <= misfit e z (map (project d_b pb) pb) (map (project d_a pa) pa)) /\
    forall target j, landmark_pca pca svd d_a d_b pa pb target j =
      Sum e (fun l => Sum e (fun k => project d_a pa target k * r k l) * pca d_b (center (mean_row pb) pb) e j l) + mean_row pb j.
Proof.
  intros e project (Hu & Hv & s & Hs & Hm).
  assert (Hpm : forall i j, procrustes pca d_a d_b pa pb i j = rsum (map2 (fun b a : row => b i * a j) (map (project d_b pb) pb) (map (project d_a pa) pa))).
  { intros i j. unfold procrustes. cbv zeta. unfold center. rewrite !map_map. reflexivity. }
  assert (Hland : forall target j, landmark_pca pca svd d_a d_b pa pb target j =
      Sum e (fun l => Sum e (fun k => project d_a pa target k * Sum e (fun x => fst (svd e (procrustes pca d_a d_b pa pb)) k x * snd (svd e (procrustes pca d_a d_b pa pb)) l x))
                      * pca d_b (center (mean_row pb) pb) e j l) + mean_row pb j).
  { intros target j. unfold landmark_pca. cbv zeta. fold e. destruct (svd e (procrustes pca d_a d_b pa pb)) as [uu vv]. reflexivity. }
  set (u := fst (svd e (procrustes pca d_a d_b pa pb))) in *. set (v := snd (svd e (procrustes pca d_a d_b pa pb))) in *.
  set (r := fun i j => Sum e (fun l => u i l * v j l)) in *.
  assert (Hr : orthogonal e r) by (exact (orthogonal_mul e u (fun i j => v j i) Hu (orthogonal_tr e v Hv))).
  exists r. split; [exact Hr|split; [|exact Hland]].
  intros z Hz. rewrite (misfit_expand e r _ _ Hr), (misfit_expand e z _ _ Hz).
  set (m := fun i j => rsum (map2 (fun b a : row => b i * a j) (map (project d_b pb) pb) (map (project d_a pa) pa))).
  assert (Hm' : forall i j, (i < e)%nat -> (j < e)%nat -> m i j = Sum e (fun l => u i l * s l * v j l)) by (intros i j Hi Hj; unfold m; rewrite <- Hpm; now apply Hm).
  change (Sum e (fun i => Sum e (fun j => r i j * rsum (map2 (fun b a : row => b i * a j) (map (project d_b pb) pb) (map (project d_a pa) pa))))) with (Sum e (fun i => Sum e (fun j => r i j * m i j))).
  change (Sum e (fun i => Sum e (fun j => z i j * rsum (map2 (fun b a : row => b i * a j) (map (project d_b pb) pb) (map (project d_a pa) pa))))) with (Sum e (fun i => Sum e (fun j => z i j * m i j))).
  enough (Sum e (fun i => Sum e (fun j => z i j * m i j)) <= Sum e (fun i => Sum e (fun j => r i j * m i j))) by lra.
  rewrite (trace_svd e z u v s m Hm'), (trace_svd e r u v s m Hm'). apply Sum_le. intros l Hl.
  apply Rmult_le_compat_l; [now apply Hs|].
  apply Rle_trans with 1.
  - pose proof (orthogonal_mul e _ _ (orthogonal_mul e _ _ (orthogonal_tr e u Hu) Hz) Hv) as Hw. pose proof (entry_bound e _ l Hw Hl) as Hb. cbv beta in Hb.
    enough (E : Sum e (fun i => Sum e (fun j => u i l * z i j * v j l)) = Sum e (fun j => Sum e (fun i => u i l * z i j) * v j l)) by (rewrite E; exact Hb).
    rewrite Sum_swap. apply Sum_ext. intros j Hj. now rewrite Sum_scal_r.
  - right. symmetry. unfold r.
    rewrite (Sum_ext e _ (fun i => u i l * u i l)).
    + rewrite (proj1 Hu l l Hl Hl), Nat.eqb_refl. reflexivity.
    + intros i Hi. rewrite (Sum_ext e _ (fun j => Sum e (fun k => u i l * u i k * (v j k * v j l)))) by (intros; rewrite <- Sum_scal, <- Sum_scal_r; apply Sum_ext; intros; ring).
      rewrite Sum_swap, (Sum_single e l); [|exact Hl|].
      * rewrite Sum_scal, (proj1 Hv l l Hl Hl), Nat.eqb_refl. ring.
      * intros k Hk Hne. rewrite Sum_scal, (proj1 Hv k l Hk Hl). destruct (Nat.eqb_spec k l); [congruence|ring].
Qed.

(** in one dimension: points 0 and 2 moved by 5, and 7 goes to 12 *)
Definition ex_pca (_ : nat) (_ : list row) (_ : nat) : nat -> nat -> R := fun i j => if Nat.eqb i j then 1 else 0.
Definition ex_svd (_ : nat) (_ : nat -> nat -> R) : (nat -> nat -> R) * (nat -> nat -> R) := (fun _ _ => 1, fun _ _ => 1).
Example C54_nonvacuous : landmark_pca ex_pca ex_svd 1 1 [fun _ => 0; fun _ => 2] [fun _ => 5; fun _ => 7] (fun _ => 7) 0%nat = 12.
Proof.
  replace 12 with (7 + 5) by ring.
  apply (C54_translation_partial 1 (fun _ => 5) [fun _ => 0; fun _ => 2] [fun _ => 5; fun _ => 7] ex_pca ex_svd (fun _ => 1)); try lia.
  - intros; ring.
  - intros; unfold ex_pca; ring.
  - split; intros [|] [|] ? ?; try lia; cbn; ring.
  - constructor; [intros; ring|]. constructor; [intros; ring|constructor].
  - intros z H j Hj. specialize (H _ (or_introl eq_refl)). cbn in H. unfold mean_row, rsum in H. cbn in H. replace j with 0%nat by lia. lra.
  - discriminate.
  - split; [|split]; [split; intros [|] [|] ? ?; try lia; cbn; ring..|]. exists (fun _ => 2). split; [intros; lra|].
    intros [|] [|] ? ?; try lia. unfold procrustes, center, mean_row, rmul, rsum. cbn. field.
Qed.

(** the points (2,0), (-2,0), (0,1), (0,-1) turned by 90 degrees and moved by (5,7); (3,4) goes to (1,10). The principal directions are the axes,
    in opposite order. *)
Definition pt2 (a b : R) : row := fun j => if Nat.eqb j 0 then a else b.
Definition oval_a : list row := [pt2 2 0; pt2 (-2) 0; pt2 0 1; pt2 0 (-1)].
Definition oval_b : list row := [pt2 5 9; pt2 5 5; pt2 4 7; pt2 6 7].
Definition oval_turn (i j : nat) : R := match i, j with 0%nat, 1%nat => 1 | 1%nat, 0%nat => -1 | _, _ => 0 end.
Definition swap_axes (i j : nat) : R := match i, j with 0%nat, 1%nat => 1 | 1%nat, 0%nat => 1 | _, _ => 0 end.
(** along the first axis when the first point has no second coordinate *)
Definition oval_pca (_ : nat) (pts : list row) (_ : nat) : nat -> nat -> R :=
  if Req_EM_T (nth 0 pts rzero 1%nat) 0 then fun i j => if Nat.eqb i j then 1 else 0 else swap_axes.
Definition oval_svd (_ : nat) (_ : nat -> nat -> R) : (nat -> nat -> R) * (nat -> nat -> R) :=
  (fun i j => match i, j with 0%nat, 0%nat => 1 | 1%nat, 1%nat => -1 | _, _ => 0 end, fun i j => if Nat.eqb i j then 1 else 0).
Definition oval_variance (l : nat) : R := match l with 0%nat => 8 | _ => 2 end.
Lemma oval_pca_a : oval_pca 2 (center (mean_row oval_a) oval_a) 2 = fun i j => if Nat.eqb i j then 1 else 0.
Proof. unfold oval_pca. destruct (Req_EM_T _ 0) as [E|E]; [reflexivity|]. exfalso. apply E. unfold center, mean_row, rsum. cbn. field. Qed.
Lemma oval_pca_b : oval_pca 2 (center (mean_row oval_b) oval_b) 2 = swap_axes.
Proof. unfold oval_pca. destruct (Req_EM_T _ 0) as [E|E]; [|reflexivity]. exfalso. unfold center, mean_row, rsum in E. cbn in E. lra. Qed.
Example C54_rigid_nonvacuous : forall j, (j < 2)%nat -> landmark_pca oval_pca oval_svd 2 2 oval_a oval_b (pt2 3 4) j = pt2 1 10 j.
Proof.
  assert (Hsvd : is_svd oval_svd 2 (procrustes oval_pca 2 2 oval_a oval_b)).
  { split; [|split]; [split; intros [|[|]] [|[|]] ? ?; try lia; cbn; ring..|]. exists oval_variance. split; [intros [|]; cbn; intros; lra|].
    intros i j Hi Hj. unfold procrustes. cbv zeta. change (Nat.min 2 2) with 2%nat. rewrite oval_pca_a, oval_pca_b.
    destruct i as [|[|]], j as [|[|]]; try lia; unfold center, mean_row, rmul, rsum; cbn; field. }
  intros j Hj. rewrite (C54_rigid_partial 2 oval_turn (pt2 5 7) oval_a oval_b oval_pca oval_svd oval_variance oval_variance); [| | | | | | | | |exact Hj]; try assumption.
  - destruct j as [|[|]]; try lia; cbn; ring.
  - split; intros [|[|]] [|[|]] ? ?; try lia; cbn; ring.
  - repeat (constructor; [intros [|[|]] ?; try lia; cbn; ring|]). constructor.
  - discriminate.
  - rewrite oval_pca_a. split; [apply orthogonal_eye|]. split.
    + intros [|[|]] [|[|]] ? ?; try lia; unfold center, mean_row, rsum; cbn; field.
    + intros [|[|]] [|[|]] ? ?; try lia; cbn; lra.
  - rewrite oval_pca_b. split; [split; intros [|[|]] [|[|]] ? ?; try lia; cbn; ring|]. split.
    + intros [|[|]] [|[|]] ? ?; try lia; unfold center, mean_row, rsum; cbn; field.
    + intros [|[|]] [|[|]] ? ?; try lia; cbn; lra.
  - intros [|[|]] [|[|]] ? ?; try lia; cbn; lra.
  - intros z H. pose proof (H _ (or_introl eq_refl)) as H0. pose proof (H _ (or_intror (or_intror (or_introl eq_refl)))) as H1.
    unfold mean_row, rsum in H0, H1. cbn in H0, H1. intros [|[|]] ?; try lia; lra.
Qed.

(** a quarter turn: the shared tokens sit at (1,0), (-1,0), (0,1), (0,-1) in one space and at the same places turned by 90 degrees in the
    other. With principal directions along the axes and a correct singular value decomposition, a target on the first shared
    token is carried to the opposite of that token: the rotation is applied the wrong way round. The variances are equal here, so any
    axes are principal; with different variances the rotation only changes signs and is its own inverse (C54_rigid_partial). *)
Definition turn_a : list row := [pt2 1 0; pt2 (-1) 0; pt2 0 1; pt2 0 (-1)].
Definition turn_b : list row := [pt2 0 1; pt2 0 (-1); pt2 (-1) 0; pt2 1 0].
Definition turn_svd (_ : nat) (_ : nat -> nat -> R) : (nat -> nat -> R) * (nat -> nat -> R) :=
  (fun i j => match i, j with 0%nat, 1%nat => -1 | 1%nat, 0%nat => 1 | _, _ => 0 end, fun i j => if Nat.eqb i j then 1 else 0).
Theorem C54_rotation_refuted :
  orthogonal 2 (ex_pca 2 turn_a 2) /\ is_svd turn_svd 2 (procrustes ex_pca 2 2 turn_a turn_b) /\
  forall j, (j < 2)%nat -> landmark_pca ex_pca turn_svd 2 2 turn_a turn_b (nth 0 turn_a rzero) j = - nth 0 turn_b rzero j.
Proof.
  split; [|split].
  - split; intros [|[|]] [|[|]] ? ?; try lia; cbn; ring.
  - split; [|split]; [split; intros [|[|]] [|[|]] ? ?; try lia; cbn; ring..|]. exists (fun _ => 2). split; [intros; lra|].
    intros [|[|]] [|[|]] ? ?; try lia; unfold procrustes, center, mean_row, rmul, rsum; cbn; field.
  - intros [|[|]] Hj; try lia; unfold landmark_pca, mean_row, rmul, rsum; cbn; field.
Qed.
(** the hypothesis of C54_best_rotation on this quarter turn, and the best rotation there *)
Example C54_best_rotation_nonvacuous :
  is_svd turn_svd 2 (procrustes ex_pca 2 2 turn_a turn_b) /\
  misfit 2 (fun i j => match i, j with 0%nat, 1%nat => -1 | 1%nat, 0%nat => 1 | _, _ => 0 end) turn_b turn_a = 0 /\
  misfit 2 (fun i j => if Nat.eqb i j then 1 else 0) turn_b turn_a = 8.
Proof.
  split; [exact (proj1 (proj2 C54_rotation_refuted))|]. split; unfold misfit, rsum, rmul; cbn; ring.
Qed.
Print Assumptions C54_translation_partial.
Print Assumptions C54_rotation_refuted.
Print Assumptions C54_rigid_partial.
Print Assumptions C54_best_rotation.
