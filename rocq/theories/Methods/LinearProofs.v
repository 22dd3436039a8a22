(** Proofs about the linear merge. *)
From Coq Require Import Reals Lra Psatz Permutation.
From Verif.Base Require Import Py PyFacts RList.
From Verif.Methods Require Import Model.
Local Open Scope string_scope.
Local Open Scope list_scope.
Local Open Scope R_scope.

Lemma shape_eqb_true a b : shape_eqb a b = true <-> a = b.
Proof. unfold shape_eqb. destruct (list_eq_dec Nat.eq_dec a b); intuition congruence. Qed.

Lemma rmapM_map {A B} (f : A -> result B) (g : A -> B) l : (forall x, In x l -> f x = Ok (g x)) -> rmapM f l = Ok (map g l).
Proof.
  induction l as [|x l IH]; intros H; [reflexivity|]. cbn. rewrite H by now left. cbn.
  rewrite IH; [reflexivity|intros; apply H; now right].
Qed.
Lemma rmapM_cons {A B} (f : A -> result B) x l : rmapM f (x :: l) = (let! y := f x in let! ys := rmapM f l in Ok (y :: ys)).
Proof. reflexivity. Qed.

(** ** trimming *)
Definition trim (r c : nat) (t : tensor) : tensor :=
  {| shp := [Nat.min r (nth 0 (shp t) 0%nat); Nat.min c (nth 1 (shp t) 0%nat)];
     dat := flat_map (fun i => map (fun j => nth (i * nth 1 (shp t) 0%nat + j) (dat t) 0) (seq 0 (Nat.min c (nth 1 (shp t) 0%nat)))) (seq 0 (Nat.min r (nth 0 (shp t) 0%nat))) |}.
Lemma submatrix_trim r c t : length (shp t) = 2%nat -> submatrix r c t = Ok (trim r c t).
Proof. unfold submatrix, trim. destruct (shp t) as [|a [|b [|? ?]]]; cbn; try discriminate. reflexivity. Qed.
Lemma flat_map_length {A B} (f : A -> list B) l k : (forall x, In x l -> length (f x) = k) -> length (flat_map f l) = (length l * k)%nat.
Proof. induction l as [|x l IH]; intros H; cbn; [reflexivity|]. rewrite app_length, IH by (intros; apply H; now right). rewrite H by now left. reflexivity. Qed.
Lemma trim_wf r c t : wf (trim r c t).
Proof.
  unfold wf, trim. cbn [dat shp]. rewrite (flat_map_length _ _ (Nat.min c (nth 1 (shp t) 0%nat))) by (intros; now rewrite map_length, seq_length).
  rewrite seq_length. unfold numel. cbn. lia.
Qed.

Definition fit (is_embed : bool) (ts : list tensor) (t : tensor) : tensor :=
  if is_embed && forallb dim2 ts
  then if forallb (fun t => shape_eqb (shp t) [min_size ts 0; min_size ts 1]) ts then t else trim (min_size ts 0) (min_size ts 1) t
  else t.
Lemma rectify_fit is_embed ts : rectify_embed_sizes is_embed ts = Ok (map (fit is_embed ts) ts).
Proof.
  unfold rectify_embed_sizes, fit. destruct (is_embed && forallb dim2 ts) eqn:E; [|now rewrite map_id].
  set (b := forallb (fun t => shape_eqb (shp t) [min_size ts 0; min_size ts 1]) ts). destruct b; [now rewrite map_id|]. apply rmapM_map. intros t Ht. apply submatrix_trim.
  apply andb_true_iff in E as [_ E]. rewrite forallb_forall in E. specialize (E t Ht). unfold dim2 in E. now apply Nat.eqb_eq in E.
Qed.

Lemma forallb_Permutation {A} (f : A -> bool) l m : Permutation l m -> forallb f l = forallb f m.
Proof.
  intros H. apply Bool.eq_iff_eq_true. rewrite !forallb_forall. split; intros Hf x Hx; apply Hf; [now apply (Permutation_in _ (Permutation_sym H))|now apply (Permutation_in _ H)].
Qed.
Lemma min_fold x l : forall y, In y (x :: l) -> (fold_right Nat.min x l <= y)%nat.
Proof. intros y [<-|H]; [induction l as [|z l IH]; cbn; lia|]. induction l as [|z l IH]; [contradiction|]. destruct H as [<-|H]; cbn; [lia|]. specialize (IH H). lia. Qed.
Lemma min_fold_in x l : In (fold_right Nat.min x l) (x :: l).
Proof.
  induction l as [|z l IH]; [now left|]. cbn [fold_right]. destruct (Nat.min_dec z (fold_right Nat.min x l)) as [E|E]; rewrite E; [right; now left|].
  destruct IH as [H|H]; [left; exact H|right; right; exact H].
Qed.
Lemma min_of_le l y : In y l -> (min_of l <= y)%nat.
Proof. destruct l as [|x l]; [contradiction|]. apply min_fold. Qed.
Lemma min_of_in l : l <> [] -> In (min_of l) l.
Proof. destruct l as [|x l]; [congruence|]. intros _. apply min_fold_in. Qed.
Lemma min_of_Permutation l m : Permutation l m -> min_of l = min_of m.
Proof.
  intros H. destruct l as [|x l].
  { apply Permutation_nil in H. now subst. }
  assert (m <> []) by (intros ->; apply Permutation_sym, Permutation_nil in H; discriminate).
  apply Nat.le_antisymm.
  - apply min_of_le. apply (Permutation_in _ (Permutation_sym H)). now apply min_of_in.
  - apply min_of_le. apply (Permutation_in _ H). apply min_of_in. discriminate.
Qed.
Lemma min_size_Permutation l m k : Permutation l m -> min_size l k = min_size m k.
Proof. intros H. apply min_of_Permutation. now apply Permutation_map. Qed.
Lemma fit_Permutation e l m t : Permutation l m -> fit e l t = fit e m t.
Proof.
  intros H. unfold fit. rewrite (forallb_Permutation dim2 l m H), (min_size_Permutation l m 0 H), (min_size_Permutation l m 1 H).
  rewrite (forallb_Permutation _ l m H). reflexivity.
Qed.
Lemma fit_wf e ts t : wf t -> wf (fit e ts t).
Proof. intros H. unfold fit. destruct (_ && _); [|exact H]. destruct (forallb _ _); [exact H|apply trim_wf]. Qed.

(** ** the linear merge as a function of (weight, tensor) pairs *)
Definition lin (normalize : bool) (l : list (R * tensor)) : result tensor :=
  match l with
  | [] => Err RuntimeError
  | (_, t0) :: _ =>
      if forallb (fun wt => shape_eqb (shp (snd wt)) (shp t0)) l
      then
        let res := map (fun i => rsum (map (fun wt => fst wt * nth i (dat (snd wt)) 0) l)) (seq 0 (length (dat t0))) in
        if normalize
        then if Req_EM_T (rsum (map fst l)) 0 then Err ZeroDivisionError
             else Ok {| shp := shp t0; dat := map (fun v => v / rsum (map fst l)) res |}
        else Ok {| shp := shp t0; dat := res |}
      else Err RuntimeError
  end.

Definition lookup (weights : dict string R) (kt : string * tensor) : result (R * tensor) :=
  match dget weights (fst kt) with Some w => Ok (w, snd kt) | None => Err KeyError end.

Lemma lookup_split weights tensors :
  match rmapM (lookup weights) tensors with
  | Ok l => rmapM (fun kt : string * tensor => match dget weights (fst kt) with Some w => Ok w | None => Err KeyError end) tensors = Ok (map fst l) /\ map snd tensors = map snd l
  | Err e => e = KeyError /\ rmapM (fun kt : string * tensor => match dget weights (fst kt) with Some w => Ok w | None => Err KeyError end) tensors = Err KeyError
  end.
Proof.
  induction tensors as [|[k t] l IH]; [cbn; auto|]. rewrite !rmapM_cons. unfold lookup at 1. cbn [fst snd].
  destruct (dget weights k) as [w|]; cbn [rbind]; [|auto].
  destruct (rmapM (lookup weights) l) as [l'|e]; cbn [rbind].
  - destruct IH as [-> E]. cbn. now rewrite E.
  - destruct IH as [-> ->]. auto.
Qed.

Lemma linear_lin e nm tensors weights :
  linear e nm tensors weights =
  match rmapM (lookup weights) tensors with
  | Ok l => lin nm (map (fun wt => (fst wt, fit e (map snd l) (snd wt))) l)
  | Err _ => Err KeyError
  end.
Proof.
  unfold linear. pose proof (lookup_split weights tensors) as H. destruct (rmapM (lookup weights) tensors) as [l|x].
  - destruct H as [-> ->]. cbn [rbind]. rewrite rectify_fit. cbn [rbind]. rewrite map_map.
    set (g := fit e (map snd l)). clearbody g. destruct l as [|[w0 t0] l]; [reflexivity|]. cbn [map lin fst snd forallb map2].
    assert (E1 : forallb (fun t => shape_eqb (shp t) (shp (g t0))) (map (fun x : R * tensor => g (snd x)) l) = forallb (fun wt => shape_eqb (shp (snd wt)) (shp (g t0))) (map (fun wt : R * tensor => (fst wt, g (snd wt))) l)).
    { induction l as [|a l IH]; [reflexivity|]. cbn. now rewrite IH. }
    assert (E2 : map fst (map (fun wt : R * tensor => (fst wt, g (snd wt))) l) = map fst l) by (rewrite map_map; reflexivity).
    assert (E3 : forall i, map2 (fun w t => w * nth i (dat t) 0) (map fst l) (map (fun x : R * tensor => g (snd x)) l) = map (fun wt => fst wt * nth i (dat (snd wt)) 0) (map (fun wt : R * tensor => (fst wt, g (snd wt))) l)).
    { intros i. clear. induction l as [|a l IH]; [reflexivity|]. cbn [map map2 fst snd]. f_equal. apply IH. }
    assert (E4 : map (fun i => rsum (w0 * nth i (dat (g t0)) 0 :: map2 (fun w t => w * nth i (dat t) 0) (map fst l) (map (fun x : R * tensor => g (snd x)) l))) (seq 0 (length (dat (g t0)))) =
                 map (fun i => rsum (w0 * nth i (dat (g t0)) 0 :: map (fun wt => fst wt * nth i (dat (snd wt)) 0) (map (fun wt : R * tensor => (fst wt, g (snd wt))) l))) (seq 0 (length (dat (g t0))))).
    { apply map_ext. intros i. now rewrite E3. }
    rewrite E1, E2, E4. reflexivity.
  - destruct H as [_ ->]. reflexivity.
Qed.

Lemma lin_Permutation nm l m : Permutation l m -> (forall wt, In wt l -> wf (snd wt)) -> lin nm l = lin nm m.
Proof.
  intros H Hwf. unfold lin. destruct l as [|[w0 t0] l'].
  { apply Permutation_nil in H. now subst. }
  destruct m as [|[w1 t1] m'].
  { apply Permutation_sym, Permutation_nil in H. discriminate. }
  set (L := (w0, t0) :: l') in *. set (M := (w1, t1) :: m') in *.
  assert (E1 : forall t, forallb (fun wt : R * tensor => shape_eqb (shp (snd wt)) (shp t)) L = forallb (fun wt => shape_eqb (shp (snd wt)) (shp t)) M) by (intros; now apply forallb_Permutation).
  destruct (forallb (fun wt => shape_eqb (shp (snd wt)) (shp t0)) L) eqn:E0.
  - rewrite forallb_forall in E0. assert (Hall : forall wt, In wt L -> shp (snd wt) = shp t0) by (intros wt Hw; apply shape_eqb_true; now apply E0).
    assert (H1 : In (w1, t1) L) by (apply (Permutation_in _ (Permutation_sym H)); now left).
    pose proof (Hall _ H1) as Es. cbn [snd] in Es. rewrite <- Es in *.
    assert (E2 : forallb (fun wt => shape_eqb (shp (snd wt)) (shp t1)) M = true).
    { rewrite <- E1. apply forallb_forall. intros wt Hw. apply shape_eqb_true. now apply Hall. }
    rewrite E2. assert (Ld : length (dat t0) = length (dat t1)).
    { pose proof (Hwf _ H1) as W1. pose proof (Hwf (w0, t0) (or_introl eq_refl)) as W0. unfold wf in *. cbn [snd] in *. pose proof (Hall (w0, t0) (or_introl eq_refl)) as Es0. cbn [snd] in Es0. congruence. }
    rewrite Ld. rewrite (rsum_Permutation (map fst L) (map fst M)) by (now apply Permutation_map).
    assert (E3 : map (fun i => rsum (map (fun wt : R * tensor => fst wt * nth i (dat (snd wt)) 0) L)) (seq 0 (length (dat t1))) =
                 map (fun i => rsum (map (fun wt : R * tensor => fst wt * nth i (dat (snd wt)) 0) M)) (seq 0 (length (dat t1)))).
    { apply map_ext. intros i. apply rsum_Permutation. now apply Permutation_map. }
    cbv zeta. rewrite E3. reflexivity.
  - destruct (forallb (fun wt => shape_eqb (shp (snd wt)) (shp t1)) M) eqn:E2; [|reflexivity]. exfalso.
    rewrite <- E1 in E2. rewrite forallb_forall in E2. enough (forallb (fun wt => shape_eqb (shp (snd wt)) (shp t0)) L = true) by congruence.
    apply forallb_forall. intros wt Hw. apply shape_eqb_true. pose proof (E2 wt Hw) as Ha. pose proof (E2 (w0, t0) (or_introl eq_refl)) as Hb.
    apply shape_eqb_true in Ha, Hb. cbn [snd] in Hb. congruence.
Qed.

Lemma lookup_Permutation weights l m : Permutation l m ->
  match rmapM (lookup weights) l, rmapM (lookup weights) m with
  | Ok a, Ok b => Permutation a b
  | Err _, Err _ => True
  | _, _ => False
  end.
Proof.
  induction 1 as [|x l m H IH|x y l|l m n H1 IH1 H2 IH2].
  - constructor.
  - rewrite !rmapM_cons. destruct (lookup weights x); cbn [rbind]; [|exact I].
    destruct (rmapM (lookup weights) l), (rmapM (lookup weights) m); cbn [rbind]; auto.
  - rewrite !rmapM_cons. destruct (lookup weights x), (lookup weights y); cbn [rbind]; auto; destruct (rmapM (lookup weights) l); cbn [rbind]; auto. constructor.
  - destruct (rmapM (lookup weights) l), (rmapM (lookup weights) m), (rmapM (lookup weights) n); try contradiction; auto. etransitivity; eauto.
Qed.

Lemma lookup_In weights l r : rmapM (lookup weights) l = Ok r -> forall wt, In wt r -> exists k, In (k, snd wt) l /\ dget weights k = Some (fst wt).
Proof.
  revert r. induction l as [|[k t] l IH]; intros r.
  - intros [= <-] wt [].
  - rewrite rmapM_cons. unfold lookup at 1. cbn [fst snd]. destruct (dget weights k) as [w|] eqn:Ew; cbn [rbind]; [|discriminate].
    destruct (rmapM (lookup weights) l) as [r'|]; cbn [rbind]; [|discriminate]. intros [= <-] wt [<-|Hin]; [exists k; split; [now left|exact Ew]|].
    destruct (IH r' eq_refl wt Hin) as (k' & Hk & Hw). exists k'. split; [now right|auto].
Qed.
