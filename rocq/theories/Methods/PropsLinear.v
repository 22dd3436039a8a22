(** C29: the linear merge. *)
From Coq Require Import Reals Lra Psatz Permutation.
From Verif.Base Require Import Py PyFacts RList.
From Verif.Methods Require Import Model LinearProofs.
Local Open Scope string_scope.
Local Open Scope list_scope.
Local Open Scope R_scope.

(** the weight of a model that is listed in [weights] *)
Definition weight_of (weights : dict string R) (k : string) : R := match dget weights k with Some w => w | None => 0 end.
Definition total (weights : dict string R) (tensors : dict string tensor) : R :=
  rsum (map (fun kt => weight_of weights (fst kt)) tensors).

Lemma lookup_all weights tensors : (forall k t, In (k, t) tensors -> dget weights k <> None) ->
  rmapM (lookup weights) tensors = Ok (map (fun kt => (weight_of weights (fst kt), snd kt)) tensors).
Proof.
  intros H. apply rmapM_map. intros [k t] Hin. unfold lookup, weight_of. cbn [fst snd]. specialize (H k t Hin).
  destruct (dget weights k); congruence.
Qed.

Lemma fit_same e ts s : (forall t, In t ts -> shp t = s) -> forall t, In t ts -> fit e ts t = t.
Proof.
  intros H t Ht. unfold fit. destruct (e && forallb dim2 ts) eqn:E; [|reflexivity].
  apply andb_true_iff in E as [_ E]. rewrite forallb_forall in E. pose proof (E t Ht) as Hd. unfold dim2 in Hd. apply Nat.eqb_eq in Hd. rewrite (H t Ht) in Hd.
  destruct s as [|a [|b [|? ?]]]; cbn in Hd; try lia.
  assert (Hm : forall k, min_size ts k = nth k [a; b] 0%nat).
  { intros k. unfold min_size. assert (In (min_of (map (fun t => nth k (shp t) 0%nat) ts)) (map (fun t => nth k (shp t) 0%nat) ts)).
    { apply min_of_in. intros Hn. apply map_eq_nil in Hn. subst. contradiction. }
    apply in_map_iff in H0 as (t' & <- & Ht'). now rewrite (H t' Ht'). }
  rewrite !Hm. cbn [nth]. replace (forallb _ ts) with true; [reflexivity|]. symmetry. apply forallb_forall. intros t' Ht'. apply shape_eqb_true. now apply H.
Qed.

(** Every entry of the merge of tensors of one shape is the weighted sum of the
    corresponding entries, divided by the sum of weights when normalizing. *)
Theorem C29_value (e normalize : bool) (tensors : dict string tensor) (weights : dict string R) (s : list nat) :
  tensors <> [] -> (forall k t, In (k, t) tensors -> shp t = s /\ wf t /\ dget weights k <> None) ->
  (normalize = true -> total weights tensors <> 0) ->
  exists y, linear e normalize tensors weights = Ok {| shp := s; dat := y |} /\ length y = numel s /\
    forall i, (i < numel s)%nat ->
      nth i y 0 = rsum (map (fun kt => weight_of weights (fst kt) * nth i (dat (snd kt)) 0) tensors)
                  / (if normalize then total weights tensors else 1).
Proof.
  intros Hne H Hn. rewrite linear_lin, lookup_all by (intros k t Hin; now apply (H k t Hin)).
  set (l := map (fun kt => (weight_of weights (fst kt), snd kt)) tensors).
  assert (Hs : forall t, In t (map snd l) -> shp t = s).
  { intros t Ht. unfold l in Ht. rewrite map_map in Ht. apply in_map_iff in Ht as ([k t'] & <- & Hin). now apply (H k t' Hin). }
  assert (El : map (fun wt => (fst wt, fit e (map snd l) (snd wt))) l = l).
  { transitivity (map (fun x => x) l); [|apply map_id]. apply map_ext_in. intros [w t] Hin. cbn [fst snd]. rewrite (fit_same e (map snd l) s Hs); [reflexivity|]. apply in_map_iff. now exists (w, t). }
  rewrite El. unfold lin. destruct l as [|[w0 t0] l'] eqn:E0; [unfold l in E0; apply map_eq_nil in E0; contradiction|].
  rewrite <- E0. rewrite <- E0 in Hs, El. clear El.
  assert (Hin0 : In (w0, t0) l) by (rewrite E0; now left).
  assert (Hs0 : shp t0 = s) by (apply Hs; apply in_map_iff; now exists (w0, t0)).
  assert (Hwf : wf t0).
  { unfold l in Hin0. apply in_map_iff in Hin0 as ([k t] & [= _ <-] & Hin). now apply (H k t Hin). }
  replace (forallb _ l) with true.
  2:{ symmetry. apply forallb_forall. intros [w t] Hin. apply shape_eqb_true. rewrite Hs0. apply Hs. apply in_map_iff. now exists (w, t). }
  assert (Ew : rsum (map fst l) = total weights tensors) by (unfold l, total; rewrite map_map; reflexivity).
  rewrite Ew, Hs0, Hwf, Hs0. cbv zeta.
  assert (Hv : forall i, rsum (map (fun wt : R * tensor => fst wt * nth i (dat (snd wt)) 0) l) = rsum (map (fun kt => weight_of weights (fst kt) * nth i (dat (snd kt)) 0) tensors)).
  { intros i. unfold l. rewrite map_map. reflexivity. }
  destruct normalize.
  - destruct (Req_EM_T (total weights tensors) 0) as [E|_]; [exfalso; now apply Hn|].
    eexists. split; [reflexivity|]. split; [now rewrite !map_length, seq_length|].
    intros i Hi. rewrite map_map. rewrite (map_nth_in _ _ _ 0%nat) by (now rewrite seq_length). rewrite seq_nth by auto. cbn [Nat.add]. now rewrite Hv.
  - eexists. split; [reflexivity|]. split; [now rewrite map_length, seq_length|].
    intros i Hi. rewrite (map_nth_in _ _ _ 0%nat) by (now rewrite seq_length). rewrite seq_nth by auto. cbn [Nat.add]. rewrite Hv. field.
Qed.

Lemma flat_map_nth {A B} (f : A -> list B) l k i j d d' : (forall x, In x l -> length (f x) = k) -> (i < length l)%nat -> (j < k)%nat ->
  nth (i * k + j) (flat_map f l) d = nth j (f (nth i l d')) d.
Proof.
  revert i. induction l as [|x l IH]; intros i H Hi Hj; cbn [length] in Hi; [lia|]. cbn [flat_map]. destruct i.
  - cbn. rewrite app_nth1; [reflexivity|]. rewrite H by now left. exact Hj.
  - cbn [nth]. rewrite app_nth2 by (rewrite (H x) by (now left); lia). rewrite (H x) by now left. replace (S i * k + j - k)%nat with (i * k + j)%nat by lia. apply IH; auto; [|lia]. intros; apply H; now right.
Qed.
Lemma trim_entry r c t i j : (i < Nat.min r (nth 0 (shp t) 0))%nat -> (j < Nat.min c (nth 1 (shp t) 0))%nat ->
  nth (i * Nat.min c (nth 1 (shp t) 0%nat) + j) (dat (trim r c t)) 0 = nth (i * nth 1 (shp t) 0%nat + j) (dat t) 0.
Proof.
  intros Hi Hj. unfold trim. cbn [dat]. rewrite (flat_map_nth _ _ _ _ _ _ 0%nat); [|intros; now rewrite map_length, seq_length|now rewrite seq_length|exact Hj].
  rewrite (map_nth_in _ _ _ 0%nat) by (now rewrite seq_length). rewrite !seq_nth by auto. reflexivity.
Qed.

(** Embedding matrices of different sizes are merged on their common part: row
    and column counts are the smallest ones, and each entry is the weighted
    average of the entries at the same row and column. *)
Theorem C29_embed (tensors : dict string tensor) (weights : dict string R) :
  tensors <> [] ->
  (forall k t, In (k, t) tensors -> length (shp t) = 2%nat /\ wf t /\ dget weights k <> None) ->
  total weights tensors <> 0 ->
  let rows t := nth 0 (shp t) 0%nat in let cols t := nth 1 (shp t) 0%nat in
  exists r c y, linear true true tensors weights = Ok {| shp := [r; c]; dat := y |} /\
    (forall k t, In (k, t) tensors -> (r <= rows t)%nat /\ (c <= cols t)%nat) /\
    (exists k t, In (k, t) tensors /\ r = rows t) /\ (exists k t, In (k, t) tensors /\ c = cols t) /\
    forall i j, (i < r)%nat -> (j < c)%nat ->
      nth (i * c + j) y 0 = rsum (map (fun kt => weight_of weights (fst kt) * nth (i * cols (snd kt) + j) (dat (snd kt)) 0) tensors) / total weights tensors.
Proof.
  intros Hne H Hn rows cols. rewrite linear_lin, lookup_all by (intros k t Hin; now apply (H k t Hin)).
  set (l := map (fun kt => (weight_of weights (fst kt), snd kt)) tensors).
  assert (Hsnd : map snd l = map snd tensors) by (unfold l; rewrite map_map; reflexivity). rewrite Hsnd.
  set (ts := map snd tensors) in *. set (r := min_size ts 0). set (c := min_size ts 1).
  assert (Hts : forall t, In t ts -> length (shp t) = 2%nat /\ wf t).
  { intros t Ht. apply in_map_iff in Ht as ([k t'] & <- & Hin). destruct (H k t' Hin) as (A & B & _). auto. }
  assert (Htne : ts <> []) by (unfold ts; intros E; apply map_eq_nil in E; contradiction).
  assert (Hr : forall t, In t ts -> (r <= rows t)%nat /\ (c <= cols t)%nat).
  { intros t Ht. split; apply min_of_le; apply in_map_iff; exists t; auto. }
  assert (Er : exists t, In t ts /\ r = rows t).
  { assert (Hm : In (min_of (map rows ts)) (map rows ts)) by (apply min_of_in; intros E; apply map_eq_nil in E; contradiction).
    apply in_map_iff in Hm as (t' & E & Ht'). exists t'. auto. }
  assert (Ec : exists t, In t ts /\ c = cols t).
  { assert (Hm : In (min_of (map cols ts)) (map cols ts)) by (apply min_of_in; intros E; apply map_eq_nil in E; contradiction).
    apply in_map_iff in Hm as (t' & E & Ht'). exists t'. auto. }
  assert (Hdim : forallb dim2 ts = true) by (apply forallb_forall; intros t Ht; apply Nat.eqb_eq; now apply Hts).
  (* the trimmed tensors *)
  assert (Hfit : forall t, In t ts -> shp (fit true ts t) = [r; c] /\ wf (fit true ts t) /\
            forall i j, (i < r)%nat -> (j < c)%nat -> nth (i * c + j) (dat (fit true ts t)) 0 = nth (i * cols t + j) (dat t) 0).
  { intros t Ht. unfold fit. rewrite Hdim. cbn [andb]. fold r c. destruct (forallb (fun t => shape_eqb (shp t) [r; c]) ts) eqn:Eb.
    - rewrite forallb_forall in Eb. pose proof (Eb t Ht) as Es. apply shape_eqb_true in Es. split; [exact Es|]. split; [now apply Hts|].
      intros i j _ _. unfold cols. rewrite Es. reflexivity.
    - destruct (Hr t Ht) as [R1 R2]. unfold rows, cols in R1, R2. split; [|split; [apply trim_wf|]].
      + unfold trim. cbn [shp]. f_equal; [lia|f_equal; lia].
      + intros i j Hi Hj. pose proof (trim_entry r c t i j) as E. rewrite (Nat.min_l c) in E by lia. apply E; lia. }
  set (L := map (fun wt => (fst wt, fit true ts (snd wt))) l).
  assert (EL : L = map (fun kt => (weight_of weights (fst kt), fit true ts (snd kt))) tensors) by (unfold L, l; rewrite map_map; reflexivity).
  unfold lin. destruct L as [|[w0 t0] l'] eqn:E0; [symmetry in EL; apply map_eq_nil in EL; contradiction|].
  assert (Hin0 : exists t, In t ts /\ t0 = fit true ts t).
  { assert (In (w0, t0) (map (fun kt => (weight_of weights (fst kt), fit true ts (snd kt))) tensors)) by (rewrite <- EL; now left).
    apply in_map_iff in H0 as ([k t] & [= _ <-] & Hin). exists t. split; [apply in_map_iff; now exists (k, t)|reflexivity]. }
  destruct Hin0 as (t0' & Ht0' & Et0). destruct (Hfit t0' Ht0') as (F1 & F2 & _). rewrite <- Et0 in F1, F2.
  rewrite EL. replace (forallb _ _) with true.
  2:{ symmetry. apply forallb_forall. intros wt Hin. apply in_map_iff in Hin as ([k t] & <- & Hin). cbn [fst snd]. apply shape_eqb_true. rewrite F1. apply Hfit. apply in_map_iff. now exists (k, t). }
  rewrite map_map. cbn [fst]. change (rsum (map (fun x => weight_of weights (fst x)) tensors)) with (total weights tensors).
  destruct (Req_EM_T (total weights tensors) 0) as [E|_]; [contradiction|].
  exists r, c. eexists. split; [rewrite F1; reflexivity|]. split; [|split; [|split]].
  - intros k t Hin. apply Hr. apply in_map_iff. now exists (k, t).
  - destruct Er as (t & Ht & E). apply in_map_iff in Ht as ([k t'] & Et & Hin). exists k, t'. cbn [snd] in Et. subst. auto.
  - destruct Ec as (t & Ht & E). apply in_map_iff in Ht as ([k t'] & Et & Hin). exists k, t'. cbn [snd] in Et. subst. auto.
  - intros i j Hi Hj. assert (Hij : (i * c + j < numel [r; c])%nat) by (unfold numel; cbn; nia).
    rewrite map_map. rewrite (map_nth_in _ _ _ 0%nat) by (rewrite seq_length, F2, F1; exact Hij).
    rewrite seq_nth by (rewrite F2, F1; exact Hij). cbn [Nat.add]. f_equal. rewrite map_map. f_equal. apply map_ext_in. intros [k t] Hin. cbn [fst snd].
    f_equal. destruct (Hfit t) as (_ & _ & Hv); [apply in_map_iff; now exists (k, t)|]. now apply Hv.
Qed.

(** Multiplying every weight by the same non-zero number changes nothing. *)
Theorem C29_scale_invariant (e : bool) (tensors : dict string tensor) (weights : dict string R) (c : R) : c <> 0 ->
  linear e true tensors (map (fun kw => (fst kw, c * snd kw)) weights) = linear e true tensors weights.
Proof.
  intros Hc. rewrite !linear_lin.
  assert (Hg : forall k, dget (map (fun kw : string * R => (fst kw, c * snd kw)) weights) k = option_map (Rmult c) (dget weights k)).
  { intros k. induction weights as [|[k' w] ws IH]; [reflexivity|]. cbn. destruct (eqb k k'); [reflexivity|apply IH]. }
  assert (Hl : rmapM (lookup (map (fun kw : string * R => (fst kw, c * snd kw)) weights)) tensors =
               match rmapM (lookup weights) tensors with Ok l => Ok (map (fun wt => (c * fst wt, snd wt)) l) | Err x => Err x end).
  { induction tensors as [|[k t] l IH]; [reflexivity|]. rewrite !rmapM_cons, IH. unfold lookup at 1 3. cbn [fst snd]. rewrite Hg.
    destruct (dget weights k); cbn [option_map rbind]; [|reflexivity]. destruct (rmapM (lookup weights) l); reflexivity. }
  rewrite Hl. destruct (rmapM (lookup weights) tensors) as [l|]; [|reflexivity].
  rewrite !map_map. cbn [fst snd]. set (g := fit e (map snd l)). clearbody g.
  unfold lin. destruct l as [|[w0 t0] l']; [reflexivity|]. set (l := (w0, t0) :: l').
  change (map (fun x : R * tensor => (c * fst x, g (snd x))) l) with ((c * w0, g t0) :: map (fun x : R * tensor => (c * fst x, g (snd x))) l').
  change (map (fun x : R * tensor => (fst x, g (snd x))) l) with ((w0, g t0) :: map (fun x : R * tensor => (fst x, g (snd x))) l').
  cbn iota. 
  change ((c * w0, g t0) :: map (fun x : R * tensor => (c * fst x, g (snd x))) l') with (map (fun x : R * tensor => (c * fst x, g (snd x))) l).
  change ((w0, g t0) :: map (fun x : R * tensor => (fst x, g (snd x))) l') with (map (fun x : R * tensor => (fst x, g (snd x))) l).
  assert (E1 : forallb (fun wt => shape_eqb (shp (snd wt)) (shp (g t0))) (map (fun x : R * tensor => (c * fst x, g (snd x))) l) = forallb (fun wt => shape_eqb (shp (snd wt)) (shp (g t0))) (map (fun x : R * tensor => (fst x, g (snd x))) l)).
  { clearbody l. clear. induction l as [|a l IH]; [reflexivity|]. cbn. now rewrite IH. }
  clearbody l. rewrite E1. destruct (forallb (fun wt => shape_eqb (shp (snd wt)) (shp (g t0))) (map (fun x : R * tensor => (fst x, g (snd x))) l)); [|reflexivity].
  assert (ES : rsum (map fst (map (fun x : R * tensor => (c * fst x, g (snd x))) l)) = c * rsum (map fst (map (fun x : R * tensor => (fst x, g (snd x))) l))).
  { rewrite !map_map. cbn [fst]. apply rsum_mul. }
  rewrite ES. set (S := rsum (map fst (map (fun x : R * tensor => (fst x, g (snd x))) l))).
  destruct (Req_EM_T (c * S) 0) as [Ez|Ez], (Req_EM_T S 0) as [Ez'|Ez']; try reflexivity.
  - exfalso. apply Rmult_integral in Ez as [?|?]; contradiction.
  - exfalso. apply Ez. rewrite Ez'. ring.
  - f_equal. f_equal. rewrite !map_map. apply map_ext. intros i. rewrite !map_map. cbn [fst snd].
    rewrite (rsum_ext _ (fun x => c * (fst x * nth i (dat (g (snd x))) 0))) by (intros; ring). rewrite rsum_mul. field. auto.
Qed.

(** The order in which the models are listed does not matter. *)
Theorem C29_order (e normalize : bool) (tensors tensors' : dict string tensor) (weights : dict string R) :
  Permutation tensors tensors' -> (forall k t, In (k, t) tensors -> wf t) ->
  linear e normalize tensors weights = linear e normalize tensors' weights.
Proof.
  intros Hp Hwf. rewrite !linear_lin. pose proof (lookup_Permutation weights _ _ Hp) as H.
  destruct (rmapM (lookup weights) tensors) as [l|] eqn:E1, (rmapM (lookup weights) tensors') as [m|]; try contradiction; [|reflexivity].
  erewrite (map_ext (fun wt : R * tensor => (fst wt, fit e (map snd m) (snd wt)))).
  2:{ intros wt. rewrite <- (fit_Permutation e (map snd l) (map snd m)) by (now apply Permutation_map). reflexivity. }
  apply lin_Permutation; [now apply Permutation_map|].
  intros wt Hin. apply in_map_iff in Hin as ([w t] & <- & Hin). cbn [snd]. apply fit_wf.
  destruct (lookup_In weights tensors l E1 (w, t) Hin) as (k & Hk & _). now apply (Hwf k).
Qed.

(** If all inputs are the same tensor, so is the result. *)
Theorem C29_agree (e : bool) (tensors : dict string tensor) (weights : dict string R) (t : tensor) :
  tensors <> [] -> wf t -> (forall k x, In (k, x) tensors -> x = t /\ dget weights k <> None) -> total weights tensors <> 0 ->
  linear e true tensors weights = Ok t.
Proof.
  intros Hne Hwf H Hn. destruct (C29_value e true tensors weights (shp t) Hne) as (y & E & L & V).
  { intros k x Hin. destruct (H k x Hin) as [-> Hw]. auto. }
  { auto. }
  rewrite E. f_equal. destruct t as [s d]. cbn [shp] in *. unfold wf in Hwf. cbn [shp dat] in Hwf. f_equal. apply nth_ext_R; [lia|].
  intros i Hi. rewrite V by lia. assert (Ev : rsum (map (fun kt : string * tensor => weight_of weights (fst kt) * nth i (dat (snd kt)) 0) tensors) = nth i d 0 * total weights tensors).
  { unfold total. rewrite <- rsum_mul. apply rsum_ext. intros [k x] Hin. destruct (H k x Hin) as [-> _]. cbn [fst snd dat]. ring. }
  rewrite Ev. field. exact Hn.
Qed.

(** With non-negative weights every entry stays within the range of the inputs. *)
Theorem C29_range (e : bool) (tensors : dict string tensor) (weights : dict string R) (y : tensor) (s : list nat) :
  (forall k t, In (k, t) tensors -> shp t = s /\ wf t) ->
  (forall k w, dget weights k = Some w -> 0 <= w) ->
  linear e true tensors weights = Ok y ->
  forall i lo hi, (i < length (dat y))%nat ->
    (forall k t, In (k, t) tensors -> lo <= nth i (dat t) 0 <= hi) -> lo <= nth i (dat y) 0 <= hi.
Proof.
  intros H Hw E i lo hi Hi Hr.
  assert (Hk : forall k t, In (k, t) tensors -> dget weights k <> None).
  { intros k t Hin Hnone. rewrite linear_lin in E. destruct (rmapM (lookup weights) tensors) as [l|] eqn:El; [|discriminate].
    apply rmapM_Ok_Forall2 in El. clear - El Hin Hnone. induction El as [|[k' t'] y ts l Hx HF IH]; [contradiction|].
    destruct Hin as [[= -> ->]|Hin]; [|auto]. unfold lookup in Hx. cbn in Hx. rewrite Hnone in Hx. discriminate. }
  assert (Hne : tensors <> []) by (intros ->; rewrite linear_lin in E; discriminate).
  assert (Hnn : total weights tensors <> 0).
  { intros Hz. rewrite linear_lin, lookup_all in E by exact Hk. unfold lin in E.
    set (l := map (fun wt => _) _) in E. destruct l as [|[w0 t0] l'] eqn:El; [discriminate|]. rewrite <- El in E.
    destruct (forallb _ l); [|discriminate]. replace (rsum (map fst l)) with (total weights tensors) in E.
    - rewrite Hz in E. destruct (Req_EM_T 0 0); [discriminate|contradiction].
    - unfold l, total. rewrite !map_map. reflexivity. }
  destruct (C29_value e true tensors weights s Hne) as (d & E' & L & V); [intros k t Hin; destruct (H k t Hin); eauto|auto|].
  rewrite E' in E. injection E as <-. cbn [dat] in *. rewrite V by lia. cbv iota.
  assert (Hw0 : forall k, 0 <= weight_of weights k) by (intros k; unfold weight_of; destruct (dget weights k) eqn:Ek; [now apply (Hw k)|lra]).
  assert (Hpos : 0 < total weights tensors).
  { assert (0 <= total weights tensors) by (apply rsum_nonneg; intros x Hx; apply in_map_iff in Hx as (kt & <- & _); apply Hw0). lra. }
  assert (Hlo : lo * total weights tensors <= rsum (map (fun kt : string * tensor => weight_of weights (fst kt) * nth i (dat (snd kt)) 0) tensors)).
  { unfold total. rewrite <- rsum_mul. apply rsum_le. intros [k t] Hin. cbn [fst snd]. specialize (Hr k t Hin). specialize (Hw0 k). nra. }
  assert (Hhi : rsum (map (fun kt : string * tensor => weight_of weights (fst kt) * nth i (dat (snd kt)) 0) tensors) <= hi * total weights tensors).
  { unfold total. rewrite <- rsum_mul. apply rsum_le. intros [k t] Hin. cbn [fst snd]. specialize (Hr k t Hin). specialize (Hw0 k). nra. }
  split.
  - apply Rmult_le_reg_r with (total weights tensors); [exact Hpos|]. unfold Rdiv. rewrite Rmult_assoc, Rinv_l by lra. lra.
  - apply Rmult_le_reg_r with (total weights tensors); [exact Hpos|]. unfold Rdiv. rewrite Rmult_assoc, Rinv_l by lra. lra.
Qed.

Definition v2 (a b : R) : tensor := {| shp := [2%nat]; dat := [a; b] |}.
Example C29_nonvacuous :
  linear false true [("a", v2 1 2); ("b", v2 4 8)] [("a", 1); ("b", 2)] = Ok (v2 3 6) /\
  (forall k t, In (k, t) [("a", v2 1 2); ("b", v2 4 8)] -> shp t = [2%nat] /\ wf t /\ dget [("a", 1); ("b", 2)] k <> None) /\
  total [("a", 1); ("b", 2)] [("a", v2 1 2); ("b", v2 4 8)] <> 0.
Proof.
  assert (H : forall k t, In (k, t) [("a", v2 1 2); ("b", v2 4 8)] -> shp t = [2%nat] /\ wf t /\ dget [("a", 1); ("b", 2)] k <> None).
  { intros k t [[= <- <-]|[[= <- <-]|[]]]; repeat split; discriminate. }
  assert (Wa : weight_of [("a", 1); ("b", 2)] "a" = 1) by reflexivity.
  assert (Wb : weight_of [("a", 1); ("b", 2)] "b" = 2) by reflexivity.
  assert (Ht : total [("a", 1); ("b", 2)] [("a", v2 1 2); ("b", v2 4 8)] = 3) by (unfold total; cbn [map fst rsum fold_right]; rewrite Wa, Wb; lra).
  split; [|split; [exact H|rewrite Ht; lra]].
  destruct (C29_value false true [("a", v2 1 2); ("b", v2 4 8)] [("a", 1); ("b", 2)] [2%nat]) as (y & E & L & V); [discriminate|exact H|rewrite Ht; intros; lra|].
  rewrite E. unfold v2. f_equal. f_equal. apply nth_ext_R; [exact L|]. intros i Hi. rewrite V by (rewrite <- L; exact Hi). cbv iota. rewrite Ht.
  rewrite L in Hi. unfold numel in Hi. cbn in Hi. destruct i as [|[|i]]; [| |lia]; cbn [map fst snd rsum fold_right]; rewrite Wa, Wb; cbn; lra.
Qed.

Print Assumptions C29_value.
Print Assumptions C29_embed.
Print Assumptions C29_order.
Print Assumptions C29_range.
