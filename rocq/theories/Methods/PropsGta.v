(** C30, C31: task arithmetic, TIES and their relatives. *)
From Coq Require Import Reals Lra Psatz Permutation.
From Verif.Base Require Import Py PyFacts RList.
From Verif.Sparsify Require Import Model Proofs.
From Verif.Methods Require Import Model LinearProofs GtaProofs Spec.
Local Open Scope string_scope.
Local Open Scope list_scope.
Local Open Scope R_scope.

Lemma submatrix_trim' r c t t' : submatrix r c t = Ok t' -> t' = trim r c t.
Proof. unfold submatrix, trim. destruct (shp t) as [|a [|b [|? ?]]]; try discriminate. intros [= <-]. reflexivity. Qed.
Lemma contrib_merged g e norm bm base params choice tensors l : rmapM (contrib g e norm bm base params choice) tensors = Ok l ->
  Forall2 (contributes (g_sparsify g) norm base params choice) (merged e bm base tensors) (somes l).
Proof.
  revert l. induction tensors as [|[m x] ts IH]; intros l E; [cbn in E; injection E as <-; constructor|].
  rewrite rmapM_cons in E. destruct (contrib g e norm bm base params choice (m, x)) as [o|] eqn:Ec; [|discriminate]. cbn [rbind] in E.
  destruct (rmapM _ ts) as [l'|]; [|discriminate]. cbn [rbind] in E. injection E as <-. specialize (IH l' eq_refl).
  unfold merged. cbn [flat_map]. fold (merged e bm base ts). cbn [contrib] in Ec. destruct (eqb m bm).
  { injection Ec as <-. exact IH. }
  assert (Hd : forall x' p d', dget params m = Some p ->
     match g_sparsify g with
     | None => Ok (vsub x' (dat base))
     | Some s => let! rows := rows_of s (shp base) (vsub x' (dat base)) in sparsify rows (p_density p) s (p_gamma p) (p_epsilon p) norm (choice m)
     end = Ok d' -> contributes (g_sparsify g) norm base params choice (m, x') (p_weight p, d')).
  { intros x' p d' Ep Ed. exists p. cbn [fst snd]. split; [exact Ep|]. split; [reflexivity|]. destruct (g_sparsify g) as [s|]; [|now injection Ed].
    destruct (rows_of s (shp base) (vsub x' (dat base))) as [rows|]; [|discriminate]. eauto. }
  destruct (shape_eqb (shp x) (shp base)) eqn:Es.
  - cbn [rbind] in Ec. destruct (dget params m) as [p|] eqn:Ep; [|discriminate]. cbv zeta in Ec.
    destruct (match g_sparsify g with None => _ | Some _ => _ end) as [d'|] eqn:Ed; [|discriminate]. injection Ec as <-.
    cbn [app somes]. constructor; [|exact IH]. now apply (Hd (dat x) p d').
  - destruct e; [|injection Ec as <-; exact IH].
    destruct (shp base) as [|r [|c rest]] eqn:Eb; try discriminate. destruct (submatrix r c x) as [x'|] eqn:Ex; [|discriminate]. cbn [rbind] in Ec.
    destruct (shape_eqb (shp x') (r :: c :: rest)) eqn:Es'; [|discriminate]. cbn [rbind] in Ec.
    destruct (dget params m) as [p|] eqn:Ep; [|discriminate]. cbv zeta in Ec.
    destruct (match g_sparsify g with None => _ | Some _ => _ end) as [d'|] eqn:Ed; [|discriminate]. injection Ec as <-.
    cbn [app somes nth]. constructor; [|exact IH]. apply submatrix_trim' in Ex. subst x'. now apply (Hd _ p d').
Qed.

Lemma sign_cases v : (0 < v /\ sign v = 1) \/ (v < 0 /\ sign v = -1) \/ (v = 0 /\ sign v = 0).
Proof. unfold sign. destruct (Rlt_dec 0 v); [auto|]. destruct (Rlt_dec v 0); [auto|]. right; right. split; [lra|auto]. Qed.
Lemma rsum_sign vs : rsum (map sign vs) = INR (length (filter (fun v => if Rlt_dec 0 v then true else false) vs)) - INR (length (filter (fun v => if Rlt_dec v 0 then true else false) vs)).
Proof.
  induction vs as [|v vs IH]; [cbn; lra|]. cbn [map filter]. rewrite rsum_cons, IH.
  destruct (sign_cases v) as [(H & ->)|[(H & ->)|(H & ->)]]; destruct (Rlt_dec 0 v); try lra; destruct (Rlt_dec v 0); try lra; cbn [length]; rewrite ?S_INR; lra.
Qed.
Lemma majority_elected c vs : majority_sign c vs = elected c vs.
Proof.
  destruct c; unfold majority_sign, elected; [|reflexivity]. rewrite rsum_sign.
  destruct (Nat.leb_spec (length (filter (fun v => if Rlt_dec v 0 then true else false) vs)) (length (filter (fun v => if Rlt_dec 0 v then true else false) vs))) as [H|H].
  - apply le_INR in H. destruct (Rle_dec _ _); [reflexivity|lra].
  - apply lt_INR in H. destruct (Rle_dec _ _); [lra|reflexivity].
Qed.
Lemma elected_cases c vs : elected c vs = 1 \/ elected c vs = -1.
Proof. unfold elected. destruct c; [destruct (Nat.leb _ _)|destruct (Rle_dec _ _)]; auto. Qed.
Lemma agrees_sign c vs v : (if Req_EM_T (sign v) (elected c vs) then 1 else 0) = if agrees (elected c vs) v then 1 else 0.
Proof.
  unfold agrees. destruct (elected_cases c vs) as [E|E]; rewrite E; destruct (sign_cases v) as [(H & ->)|[(H & ->)|(H & ->)]];
    destruct (Req_EM_T _ _); destruct (Rlt_dec _ _); try reflexivity; try lra.
Qed.

Definition outcome (g : gta_method) (e : bool) (norm : option rescale_norm) (bm : string) (tensors : dict string tensor)
    (params : dict string tparams) (choice : string -> choices) (y : tensor) (f : list (R * R) -> R) : Prop :=
  exists base cs, dget tensors bm = Some base /\
    Forall2 (contributes (g_sparsify g) norm base params choice) (merged e bm base tensors) cs /\
    shp y = shp base /\ length (dat y) = length (dat base) /\
    forall i, (i < length (dat base))%nat -> nth i (dat y) 0 = nth i (dat base) 0 + f (map (fun c => (fst c, nth i (snd c) 0)) cs).

Lemma gta_outcome g e normalize norm lambda bm tensors params choice y :
  gta g e normalize norm lambda bm tensors params choice = Ok y ->
  outcome g e norm bm tensors params choice y (mix_pairs (g_consensus g) normalize lambda).
Proof.
  intros E. apply gta_Ok in E as (base & l & Eb & El & ->). exists base, (somes l). split; [exact Eb|]. split; [now apply contrib_merged in El|].
  unfold combine_all. destruct (somes l) as [|c cs] eqn:Ec.
  - split; [reflexivity|]. split; [reflexivity|]. intros i Hi. cbn [map]. rewrite mix_zero by (intros ? []). ring.
  - rewrite <- Ec. cbn [shp dat]. split; [reflexivity|]. split; [now rewrite map_length, seq_length|]. intros i Hi.
    rewrite (map_nth_in _ _ _ 0%nat) by (now rewrite seq_length). rewrite seq_nth by auto. cbn [Nat.add]. f_equal.
    rewrite <- mix_as_pairs, !map_map. reflexivity.
Qed.

(** *** C30 *)
(** Without sign consensus the result is the base plus lambda times the weighted
    sum of the (sparsified) differences, divided by the sum of the weights when
    normalizing, unless that sum is negligible. *)
Theorem C30_value (sp : option method) (e normalize : bool) (norm : option rescale_norm) (lambda : R)
    (bm : string) (tensors : dict string tensor) (params : dict string tparams) (choice : string -> choices) (y : tensor) :
  gta {| g_consensus := None; g_sparsify := sp |} e normalize norm lambda bm tensors params choice = Ok y ->
  exists base cs, dget tensors bm = Some base /\
    Forall2 (contributes sp norm base params choice) (merged e bm base tensors) cs /\
    shp y = shp base /\ length (dat y) = length (dat base) /\
    forall i, (i < length (dat base))%nat ->
      let total := rsum (map fst cs) in
      let divisor := if normalize then if Rlt_dec (Rabs total) (/ 10 ^ 8) then 1 else total else 1 in
      nth i (dat y) 0 = nth i (dat base) 0 + lambda * (rsum (map (fun c => fst c * nth i (snd c) 0) cs) / divisor).
Proof.
  intros E. destruct (gta_outcome _ _ _ _ _ _ _ _ _ _ E) as (base & cs & H1 & H2 & H3 & H4 & H5). exists base, cs. repeat (split; [assumption|]).
  intros i Hi total divisor. rewrite (H5 i Hi). f_equal. unfold mix_pairs. cbn [g_consensus]. cbv zeta. rewrite !map_map. cbn [fst snd]. change (map (fun x : R * list R => fst x) cs) with (map fst cs). fold total.
  rewrite (rsum_ext (fun x => nth i (snd x) 0 * fst x) (fun c => fst c * nth i (snd c) 0)) by (intros; ring).
  unfold divisor. destruct normalize, (Req_EM_T lambda 1) as [->|]; unfold Rdiv; rewrite ?Rinv_1; ring.
Qed.

(** Such a merge without sparsification always succeeds. *)
Theorem C30_succeeds (c : option consensus) (normalize : bool) (lambda : R) (norm : option rescale_norm)
    (bm : string) (tensors : dict string tensor) (params : dict string tparams) (choice : string -> choices) :
  In bm (dkeys tensors) -> (forall k x, In (k, x) tensors -> k <> bm -> In k (dkeys params)) ->
  exists y, gta {| g_consensus := c; g_sparsify := None |} false normalize norm lambda bm tensors params choice = Ok y.
Proof.
  intros Hb Hp. apply dget_Some_key in Hb as (base & Eb).
  assert (exists l, rmapM (contrib {| g_consensus := c; g_sparsify := None |} false norm bm base params choice) tensors = Ok l) as (l & El).
  { clear Eb. induction tensors as [|[m x] ts IH]; [now exists []|]. rewrite rmapM_cons. destruct IH as (l & El); [intros k x' Hin; apply (Hp k x'); now right|].
    rewrite El. cbn [contrib]. destruct (eqb_spec m bm) as [->|Hn]; [cbn [rbind]; eauto|]. specialize (Hp m x (or_introl eq_refl) Hn).
    apply dget_Some_key in Hp as (p & Ep). destruct (shape_eqb _ _); cbn [rbind]; rewrite ?Ep; cbn; eauto. }
  eexists. apply gta_Ok. exists base, l. eauto.
Qed.

(** If every model equals the base, so does the result, whatever the method. *)
Theorem C30_equal_models (g : gta_method) (e normalize : bool) (norm : option rescale_norm) (lambda : R)
    (bm : string) (tensors : dict string tensor) (params : dict string tparams) (choice : string -> choices) (base y : tensor) :
  (forall k x, In (k, x) tensors -> x = base) ->
  gta g e normalize norm lambda bm tensors params choice = Ok y -> y = base.
Proof.
  intros H E. apply gta_Ok in E as (b & l & Eb & El & ->). assert (b = base) as -> by (apply dget_In in Eb; eauto).
  assert (Hz : forall c, In c (somes l) -> forall i, nth i (snd c) 0 = 0).
  { pose proof (contrib_merged _ _ _ _ _ _ _ _ _ El) as HF. assert (Hm : forall mx, In mx (merged e bm base tensors) -> snd mx = dat base).
    { intros mx Hin. unfold merged in Hin. apply in_flat_map in Hin as ([m x] & Hin & Hx). rewrite (H m x Hin) in Hx. destruct (eqb m bm); [contradiction|].
      rewrite (proj2 (shape_eqb_true _ _) eq_refl) in Hx. destruct Hx as [<-|[]]. reflexivity. }
    clear El. induction HF as [|mx c ms cs Hc HF IH]; [contradiction|]. intros c' [<-|Hin]; [|apply IH; [intros; apply Hm; now right|exact Hin]].
    destruct Hc as (p & _ & _ & Hd). rewrite (Hm mx (or_introl eq_refl)) in Hd. destruct (g_sparsify g) as [s|].
    - destruct Hd as (rows & Er & Ed). eapply sparsify_zero; [|exact Ed]. eapply rows_zero; [|exact Er]. apply vsub_self.
    - rewrite Hd. apply vsub_self. }
  unfold combine_all. destruct (somes l) as [|c cs] eqn:Ec; [reflexivity|]. rewrite <- Ec in *. destruct base as [s d]. cbn [shp dat]. f_equal.
  apply nth_ext_R; [now rewrite map_length, seq_length|]. intros i Hi. rewrite map_length, seq_length in Hi.
  rewrite (map_nth_in _ _ _ 0%nat) by (now rewrite seq_length). rewrite seq_nth by auto. cbn [Nat.add].
  replace (map fst (somes l)) with (map fst (map (fun c => (fst c, nth i (snd c) 0)) (somes l))) by (rewrite map_map; reflexivity).
  replace (map (fun c => nth i (snd c) 0) (somes l)) with (map snd (map (fun c => (fst c, nth i (snd c) 0)) (somes l))) by (rewrite map_map; reflexivity).
  rewrite mix_as_pairs, mix_zero; [ring|]. intros p Hp. apply in_map_iff in Hp as (c' & <- & Hc'). cbn [snd]. now apply Hz.
Qed.

(** The order in which the models are listed does not matter. *)
Theorem C30_order (g : gta_method) (e normalize : bool) (norm : option rescale_norm) (lambda : R)
    (bm : string) (tensors tensors' : dict string tensor) (params : dict string tparams) (choice : string -> choices) (y : tensor) :
  Permutation tensors tensors' -> NoDup (dkeys tensors) ->
  (gta g e normalize norm lambda bm tensors params choice = Ok y <-> gta g e normalize norm lambda bm tensors' params choice = Ok y).
Proof.
  assert (H : forall t t', Permutation t t' -> NoDup (dkeys t) -> gta g e normalize norm lambda bm t params choice = Ok y -> gta g e normalize norm lambda bm t' params choice = Ok y).
  { intros t t' Hp Hn E. apply gta_Ok in E as (base & l & Eb & El & ->). destruct (rmapM_Permutation _ _ _ _ Hp El) as (l' & El' & Hl).
    apply gta_Ok. exists base, l'. rewrite <- (dget_Permutation t t' bm Hp Hn). split; [exact Eb|]. split; [exact El'|]. apply combine_Permutation. now apply somes_Permutation. }
  intros Hp Hn. split; apply H; auto using Permutation_sym.
  eapply Permutation_NoDup; [|exact Hn]. unfold dkeys. now apply Permutation_map.
Qed.

(** One model with weight 1, density 1 and lambda 1 is returned unchanged by every
    method, consensus mode and normalization. *)
Theorem C30_single (g : gta_method) (e normalize : bool) (norm : option rescale_norm)
    (bm m : string) (base x : tensor) (tensors : dict string tensor) (params : dict string tparams) (choice : string -> choices) (p : tparams) :
  Permutation tensors [(bm, base); (m, x)] -> m <> bm -> shp x = shp base -> wf base -> wf x ->
  (g_sparsify g = Some DellaMagprune -> length (shp base) = 1%nat \/ length (shp base) = 2%nat) ->
  dget params m = Some p -> p_weight p = 1 -> 1 <= p_density p ->
  gta g e normalize norm 1 bm tensors params choice = Ok x.
Proof.
  intros Hp Hm Hs Wb Wx Hrank Ep Hw Hd. assert (Hn : NoDup (dkeys [(bm, base); (m, x)])) by (unfold dkeys; cbn; constructor; [cbn; intuition|constructor; [cbn; intuition|constructor]]).
  apply Permutation_sym in Hp. apply (C30_order g e normalize norm 1 bm _ _ params choice x Hp Hn). clear Hp Hn tensors.
  assert (Hl : length (dat x) = length (dat base)) by (unfold wf in *; congruence).
  apply gta_Ok. exists base, [None; Some (1, vsub (dat x) (dat base))].
  split; [cbn; now rewrite eqb_refl|]. split.
  - rewrite !rmapM_cons. cbn [contrib]. rewrite eqb_refl. cbn [rbind]. rewrite (proj2 (eqb_neq m bm) Hm).
    rewrite (proj2 (shape_eqb_true _ _) Hs). cbn [rbind]. rewrite Ep, Hw. cbv zeta.
    assert (Hsp : match g_sparsify g with
        | None => Ok (vsub (dat x) (dat base))
        | Some s => let! rows := rows_of s (shp base) (vsub (dat x) (dat base)) in sparsify rows (p_density p) s (p_gamma p) (p_epsilon p) norm (choice m)
        end = Ok (vsub (dat x) (dat base))).
    { assert (Hlen : length (vsub (dat x) (dat base)) = numel (shp base)) by (unfold vsub; rewrite map2_length; unfold wf in *; lia).
      destruct (g_sparsify g) as [s|]; [|reflexivity]. destruct s; cbn [rows_of rbind sparsify concat]; rewrite ?app_nil_r;
        try (unfold magnitude, bernoulli, magnitude_outliers; destruct (Rle_dec 1 (p_density p)); [reflexivity|contradiction]).
      unfold numel in Hlen. destruct (shp base) as [|a [|b [|? ?]]] eqn:Esb; cbn [length] in Hrank; try (destruct (Hrank eq_refl); lia); cbn [rbind sparsify];
        unfold della_magprune; (destruct (Rle_dec 1 (p_density p)); [|contradiction]).
      - cbn. now rewrite app_nil_r.
      - rewrite chunk_concat; [reflexivity|]. rewrite Hlen. cbn. lia. }
    rewrite Hsp. reflexivity.
  - cbn [somes]. unfold combine_all. destruct x as [sx dx]. cbn [shp dat] in *. subst sx. f_equal.
    apply nth_ext_R; [now rewrite map_length, seq_length|]. intros i Hi. rewrite Hl in Hi.
    rewrite (map_nth_in _ _ _ 0%nat) by (now rewrite seq_length). rewrite seq_nth by auto. cbn [Nat.add].
    change (map fst [(1, vsub dx (dat base))]) with (map fst [(1, nth i (vsub dx (dat base)) 0)]).
    change (map (fun c => nth i (snd c) 0) [(1, vsub dx (dat base))]) with (map snd [(1, nth i (vsub dx (dat base)) 0)]). rewrite mix_as_pairs.
    assert (Ev : nth i (vsub dx (dat base)) 0 = nth i dx 0 - nth i (dat base) 0) by (unfold vsub; now rewrite (map2_nth _ _ _ _ 0 0) by lia).
    rewrite Ev. set (v := nth i dx 0 - nth i (dat base) 0).
    assert (Hmix : mix_pairs (g_consensus g) normalize 1 [(1, v)] = v).
    { unfold mix_pairs. cbn [map fst snd]. destruct (Req_EM_T 1 1); [|lra]. destruct (g_consensus g) as [c|].
      - cbv zeta. cbn [rsum fold_right]. rewrite majority_elected.
        assert (Hv : (if Req_EM_T (sign (v * 1)) (elected c [v * 1]) then 1 else 0) = if Req_EM_T v 0 then 0 else 1).
        { rewrite agrees_sign. unfold agrees. destruct (Req_EM_T v 0) as [->|Hv0]; [destruct (Rlt_dec _ _); [lra|reflexivity]|].
          assert (0 < elected c [v * 1] * (v * 1)).
          { unfold elected. destruct c; cbn [filter rsum fold_right].
            - destruct (Rlt_dec (v * 1) 0), (Rlt_dec 0 (v * 1)); cbn; lra.
            - destruct (Rle_dec 0 (v * 1 + 0)); lra. }
          destruct (Rlt_dec _ _); [reflexivity|contradiction]. }
        rewrite Hv. destruct (Req_EM_T v 0) as [->|Hv0].
        + destruct normalize; unfold Rdiv; ring.
        + destruct (Req_EM_T (1 * 1 + 0) 0); [lra|]. destruct normalize; field.
      - cbv zeta. cbn [rsum fold_right]. rewrite Rabs_pos_eq by lra. destruct (Rlt_dec (1 + 0) (/ 10 ^ 8)) as [Hbad|]; [exfalso|destruct normalize; field].
        assert (/ 10 ^ 8 <= 1) by (rewrite <- Rinv_1; apply Rinv_le_contravar; [lra|apply pow_R1_Rle; lra]). lra. }
    rewrite Hmix. unfold v. ring.
Qed.

(** *** C31 *)
(** With sign consensus an entry of the merged delta is the sum of exactly those
    contributions whose sign is the elected one. *)
Theorem C31_value (c : consensus) (sp : option method) (e normalize : bool) (norm : option rescale_norm) (lambda : R)
    (bm : string) (tensors : dict string tensor) (params : dict string tparams) (choice : string -> choices) (y : tensor) :
  gta {| g_consensus := Some c; g_sparsify := sp |} e normalize norm lambda bm tensors params choice = Ok y ->
  exists base cs, dget tensors bm = Some base /\
    Forall2 (contributes sp norm base params choice) (merged e bm base tensors) cs /\
    shp y = shp base /\ length (dat y) = length (dat base) /\
    forall i, (i < length (dat base))%nat ->
      let value k := fst k * nth i (snd k) 0 in
      let s := elected c (map value cs) in
      let kept := filter (fun k => agrees s (value k)) cs in
      let weight := rsum (map fst kept) in
      let divisor := if normalize then if Req_EM_T weight 0 then 1 else weight else 1 in
      let delta := rsum (map value kept) / divisor in
      nth i (dat y) 0 = nth i (dat base) 0 + lambda * delta /\
      (* not opposite to the elected sign *)
      ((normalize = true -> forall k, In k cs -> 0 <= fst k) -> 0 <= s * delta) /\
      (* nothing that matters is dropped where all agree *)
      ((forall k, In k cs -> 0 <= value k) \/ (forall k, In k cs -> value k <= 0) -> rsum (map value kept) = rsum (map value cs)).
Proof.
  intros E. destruct (gta_outcome _ _ _ _ _ _ _ _ _ _ E) as (base & cs & H1 & H2 & H3 & H4 & H5). exists base, cs. repeat (split; [assumption|]).
  intros i Hi value s kept weight divisor delta.
  assert (Hf : forall f : R * list R -> R, rsum (map (fun k => f k * (if agrees s (value k) then 1 else 0)) cs) = rsum (map f kept)).
  { intros f. unfold kept. clearbody s. clear. induction cs as [|k cs IH]; [reflexivity|]. cbn [map filter]. rewrite rsum_cons, IH.
    destruct (agrees s (value k)); cbn [map]; rewrite ?rsum_cons; ring. }
  assert (Hs : forall k, In k kept -> 0 <= s * value k).
  { intros k Hk. apply filter_In in Hk as [_ Hk]. unfold agrees in Hk. destruct (Rlt_dec 0 (s * value k)); [lra|discriminate]. }
  assert (Hsum : 0 <= s * rsum (map value kept)).
  { rewrite <- rsum_mul. apply rsum_nonneg. intros v Hv. apply in_map_iff in Hv as (k & <- & Hk). now apply Hs. }
  split; [|split].
  - rewrite (H5 i Hi). f_equal. unfold mix_pairs. cbn [g_consensus]. cbv zeta. rewrite !map_map. cbn [fst snd].
    assert (Ev : map (fun x : R * list R => nth i (snd x) 0 * fst x) cs = map value cs) by (apply map_ext; intros; unfold value; ring).
    rewrite Ev, majority_elected. fold s.
    assert (Ek : forall k : R * list R, (if Req_EM_T (sign (nth i (snd k) 0 * fst k)) s then 1 else 0) = if agrees s (value k) then 1 else 0).
    { intros k. replace (nth i (snd k) 0 * fst k) with (value k) by (unfold value; ring). apply agrees_sign. }
    rewrite (rsum_ext (fun x => fst x * _) (fun k => fst k * (if agrees s (value k) then 1 else 0))) by (intros k _; now rewrite Ek).
    rewrite (rsum_ext (fun x => nth i (snd x) 0 * fst x * _) (fun k => value k * (if agrees s (value k) then 1 else 0))) by (intros k _; rewrite Ek; unfold value; ring).
    rewrite !Hf. fold weight. unfold delta, divisor. destruct normalize, (Req_EM_T lambda 1) as [->|]; unfold Rdiv; rewrite ?Rinv_1; ring.
  - intros Hw. unfold delta, Rdiv. rewrite <- Rmult_assoc. apply Rmult_le_pos; [exact Hsum|]. unfold divisor. destruct normalize; [|rewrite Rinv_1; lra].
    destruct (Req_EM_T weight 0); [rewrite Rinv_1; lra|]. assert (0 <= weight) by (apply rsum_nonneg; intros v Hv; apply in_map_iff in Hv as (k & <- & Hk); apply filter_In in Hk as [Hk _]; auto).
    left. apply Rinv_0_lt_compat. lra.
  - intros Hall. rewrite <- (Hf value). apply rsum_ext. intros k Hk. unfold agrees.
    destruct (Rlt_dec 0 (s * value k)) as [|Hn]; [ring|]. destruct (Req_EM_T (value k) 0) as [->|Hv0]; [ring|]. exfalso. apply Hn. clear Hn.
    assert (Hone : forall f : R -> R, (forall k, In k cs -> 0 <= f (value k)) -> f (value k) <= rsum (map f (map value cs))).
    { intros f Hp. clear - Hk Hp. induction cs as [|k' cs IH]; [contradiction|]. cbn [map]. rewrite rsum_cons. destruct Hk as [->|Hk].
      - assert (0 <= rsum (map f (map value cs))) by (apply rsum_nonneg; intros v Hv; rewrite map_map in Hv; apply in_map_iff in Hv as (k' & <- & Hk'); apply Hp; now right). lra.
      - specialize (IH Hk ltac:(intros; apply Hp; now right)). specialize (Hp k' (or_introl eq_refl)). lra. }
    unfold s. rewrite <- majority_elected. destruct Hall as [Hall|Hall].
    + pose proof (Hall k Hk) as Hk0. assert (0 < value k) by lra. replace (majority_sign c (map value cs)) with 1; [lra|]. unfold majority_sign. destruct c.
      * specialize (Hone sign). assert (Hge : sign (value k) <= rsum (map sign (map value cs))).
        { apply Hone. intros k' Hk'. specialize (Hall k' Hk'). destruct (sign_cases (value k')) as [(? & ->)|[(? & ->)|(? & ->)]]; lra. }
        destruct (sign_cases (value k)) as [(? & E0)|[(? & E0)|(? & E0)]]; rewrite E0 in Hge; try lra. destruct (Rle_dec _ _); [reflexivity|lra].
      * specialize (Hone (fun v => v) Hall). rewrite map_id in Hone. destruct (Rle_dec _ _); [reflexivity|lra].
    + pose proof (Hall k Hk) as Hk0. assert (value k < 0) by lra. replace (majority_sign c (map value cs)) with (-1); [lra|]. unfold majority_sign. destruct c.
      * specialize (Hone (fun v => -1 * sign v)). assert (Hge : -1 * sign (value k) <= rsum (map (fun v => -1 * sign v) (map value cs))).
        { apply Hone. intros k' Hk'. specialize (Hall k' Hk'). destruct (sign_cases (value k')) as [(? & ->)|[(? & ->)|(? & ->)]]; lra. }
        rewrite rsum_mul in Hge. destruct (sign_cases (value k)) as [(? & E0)|[(? & E0)|(? & E0)]]; rewrite E0 in Hge; try lra. destruct (Rle_dec _ _); [lra|reflexivity].
      * specialize (Hone (fun v => -1 * v)). assert (Hge : -1 * value k <= rsum (map (fun v => -1 * v) (map value cs))).
        { apply Hone. intros k' Hk'. specialize (Hall k' Hk'). lra. }
        rewrite rsum_mul, map_id in Hge. destruct (Rle_dec _ _); [lra|reflexivity].
Qed.

(** With a negative weight, normalization divides by a negative sum and turns the
    merged delta against the elected sign: the task vector -1 with weight -1
    contributes +1, +1 is elected, and the merged delta is -1. *)
Definition s1 (a : R) : tensor := {| shp := [1%nat]; dat := [a] |}.
Definition no_choice (_ : string) : choices := {| c_order := []; c_ranks := []; c_draw := [] |}.
Definition par (w : R) : tparams := {| p_weight := w; p_density := 1; p_gamma := 0; p_epsilon := 0 |}.
Lemma elected_one c : elected c [-1 * -1] = 1.
Proof.
  destruct c; unfold elected; cbn [filter rsum fold_right].
  - destruct (Rlt_dec (-1 * -1) 0), (Rlt_dec 0 (-1 * -1)); cbn; try reflexivity; lra.
  - destruct (Rle_dec _ _); [reflexivity|lra].
Qed.
Theorem C31_negative_weight_refuted (c : consensus) :
  elected c [-1 * -1] = 1 /\
  gta {| g_consensus := Some c; g_sparsify := None |} false true None 1 "base" [("base", s1 0); ("m", s1 (-1))] [("m", par (-1))] no_choice = Ok (s1 (-1)).
Proof.
  split; [apply elected_one|].
  destruct (C30_succeeds (Some c) true 1 None "base" [("base", s1 0); ("m", s1 (-1))] [("m", par (-1))] no_choice) as (y & E).
  { unfold dkeys; cbn; auto. } { intros k x [[= <- <-]|[[= <- <-]|[]]] Hne; [congruence|unfold dkeys; cbn; auto]. }
  rewrite E. destruct (C31_value c None false true None 1 _ _ _ _ _ E) as (base & cs & Eb & HF & Es & Hl & Hv).
  change (Some (s1 0) = Some base) in Eb. injection Eb as <-.
  assert (Em : merged false "base" (s1 0) [("base", s1 0); ("m", s1 (-1))] = [("m", [-1])]) by reflexivity.
  rewrite Em in HF. inversion HF as [|? [w d] ? ? Hc HF' E1 E2]. subst. inversion HF'. subst. clear HF HF'.
  destruct Hc as (p & Ep & Ew & Ed). change (dget [("m", par (-1))] "m") with (Some (par (-1))) in Ep. injection Ep as <-. cbn in Ew, Ed. subst w d.
  specialize (Hv 0%nat ltac:(cbn; lia)). cbn [map fst snd nth vsub map2] in Hv. destruct Hv as (Hv & _ & _).
  assert (E1 : elected c [-1 * (-1 - 0)] = 1) by (replace (-1 * (-1 - 0)) with (-1 * -1) by ring; apply elected_one).
  rewrite E1 in Hv. unfold agrees in Hv. cbn [filter fst snd nth] in Hv. destruct (Rlt_dec 0 (1 * (-1 * (-1 - 0)))); [|lra]. cbn [map fst rsum fold_right nth snd] in Hv.
  destruct (Req_EM_T (-1 + 0) 0); [lra|]. f_equal. destruct y as [sy dy]. cbn [shp dat s1] in *. subst sy. unfold s1. f_equal.
  destruct dy as [|v [|? ?]]; cbn in Hl; try lia. f_equal. cbn [nth] in Hv. rewrite Hv. field.
Qed.

Example C31_nonvacuous : exists y, gta {| g_consensus := Some CSum; g_sparsify := None |} false true None 1 "base"
    [("a", s1 3); ("base", s1 1); ("b", s1 (-4))] [("a", par 1); ("b", par (1/2))] no_choice = Ok y.
Proof. apply C30_succeeds; [unfold dkeys; cbn; auto|]. intros k x [[= <- <-]|[[= <- <-]|[[= <- <-]|[]]]] Hne; unfold dkeys; cbn; try congruence; auto. Qed.
Example C30_nonvacuous :
  gta {| g_consensus := Some CCount; g_sparsify := Some Magnitude |} false true (Some L1) 1 "base" [("a", s1 3); ("base", s1 1)] [("a", par 1)] no_choice = Ok (s1 3).
Proof. eapply C30_single with (base := s1 1) (m := "a") (p := par 1); [apply perm_swap|discriminate|reflexivity|reflexivity|reflexivity|discriminate|reflexivity|reflexivity|cbn; lra]. Qed.

Print Assumptions C30_single.
Print Assumptions C30_order.
Print Assumptions C31_value.
