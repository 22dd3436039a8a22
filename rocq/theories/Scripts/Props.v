(** C69: the configurations written by mergekit-legacy and mergekit-layershuffle. *)
From Coq Require Import QArith Lia.
From Verif.Base Require Import Py PyFacts.
From Verif.Common Require Import Model.
From Verif.Config Require Import Model.
From Verif.Scripts Require Import Model.
Local Open Scope string_scope.
Local Open Scope list_scope.

(** ** Specification *)
(** the models named on the command line, in order, and the base model last if it is not among them *)
Definition named (a : legacy_args) : list string :=
  a_merge a ++ match a_base a with Some b => if eqb b "" || mem b (a_merge a) then [] else [b] | None => [] end.
(** one value is for every model, several are for the models in order *)
Definition value_for (vs : list Q) (i : nat) : option pval :=
  match vs with [v] => Some (PNum v) | _ => option_map PNum (nth_error vs i) end.
Definition enough_models (vs : list Q) (n : nat) : Prop := (length vs <= 1 \/ length vs <= n)%nat.
Definition param_is (ps : params) (k : string) (v : option pval) : Prop := param_get ps k = v.

Lemma set_params_spec key vs : forall ms k, (k + length vs <= length ms)%nat ->
  exists ms', set_params key ms (combine (seq k (length vs)) vs) = Ok ms' /\ map fst ms' = map fst ms /\
    forall i m ps, nth_error ms i = Some (m, ps) ->
      nth_error ms' i = Some (m, match nth_error vs (i - k) with Some v => if (k <=? i)%nat then dset ps key (PNum v) else ps | None => ps end).
Proof.
  induction vs as [|v vs IH]; intros ms k Hk; cbn [length seq combine set_params].
  - exists ms. split; [reflexivity|]. split; [reflexivity|]. intros i m ps Hi. rewrite Hi. now destruct (i - k)%nat.
  - cbn in Hk. unfold set_param. cbn [fst snd]. destruct (nth_error ms k) as [[m0 ps0]|] eqn:E.
    2: { apply nth_error_None in E. lia. }
    cbn [rbind]. set (ms1 := firstn k ms ++ (m0, dset ps0 key (PNum v)) :: skipn (S k) ms).
    pose proof (nth_error_split ms k E) as (a & b & Ems & Hka). assert (Hf : firstn k ms = a) by (rewrite Ems, <- Hka; rewrite firstn_app, Nat.sub_diag, firstn_O, app_nil_r; apply firstn_all).
    assert (Hs : skipn (S k) ms = b) by (rewrite Ems, <- Hka; replace (S (length a)) with (length (a ++ [(m0, ps0)])) by (rewrite app_length; cbn; lia); change (a ++ (m0, ps0) :: b) with (a ++ [(m0, ps0)] ++ b); rewrite app_assoc, skipn_app, skipn_all, Nat.sub_diag; reflexivity).
    assert (Hl : length ms1 = length ms) by (unfold ms1; rewrite Hf, Hs, Ems, !app_length; reflexivity).
    destruct (IH ms1 (S k)) as (ms' & E' & Hm & Hn); [lia|]. exists ms'. split; [exact E'|]. split.
    + rewrite Hm. unfold ms1. rewrite Hf, Hs, Ems, !map_app. reflexivity.
    + intros i m ps Hi. destruct (Nat.eq_dec i k) as [->|Hne].
      * rewrite E in Hi. injection Hi as <- <-. assert (H1 : nth_error ms1 k = Some (m0, dset ps0 key (PNum v))).
        { unfold ms1. rewrite Hf, <- Hka, nth_error_app2, Nat.sub_diag by lia. reflexivity. }
        rewrite (Hn _ _ _ H1), Nat.sub_diag. cbn [nth_error]. rewrite Nat.leb_refl. replace (k - S k)%nat with 0%nat by lia.
        replace (S k <=? k)%nat with false by (symmetry; apply Nat.leb_gt; lia). now destruct (nth_error vs 0).
      * assert (H1 : nth_error ms1 i = Some (m, ps)).
        { unfold ms1. rewrite Hf, Hs. rewrite Ems in Hi. destruct (Nat.lt_ge_cases i (length a)) as [Hlt|Hge].
          - rewrite nth_error_app1 in * by lia. exact Hi.
          - rewrite nth_error_app2 in * by lia. destruct (i - length a)%nat eqn:D; [lia|]. exact Hi. }
        rewrite (Hn _ _ _ H1). destruct (Nat.lt_ge_cases i k) as [Hlt|Hge].
        -- replace (S k <=? i)%nat with false by (symmetry; apply Nat.leb_gt; lia). replace (k <=? i)%nat with false by (symmetry; apply Nat.leb_gt; lia).
           destruct (nth_error vs (i - S k)), (nth_error (v :: vs) (i - k)); reflexivity.
        -- replace (i - k)%nat with (S (i - S k)) by lia. cbn [nth_error].
           replace (S k <=? i)%nat with true by (symmetry; apply Nat.leb_le; lia). replace (k <=? i)%nat with true by (symmetry; apply Nat.leb_le; lia). reflexivity.
Qed.
Lemma set_params_fails key vs : forall ms k, (length ms < k + length vs)%nat -> (k <= length ms)%nat ->
  set_params key ms (combine (seq k (length vs)) vs) = Err IndexError.
Proof.
  induction vs as [|v vs IH]; intros ms k Hk Hle; cbn in Hk; [lia|]. cbn [length seq combine set_params]. unfold set_param. cbn [fst snd].
  destruct (nth_error ms k) as [[m0 ps0]|] eqn:E; [|reflexivity]. cbn [rbind].
  assert (Hlt : (k < length ms)%nat) by (apply nth_error_Some; congruence).
  assert (Hl : length (firstn k ms ++ (m0, dset ps0 key (PNum v)) :: skipn (S k) ms) = length ms) by (rewrite app_length, firstn_length; cbn [length]; rewrite skipn_length; lia).
  apply IH; rewrite Hl; lia.
Qed.
Lemma spread_spec key vs ms : enough_models vs (length ms) ->
  exists ms', spread key vs ms = Ok ms' /\ map fst ms' = map fst ms /\
    forall i m ps, nth_error ms i = Some (m, ps) ->
      nth_error ms' i = Some (m, match value_for vs i with Some v => dset ps key v | None => ps end).
Proof.
  intros He. unfold spread. destruct vs as [|v vs]; [exists ms; split; [reflexivity|split; [reflexivity|]]; intros i m ps Hi; rewrite Hi; destruct i; reflexivity|].
  destruct vs as [|v2 vs].
  - destruct (set_params_spec key (repeat v (length ms)) ms 0) as (ms' & E & Hm & Hn); [rewrite repeat_length; lia|]. exists ms'. split; [exact E|]. split; [exact Hm|].
    intros i m ps Hi. rewrite (Hn _ _ _ Hi). assert (Hlt : (i < length ms)%nat) by (apply nth_error_Some; congruence).
    assert (Hr : nth_error (repeat v (length ms)) (i - 0) = Some v) by (rewrite Nat.sub_0_r; apply nth_error_repeat; exact Hlt).
    rewrite Hr. reflexivity.
  - destruct He as [He|He]; [cbn in He; lia|]. destruct (set_params_spec key (v :: v2 :: vs) ms 0) as (ms' & E & Hm & Hn); [exact He|].
    exists ms'. split; [exact E|]. split; [exact Hm|]. intros i m ps Hi. rewrite (Hn _ _ _ Hi). cbn [value_for]. rewrite Nat.sub_0_r. cbn [Nat.leb].
    destruct (nth_error (v :: v2 :: vs) i); reflexivity.
Qed.
Lemma spread_fails key vs ms : ~ enough_models vs (length ms) -> spread key vs ms = Err IndexError.
Proof.
  unfold enough_models. intros He. unfold spread. destruct vs as [|v [|v2 vs]]; [cbn in He; lia|cbn in He; lia|]. apply set_params_fails; cbn [length] in *; lia.
Qed.

Lemma nth_error_combine {A B} (l : list A) : forall (l' : list B) i x y, nth_error l i = Some x -> nth_error l' i = Some y -> nth_error (combine l l') i = Some (x, y).
Proof. induction l as [|a l IH]; intros [|b l'] [|i] x y H1 H2; try discriminate; cbn in *; [congruence|now apply IH]. Qed.
Definition initial (a : legacy_args) : list (string * dict string pval) := map (fun m => (m, [])) (named a).
Lemma initial_eq a : match a_base a with
            | Some b => if eqb b "" || mem b (a_merge a) then map (fun m => (m, [] : dict string pval)) (a_merge a) else map (fun m => (m, [] : dict string pval)) (a_merge a) ++ [(b, [] : dict string pval)]
            | None => map (fun m => (m, [] : dict string pval)) (a_merge a)
            end = initial a.
Proof.
  unfold initial, named. destruct (a_base a) as [b|]; [destruct (eqb b "" || mem b (a_merge a))|]; rewrite ?app_nil_r, ?map_app; reflexivity.
Qed.

(** ** Theorems *)
(** What the configuration says is what the command line said. *)
Theorem C69_legacy a method c : legacy a = Ok (method, c) ->
  method = a_method a /\ mc_slices c = None /\ mc_modules c = None /\
  mc_dtype c = (if a_bf16 a then Some "bfloat16" else None) /\
  match a_base a with Some b => exists r, parse_ref b = Ok r /\ mc_base c = Some r | None => mc_base c = None end /\
  exists ms, mc_models c = Some ms /\ length ms = length (named a) /\
  forall i name, nth_error (named a) i = Some name -> exists m, nth_error ms i = Some m /\ parse_ref name = Ok (im_model m) /\
    (forall k, param_is (im_params m) k
      (if eqb k "density" then value_for (a_density a) i
       else if eqb k "weight" then (if eqb (a_method a) "slerp" then None else value_for (a_weight a) i)
       else None)) /\
    (forall k, param_is (mc_params c) k
      (if eqb k "normalize" then Some (num_of_bool (a_normalize a))
       else if eqb k "int8_mask" then (if a_int8_mask a then Some (num_of_bool true) else None)
       else if eqb k "t" then (if eqb (a_method a) "slerp" then value_for (a_weight a) 0 else None)
       else None)).
Proof.
  unfold legacy. cbv zeta. rewrite initial_eq. destruct (rmapM (fun m => parse_ref (fst m)) (initial a)) as [refs|] eqn:Er; [|discriminate]. cbn [rbind].
  assert (Hli : length (initial a) = length (named a)) by apply map_length.
  assert (Dd : enough_models (a_density a) (length (initial a)) \/ ~ enough_models (a_density a) (length (initial a))) by (unfold enough_models; lia).
  destruct Dd as [Dd|Dd]; [|rewrite (spread_fails _ _ _ Dd); discriminate].
  destruct (spread_spec "density" _ _ Dd) as (ms1 & E1 & Hm1 & Hn1). rewrite E1. cbn [rbind].
  assert (Hl1 : length ms1 = length (initial a)) by (rewrite <- (map_length fst ms1), Hm1; apply map_length).
  set (slerp := eqb (a_method a) "slerp"). 
  assert (H2 : forall ms2 ps, (if slerp then match a_weight a with [w] => Ok (ms1, [("t", PNum w)]) | _ => Err AssertionError end
     else let! ms := spread "weight" (a_weight a) ms1 in Ok (ms, [])) = Ok (ms2, ps) ->
     map fst ms2 = map fst ms1 /\
     (forall i m p, nth_error ms1 i = Some (m, p) -> nth_error ms2 i = Some (m, if slerp then p else match value_for (a_weight a) i with Some v => dset p "weight" v | None => p end)) /\
     (forall k, dget ps k = if eqb k "t" then if slerp then value_for (a_weight a) 0 else None else None)).
  { intros ms2 ps. destruct slerp.
    - destruct (a_weight a) as [|w [|]]; try discriminate. intros [= <- <-]. split; [reflexivity|]. split; [auto|]. intros k. cbn. destruct (eqb k "t"); reflexivity.
    - assert (Dw : enough_models (a_weight a) (length ms1) \/ ~ enough_models (a_weight a) (length ms1)) by (unfold enough_models; lia).
      destruct Dw as [Dw|Dw]; [|rewrite (spread_fails _ _ _ Dw); discriminate]. destruct (spread_spec "weight" _ _ Dw) as (ms' & E' & Hm' & Hn'). rewrite E'. cbn [rbind].
      intros [= <- <-]. split; [exact Hm'|]. split; [exact Hn'|]. intros k. cbn. now destruct (eqb k "t"). }
  destruct (if slerp then _ else _) as [[ms2 ps]|] eqn:E2; [|discriminate]. cbn [rbind]. destruct (H2 _ _ eq_refl) as (Hm2 & Hn2 & Hps). clear H2.
  destruct (a_naive_count a); [discriminate|].
  destruct (match a_base a with Some b => let! r := parse_ref b in Ok (Some r) | None => Ok None end) as [base|] eqn:Eb; [|discriminate]. cbn [rbind].
  destruct (validate_config _) as [[]|]; [|discriminate]. cbn [rbind]. intros [= <- <-]. cbn [mc_slices mc_modules mc_dtype mc_base mc_models mc_params].
  repeat (split; [reflexivity|]). split.
  { destruct (a_base a) as [b|]; [|now injection Eb]. destruct (parse_ref b) as [r|]; [|discriminate]. exists r. split; [reflexivity|]. now injection Eb. }
  apply rmapM_Ok_Forall2 in Er. assert (Hlr : length refs = length (initial a)) by (clear -Er; induction Er; cbn; congruence).
  assert (Hl2 : length ms2 = length (initial a)) by (rewrite <- (map_length fst ms2), Hm2, map_length; exact Hl1).
  eexists. split; [reflexivity|]. split; [rewrite map_length, combine_length; lia|].
  intros i name Hi. assert (H0 : nth_error (initial a) i = Some (name, [])) by (unfold initial; rewrite nth_error_map, Hi; reflexivity).
  assert (Hr : exists r, nth_error refs i = Some r /\ parse_ref name = Ok r).
  { clear -Er H0. revert i H0. induction Er as [|x y l l' Hxy Hl IH]; intros [|i] H0; try discriminate; cbn in *.
    - injection H0 as ->. exists y. auto.
    - now apply IH. }
  destruct Hr as (r & Hr & Hpr). pose proof (Hn2 _ _ _ (Hn1 _ _ _ H0)) as H3.
  eexists. split; [rewrite nth_error_map; assert (Hc : nth_error (combine refs ms2) i = Some (r, (name, if slerp then match value_for (a_density a) i with Some v => dset [] "density" v | None => [] end
      else match value_for (a_weight a) i with Some v => dset (match value_for (a_density a) i with Some v => dset [] "density" v | None => [] end) "weight" v
                | None => match value_for (a_density a) i with Some v => dset [] "density" v | None => [] end end)));
    [|rewrite Hc; reflexivity]|].
  { apply nth_error_combine; assumption. }
  cbn [im_model im_params fst snd]. split; [exact Hpr|]. split.
  - intros k. unfold param_is, param_get. fold slerp. 
    assert (Hne : eqb "weight" "density" = false) by reflexivity.
    destruct slerp, (value_for (a_density a) i) as [v|]; try (destruct (value_for (a_weight a) i) as [w|]);
      rewrite ?dget_dset; (destruct (eqb_spec k "density") as [->|]; [reflexivity|]); destruct (eqb k "weight"); reflexivity.
  - intros k. unfold param_is, param_get. rewrite dget_dset. destruct (eqb_spec k "normalize") as [->|]; [reflexivity|].
    destruct (a_int8_mask a); rewrite ?dget_dset; destruct (eqb_spec k "int8_mask") as [->|]; rewrite ?Hps; try reflexivity.
Qed.

(** Which command lines are accepted. *)
Theorem C69_legacy_accepts a : (exists r, legacy a = Ok r) <->
  named a <> [] /\ (forall s, In s (named a) -> exists r, parse_ref s = Ok r) /\
  (forall b, a_base a = Some b -> exists r, parse_ref b = Ok r) /\
  enough_models (a_density a) (length (named a)) /\
  (if eqb (a_method a) "slerp" then length (a_weight a) = 1%nat else enough_models (a_weight a) (length (named a))) /\
  a_naive_count a = false.
Proof.
  unfold legacy. cbv zeta. rewrite initial_eq. assert (Hli : length (initial a) = length (named a)) by apply map_length.
  assert (HR : (exists refs, rmapM (fun m => parse_ref (fst m)) (initial a) = Ok refs) <-> forall s, In s (named a) -> exists r, parse_ref s = Ok r).
  { clear Hli. unfold initial. induction (named a) as [|s l IH]; cbn [map rmapM]; [split; [easy|eauto]|]. split.
    - intros (refs & H). cbn [fst] in H. destruct (parse_ref s) as [r|] eqn:E; [|discriminate]. cbn [rbind] in H.
      destruct (rmapM _ (map _ l)) as [refs'|]; [|discriminate]. intros x [<-|Hx]; [eauto|]. apply IH; eauto.
    - intros H. destruct (H s (or_introl eq_refl)) as (r & E). cbn [fst]. rewrite E. cbn [rbind]. destruct (proj2 IH) as (refs & E'); [intros x Hx; apply H; now right|].
      rewrite E'. cbn [rbind]. eauto. }
  destruct (rmapM (fun m => parse_ref (fst m)) (initial a)) as [refs|] eqn:Er; cbn [rbind].
  2: { split; [intros (? & ?); discriminate|]. intros (_ & H & _). apply HR in H as (? & ?). discriminate. }
  assert (Hp : forall s, In s (named a) -> exists r, parse_ref s = Ok r) by (apply HR; eauto). clear HR.
  apply rmapM_Ok_Forall2 in Er. assert (Hlr : length refs = length (initial a)) by (clear -Er; induction Er; cbn; congruence).
  assert (Dd : enough_models (a_density a) (length (initial a)) \/ ~ enough_models (a_density a) (length (initial a))) by (unfold enough_models; lia).
  destruct Dd as [Dd|Dd].
  2: { rewrite (spread_fails _ _ _ Dd). cbn [rbind]. split; [intros (? & ?); discriminate|]. rewrite Hli in Dd. tauto. }
  destruct (spread_spec "density" _ _ Dd) as (ms1 & E1 & Hm1 & _). rewrite E1. cbn [rbind].
  assert (Hl1 : length ms1 = length (initial a)) by (rewrite <- (map_length fst ms1), Hm1; apply map_length).
  set (W := if eqb (a_method a) "slerp" then length (a_weight a) = 1%nat else enough_models (a_weight a) (length (named a))).
  assert (HW : (exists ms2 ps, (if eqb (a_method a) "slerp" then match a_weight a with [w] => Ok (ms1, [("t", PNum w)]) | _ => Err AssertionError end
     else let! ms := spread "weight" (a_weight a) ms1 in Ok (ms, [])) = Ok (ms2, ps) /\ W /\ length ms2 = length (initial a)) \/
     (exists e, (if eqb (a_method a) "slerp" then match a_weight a with [w] => Ok (ms1, [("t", PNum w)]) | _ => Err AssertionError end
     else let! ms := spread "weight" (a_weight a) ms1 in Ok (ms, [])) = Err e) /\ ~ W).
  { unfold W. destruct (eqb (a_method a) "slerp").
    - destruct (a_weight a) as [|w [|w' l]]; [right; split; [eauto|cbn; lia]|left; eauto 10|right; split; [eauto|cbn; lia]].
    - rewrite <- Hli, <- Hl1. assert (Dw : enough_models (a_weight a) (length ms1) \/ ~ enough_models (a_weight a) (length ms1)) by (unfold enough_models; lia).
      destruct Dw as [Dw|Dw]; [|right; rewrite (spread_fails _ _ _ Dw); split; [cbn; eauto|exact Dw]].
      destruct (spread_spec "weight" _ _ Dw) as (ms' & E' & Hm' & _). left. rewrite E'. exists ms', []. split; [reflexivity|]. split; [exact Dw|].
      rewrite <- (map_length fst ms'), Hm'. apply map_length. }
  destruct HW as [(ms2 & ps & E2 & HW & Hl2)|((e & E2) & HW)].
  2: { rewrite E2. cbn [rbind]. split; [intros (? & ?); discriminate|]. tauto. }
  rewrite E2. cbn [rbind]. destruct (a_naive_count a) eqn:Hnc; [split; [intros (? & ?); discriminate|intuition discriminate]|].
  assert (Hb : (exists base, match a_base a with Some b => let! r := parse_ref b in Ok (Some r) | None => Ok None end = Ok base) <-> forall b, a_base a = Some b -> exists r, parse_ref b = Ok r).
  { destruct (a_base a) as [b|]; [|split; [discriminate|eauto]]. destruct (parse_ref b) as [r|] eqn:E; cbn [rbind]; split; eauto.
    - intros _ b' [= <-]. eauto.
    - intros (? & ?). discriminate.
    - intros H. destruct (H b eq_refl) as (? & ?). congruence. }
  destruct (match a_base a with Some b => let! r := parse_ref b in Ok (Some r) | None => Ok None end) as [base|] eqn:Eb; cbn [rbind].
  2: { split; [intros (? & ?); discriminate|]. intros (_ & _ & H & _). apply Hb in H as (? & ?). discriminate. }
  assert (Hbb : forall b, a_base a = Some b -> exists r, parse_ref b = Ok r) by (apply Hb; eauto).
  unfold validate_config. cbn [mc_modules mc_slices mc_models truthy]. rewrite <- Hli, <- Hl2.
  destruct (named a) as [|s l] eqn:En; cbn [length] in Hli.
  - destruct refs; [|cbn in Hlr; lia]. cbn. split; [intros (? & ?); discriminate|tauto].
  - destruct refs as [|r0 refs]; [cbn in Hlr; lia|]. destruct ms2 as [|m2 ms2]; [cbn in Hl2; lia|]. cbn [combine map truthy]. cbn [Nat.eqb Nat.add rbind].
    split; [|eauto]. intros _. rewrite Hl2, Hli. split; [discriminate|]. split; [exact Hp|]. split; [exact Hbb|]. rewrite Hli in Dd. split; [exact Dd|]. split; [exact HW|reflexivity].
Qed.

(** *** layershuffle *)
(** The loop over the layers takes every layer exactly once, in order, from the model drawn for it. *)
Theorem C69_shuffled choice n : shuffled choice n = map (fun i => one_slice (choice (Z.of_nat i)) (Z.of_nat i) (Z.of_nat i + 1)) (seq 0 n).
Proof.
  unfold shuffled. assert (H : forall l out, fold_left (add_layer choice) l out = out ++ map (fun i => one_slice (choice i) i (i + 1)) l).
  { induction l as [|i l IH]; intros out; cbn [fold_left map]; [now rewrite app_nil_r|]. rewrite IH. unfold add_layer, ref_equals_str.
    assert (E : match rev out with
      | [] => out ++ [one_slice (choice i) i (i + 1)]
      | s :: before => match os_sources s with [] => out ++ [one_slice (choice i) i (i + 1)] | src :: _ => out ++ [one_slice (choice i) i (i + 1)] end
      end = out ++ [one_slice (choice i) i (i + 1)]) by (destruct (rev out) as [|s ?]; [reflexivity|destruct (os_sources s); reflexivity]).
    rewrite E, <- app_assoc. reflexivity. }
  rewrite H, map_map. reflexivity.
Qed.
(** With --full-random every model contributes the given share of its number of layers. *)
Theorem C69_full_random layers draw mws :
  length (full_random layers draw mws) = fold_right (fun mw n => (Z.to_nat (Qtrunc (inject_Z (layers (fst mw)) * snd mw)) + n)%nat) 0%nat mws /\
  forall s, In s (full_random layers draw mws) -> exists m q k, In (m, q) mws /\ s = one_slice m (draw m k) (draw m k + 1) /\
    (k < Z.to_nat (Qtrunc (inject_Z (layers m) * q)))%nat.
Proof.
  split.
  - induction mws as [|mw mws IH]; cbn; [reflexivity|]. rewrite app_length, map_length, seq_length. unfold full_random in IH. now rewrite IH.
  - intros s Hs. apply in_flat_map in Hs as ([m q] & Hmq & Hs). apply in_map_iff in Hs as (k & <- & Hk). apply in_seq in Hk. cbn [fst snd] in *. exists m, q, k. split; [exact Hmq|]. split; [reflexivity|lia].
Qed.

(** ** What is wrong *)
(** --naive-count is never accepted: the configuration cannot hold the string it stands for. *)
Theorem C69_naive_count_refuted a : a_naive_count a = true -> forall r, legacy a <> Ok r.
Proof. intros H r E. assert (X : exists r, legacy a = Ok r) by eauto. apply C69_legacy_accepts in X. destruct X as (_ & _ & _ & _ & _ & X). congruence. Qed.
(** --full-random draws layers from the share only, so the deeper layers are never used. *)
Theorem C69_deep_layers_refuted layers draw mws :
  (forall m q k, In (m, q) mws -> (0 <= draw m k < Qtrunc (inject_Z (layers m) * q))%Z) ->
  forall s src, In s (full_random layers draw mws) -> In src (os_sources s) ->
  exists q, In (is_model src, q) mws /\ (is_end src <= Qtrunc (inject_Z (layers (is_model src)) * q))%Z.
Proof.
  intros Hd s src Hs Hsrc. apply C69_full_random in Hs as (m & q & k & Hm & -> & Hk). destruct Hsrc as [<-|[]]. cbn [is_model is_end].
  exists q. split; [exact Hm|]. specialize (Hd m q k Hm). lia.
Qed.
(** The command never gets that far: the object it asks for the number of layers has no such method. *)
Theorem C69_layershuffle_refuted arch choice models r : layershuffle arch choice models <> Ok r.
Proof.
  unfold layershuffle. destruct (rmapM _ models) as [[|m0 ms]|]; cbn [rbind]; try discriminate. destruct (arch m0); cbn; discriminate.
Qed.

(** ** Examples *)
Definition ex_args : legacy_args :=
  {| a_merge := ["org/a"; "org/b"]; a_density := [1#2]; a_weight := [3#10; 7#10]; a_method := "ties"; a_base := Some "org/base";
     a_normalize := true; a_int8_mask := false; a_naive_count := false; a_bf16 := true |}.
Example C69_legacy_nonvacuous : exists c, legacy ex_args = Ok ("ties", c) /\ named ex_args = ["org/a"; "org/b"; "org/base"] /\
  value_for (a_density ex_args) 2 = Some (PNum (1#2)) /\ value_for (a_weight ex_args) 1 = Some (PNum (7#10)) /\ value_for (a_weight ex_args) 2 = None.
Proof. eexists. repeat split; vm_compute; reflexivity. Qed.
Example C69_deep_layers_nonvacuous : let m := {| mr_model := {| mp_path := "a"; mp_revision := None |}; mr_lora := None; mr_arch := None |} in
  length (full_random (fun _ => 32%Z) (fun _ k => Z.of_nat k) [(m, 1#2)]) = 16%nat /\
  forall s src, In s (full_random (fun _ => 32%Z) (fun _ k => Z.of_nat k) [(m, 1#2)]) -> In src (os_sources s) -> (is_end src <= 16)%Z.
Proof.
  cbv zeta. split; [reflexivity|]. intros s src Hs Hsrc. vm_compute in Hs.
  repeat (destruct Hs as [<-|Hs]; [destruct Hsrc as [<-|[]]; vm_compute; discriminate|]). destruct Hs.
Qed.

Print Assumptions C69_legacy.
Print Assumptions C69_legacy_accepts.
Print Assumptions C69_shuffled.
Print Assumptions C69_full_random.
Print Assumptions C69_naive_count_refuted.
Print Assumptions C69_deep_layers_refuted.
Print Assumptions C69_layershuffle_refuted.
