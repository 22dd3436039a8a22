(** C42, continued: what a genome definition is accepted for, the settings common to all genotypes, the initial genotype,
    smooth configurations, and that no genotype of the right length is refused. *)
From Coq Require Import QArith Qabs Qminmax Lqa.
From Verif.Base Require Import Py PyFacts.
From Verif.Config Require Import Model Spec Proofs.
From Verif.Evo Require Import Model Spec Proofs PropsGenome Examples.
Local Open Scope string_scope.
Local Open Scope list_scope.

Section Theorems.
Context {M : Type} {E : Eqb M}.
Variables (topk2 : list Q -> nat * nat) (softmax1 : Q -> Q -> Q).
Implicit Types (g : genome M) (c : merge_config M).
Notation config := (genotype_merge_config topk2 softmax1).

(** A definition is accepted exactly under these conditions. *)
Theorem C42_accepted g : validate g = Ok tt <->
  In (g_method g) ["linear"; "task_arithmetic"; "ties"; "dare_ties"; "slerp"] /\
  (In (g_method g) ["ties"; "dare_ties"; "task_arithmetic"] -> g_base g <> None) /\
  (g_method g = "slerp" -> g_smooth g = false /\ filters g = []) /\
  ((1 <= g_granularity g)%Z -> (g_granularity g | g_layers g)%Z).
Proof.
  unfold validate. assert (Hm : dmem method_params (g_method g) = true <-> In (g_method g) ["linear"; "task_arithmetic"; "ties"; "dare_ties"; "slerp"]).
  { unfold dmem, method_params, dget. cbn [In].
    repeat (match goal with |- context[eqb (g_method g) ?s] => destruct (eqb_spec (g_method g) s) as [->|]; [split; [intros _; tauto|reflexivity]|] end).
    split; [discriminate|intuition congruence]. }
  assert (Hb : mem (g_method g) ["ties"; "dare_ties"; "task_arithmetic"] = true <-> In (g_method g) ["ties"; "dare_ties"; "task_arithmetic"]) by apply mem_In.
  assert (Hf : truthy (g_filters g) = false <-> filters g = []).
  { unfold filters. destruct (g_filters g) as [[|f l]|]; cbn; split; congruence. }
  assert (Hd : (Z.ltb (g_granularity g) 1 || Z.eqb (g_layers g mod g_granularity g) 0) = true <-> ((1 <= g_granularity g)%Z -> (g_granularity g | g_layers g)%Z)).
  { rewrite orb_true_iff, Z.ltb_lt, Z.eqb_eq. split.
    - intros [H|H] H1; [lia|]. apply Z.mod_divide; [lia|exact H].
    - intros H. destruct (Z.le_gt_cases 1 (g_granularity g)) as [H1|H1]; [|lia]. right. apply Z.mod_divide; [lia|auto]. }
  rewrite <- Hm, <- Hb, <- Hd. destruct (dmem method_params (g_method g)); cbn [negb]; [|split; [discriminate|intros (H & _); discriminate]].
  destruct (mem (g_method g) ["ties"; "dare_ties"; "task_arithmetic"]); cbn [andb].
  - destruct (g_base g) as [b|]; [|split; [discriminate|intros (_ & H & _); now specialize (H eq_refl)]].
    destruct (String.eqb_spec (g_method g) "slerp") as [Hs|Hs]; cbn [andb].
    + destruct (g_smooth g); cbn [orb]; [split; [discriminate|intros (_ & _ & H & _); now destruct (H Hs)]|].
      destruct (truthy (g_filters g)) eqn:Et; [split; [discriminate|intros (_ & _ & H & _); destruct (H Hs) as [_ H']; apply Hf in H'; congruence]|].
      destruct (_ || _); [|split; [discriminate|intros (_ & _ & _ & H); discriminate]]. split; [|reflexivity]. intros _. repeat split; auto; try (intros; discriminate). now apply Hf.
    + destruct (_ || _); [|split; [discriminate|intros (_ & _ & _ & H); discriminate]]. split; [|reflexivity]. intros _. repeat split; auto; try discriminate; contradiction.
  - destruct (String.eqb_spec (g_method g) "slerp") as [Hs|Hs]; cbn [andb].
    + destruct (g_smooth g); cbn [orb]; [split; [discriminate|intros (_ & _ & H & _); now destruct (H Hs)]|].
      destruct (truthy (g_filters g)) eqn:Et; [split; [discriminate|intros (_ & _ & H & _); destruct (H Hs) as [_ H']; apply Hf in H'; congruence]|].
      destruct (_ || _); [|split; [discriminate|intros (_ & _ & _ & H); discriminate]]. split; [|reflexivity]. intros _. repeat split; auto; try discriminate. now apply Hf.
    + destruct (_ || _); [|split; [discriminate|intros (_ & _ & _ & H); discriminate]]. split; [|reflexivity]. intros _. repeat split; auto; try discriminate; contradiction.
Qed.

(** The global settings: weights are normalised as the definition says, else exactly for linear, TIES and DARE-TIES. *)
Theorem C42_options g x c : config g x = Ok c ->
  mc_base c = g_base g /\ mc_dtype c = Some "bfloat16" /\
  exists b, mc_params c = Some [("normalize", PNum (if b : bool then 1 else 0)); ("int8_mask", PNum 1)] /\
    (forall b', g_normalize g = Some b' -> b = b') /\
    (g_normalize g = None -> b = true <-> In (g_method g) ["ties"; "dare_ties"; "linear"]).
Proof.
  intros Hc. unfold genotype_merge_config in Hc. destruct (to_torch g x) as [t|]; cbn [rbind] in Hc; [|discriminate].
  destruct (_ && _) in Hc; [discriminate|]. destruct (negb _) in Hc; [discriminate|]. destruct (dgetE _ _) as [ps|] in Hc; cbn [rbind] in Hc; [|discriminate].
  destruct (negb _) in Hc; [discriminate|]. match type of Hc with rbind ?r _ = _ => destruct r as [[sl ms]|] end; cbn [rbind] in Hc; [|discriminate].
  match type of Hc with rbind ?r _ = _ => destruct r end; cbn [rbind] in Hc; [|discriminate]. injection Hc as <-. cbn [mc_base mc_dtype mc_params]. split; [reflexivity|]. split; [reflexivity|].
  eexists. split; [reflexivity|]. split.
  - intros b' ->. reflexivity.
  - intros ->. apply (mem_In (g_method g) ["ties"; "dare_ties"; "linear"]).
Qed.

(** SLERP: with a tokenizer source the two models are weighted [1 - t] and [t]; the third source, if any, is the base. *)
Theorem C42_slerp_weights g x c slices s : config g x = Ok c -> g_method g = "slerp" -> mc_slices c = Some slices -> In s slices ->
  exists a b t rest, os_sources s = a :: b :: rest /\ os_params s = Some [("t", PNum t)] /\ os_base s = Some (is_model a) /\
    is_params a = (if g_tokenizer g then Some [("weight", PNum (1 - t))] else None) /\
    is_params b = (if g_tokenizer g then Some [("weight", PNum t)] else None) /\
    map is_model rest = (match extra_base g with Some m => [m] | None => [] end).
Proof.
  intros Hc Hsl Hs Hin. destruct (config_cases _ _ _ _ _ Hc) as (t & ps & Ht & _ & _ & _ & _ & _ & [(_ & s' & Hs' & Es & _)|[(? & _)|(? & _)]]); [|congruence..].
  rewrite Es in Hs. injection Hs as <-. unfold slerp_slices in Hs'. destruct (rmapM_In_inv _ _ _ _ Hs' Hin) as (k & _ & Hk). cbv beta zeta in Hk.
  destruct (Nat.eqb (t_sets t) 0); [discriminate|]. destruct (Nat.ltb (t_models t) 2); [discriminate|].
  match type of Hk with context[topk2 ?r] => destruct (topk2 r) as [i j] end. destruct (nthE (g_models g) i) as [mi|]; cbn [rbind] in Hk; [|discriminate].
  destruct (nthE (g_models g) j) as [mj|]; cbn [rbind] in Hk; [|discriminate]. injection Hk as <-. cbn [os_sources os_params os_base app]. do 4 eexists.
  split; [reflexivity|]. split; [reflexivity|]. cbn [is_model is_params]. split; [reflexivity|]. split; [reflexivity|]. split; [reflexivity|]. destruct (extra_base g); reflexivity.
Qed.

(** ** The initial genotype *)
Lemma settings_always g sets ps value d name v (P : Q -> Prop) : settings g sets ps value = Ok d -> In (name, v) d ->
  (forall i k, nth_error ps k = Some name -> always P (value i k name)) -> always P v.
Proof.
  intros Hd Hin Hv. destruct (settings_spec _ _ _ _ _ Hd) as [Hf Hs]. apply In_nth_error in Hin as (k & Hk).
  assert (Hkp : nth_error ps k = Some name) by (rewrite <- Hf, nth_error_map, Hk; reflexivity).
  destruct (Hs k name Hkp) as (v' & Hk' & Hw). rewrite Hk in Hk'. injection Hk' as <-.
  apply (written_always g sets (fun i => value i k name) v); auto.
Qed.
Lemma gradient_const (q : Q) qs : (forall q', In q' qs -> q' == q)%Q -> always (fun q' => q' == q)%Q (unpack_single qs).
Proof.
  intros Hq. assert (Hg : always (fun q' => q' == q)%Q (PList (map PNum qs))).
  { intros tensor t r Ht Hr. destruct (always_gradient q (Some q) qs) with (tensor := tensor) (t := t) (r := r) as (q' & -> & Hq'); auto.
    - intros q' Hin. rewrite (Hq q' Hin). split; apply Qle_refl.
    - exists q'. split; [reflexivity|]. lra. }
  destruct qs as [|x [|y qs]]; cbn [unpack_single]; [exact Hg| |exact Hg]. apply always_num, Hq. now left.
Qed.
Lemma setting_origin g x c t m name v (P : Q -> Prop) : config g x = Ok c -> to_torch g x = Ok t -> g_method g <> "slerp" -> model_setting c m name v ->
  (forall ps k j i p, dget method_params (g_method g) = Some ps -> nth_error ps p = Some name -> P (adjust g name (t_at t k j i p))) ->
  (forall qs, (forall q, In q qs -> P q) -> always P (unpack_single qs)) -> always P v.
Proof.
  intros Hc Ht0 Hns Hset HP Hgr. destruct (config_cases _ _ _ _ _ Hc) as (t' & ps & Ht & Hps & Hg & Hm & Hp & _ & Hcase). assert (t' = t) as -> by congruence.
  destruct Hcase as [(? & _)|[(_ & Hsmooth & ms & Hms & Es & Em & _)|(_ & _ & s & Hs & Es & Em & _)]]; [congruence| |].
  - destruct Hset as [(slices & sl & src & d & E1 & _)|(ms' & im & d & E1 & Hin & _ & Ep & Hd)]; [congruence|].
    rewrite Em in E1. injection E1 as <-. unfold smooth_models in Hms.
    match type of Hms with rbind ?r _ = _ => destruct r as [l|] eqn:El end; cbn [rbind] in Hms; [|discriminate]. injection Hms as <-.
    apply in_app_iff in Hin as [Hin|Hin]; [|destruct (extra_base g); [destruct Hin as [<-|[]]; discriminate|contradiction]].
    destruct (rmapM_In_inv _ _ _ _ El Hin) as ([j mm] & _ & Hy). cbn [fst snd] in Hy.
    destruct (settings _ _ _ _) as [d'|] eqn:Ed; cbn [rbind] in Hy; [|discriminate]. injection Hy as <-. cbn [im_params] in Ep. injection Ep as ->.
    eapply settings_always; [exact Ed|exact Hd|]. intros i k Hk. cbn beta. apply Hgr. intros q Hq. apply in_map_iff in Hq as (k' & <- & _). eapply HP; eauto.
  - destruct Hset as [(slices & sl & src & d & E1 & Hin & Hsrc & _ & Ep & Hd)|(ms & im & d & E1 & _)]; [|congruence].
    rewrite Es in E1. injection E1 as <-. unfold discrete_slices in Hs. destruct (rmapM_In_inv _ _ _ _ Hs Hin) as (k & _ & Hk). cbv beta zeta in Hk.
    match type of Hk with rbind ?r _ = _ => destruct r as [srcs|] eqn:El end; cbn [rbind] in Hk; [|discriminate]. injection Hk as <-. cbn [os_sources] in Hsrc.
    apply in_app_iff in Hsrc as [Hsrc|Hsrc]; [|destruct (extra_base g); [destruct Hsrc as [<-|[]]; discriminate|contradiction]].
    destruct (rmapM_In_inv _ _ _ _ El Hsrc) as ([j mm] & _ & Hy). cbn [fst snd] in Hy.
    destruct (settings _ _ _ _) as [d'|] eqn:Ed; cbn [rbind] in Hy; [|discriminate]. injection Hy as <-. cbn [is_params] in Ep. injection Ep as ->.
    eapply settings_always; [exact Ed|exact Hd|]. intros i k' Hk. apply always_num. eapply HP; eauto.
Qed.
(** The search starts at the plain average: every weight is one over the number of models, every density is one. *)
Theorem C42_initial_values g t c m name v :
  initial_genotype g = Ok t -> config g (Shaped t) = Ok c -> g_method g <> "slerp" -> model_setting c m name v ->
  always (fun q => q == if String.eqb name "density" then 1 else 1 / inject_Z (Z.of_nat (List.length (g_models g))))%Q v.
Proof.
  intros Hi Hc Hns Hset. unfold initial_genotype in Hi. destruct (dgetE method_params (g_method g)) as [ps|] eqn:Eps; cbn [rbind] in Hi; [|discriminate].
  destruct (g_models g) as [|m0 ms0] eqn:Ems; [discriminate|]. rewrite <- Ems in *. injection Hi as <-.
  assert (Hn : (0 < 1 / inject_Z (Z.of_nat (List.length (g_models g))))%Q).
  { unfold Qdiv. rewrite Qmult_1_l. apply Qinv_lt_0_compat. rewrite Ems. cbn. unfold Qlt. cbn. lia. }
  set (w := (1 / inject_Z (Z.of_nat (List.length (g_models g))))%Q) in *.
  refine (setting_origin g _ c _ m name v _ Hc eq_refl Hns Hset _ (gradient_const _)).
  intros ps' k j i p Hps' Hp. cbn [t_at]. unfold dgetE in Eps. rewrite Hps' in Eps. injection Eps as ->.
  apply dget_In in Hps'. unfold method_params in Hps'. cbn [In] in Hps'.
  assert (Hw : (adjust g "weight" w == w)%Q).
  { rewrite adjust_weight. destruct (g_negative g); [reflexivity|]. apply Qabs_pos. lra. }
  assert (Hd : (adjust g "density" 1 == 1)%Q).
  { destruct (adjust_expressed g "density" 1 ltac:(cbn; tauto)) as [H _]. destruct (H eq_refl) as [_ H']. apply H'. cbn. unfold Qle. cbn. lia. }
  destruct Hps' as [[= _ <-]|[[= _ <-]|[[= _ <-]|[[= _ <-]|[[= Hm _]|[]]]]]]; [..|congruence];
    destruct p as [|[|[|p]]]; cbn in Hp; try discriminate; injection Hp as <-; cbn [String.eqb Ascii.eqb Bool.eqb]; try exact Hw; try exact Hd.
Qed.

(** ** Smooth configurations *)
(** Each model gets, for each parameter and tensor, the gradient through the genotype entries of its layer groups, taken from
    the parameter set meant for the tensor. *)
Theorem C42_smooth_values g l c ps :
  config g (Flat l) = Ok c -> g_method g <> "slerp" -> g_smooth g = true -> dget method_params (g_method g) = Some ps ->
  exists ms, mc_models c = Some ms /\ map im_model ms = g_models g ++ match extra_base g with Some b => [b] | None => [] end /\
    forall j m im, nth_error (g_models g) j = Some m -> nth_error ms j = Some im ->
      exists d, im_params im = Some d /\ dkeys d = ps /\
      forall p name, nth_error ps p = Some name -> exists v, dget d name = Some v /\
        forall tensor t i, (0 <= t <= 1)%Q -> set_for (filters g) tensor i ->
          exists qs r, Forall2 (fun k q => expressed (g_negative g) name (gene l (List.length (g_models g)) (S (List.length (filters g))) (List.length ps) k j i p) q)
                               (seq 0 (Z.to_nat (layer_groups g))) qs /\
            evaluate_setting tensor t v = Ok (Some (PNum r)) /\
            exists r', evaluate_setting None t (PList (map PNum qs)) = Ok (Some (PNum r')) /\ (r == r')%Q.
Proof.
  intros Hc Hns Hsm Hps. destruct (config_cases _ _ _ _ _ Hc) as (t & ps' & Ht & Hps' & Hg & Hm & Hp & _ & Hcase). assert (ps' = ps) as -> by congruence. clear Hps'.
  destruct (params_names g ps Hps Hns) as [Hnd Hincl].
  destruct Hcase as [(? & _)|[(_ & _ & ms & Hms & Es & Em & _)|(_ & Hf & _)]]; [congruence| |congruence].
  exists ms. split; [exact Em|]. cbn in Ht.
  destruct (Nat.eqb_spec (Z.to_nat (layer_groups g) * List.length (g_models g) * S (List.length (filters g))) 0) as [|Hk0]; [discriminate|].
  destruct (Nat.eqb_spec (List.length l mod (Z.to_nat (layer_groups g) * List.length (g_models g) * S (List.length (filters g)))) 0) as [Hmod|]; [|discriminate].
  cbn [orb negb] in Ht. injection Ht as <-. cbn [t_groups t_models t_sets t_params] in *. unfold smooth_models in Hms. cbn [t_groups t_sets t_at] in Hms.
  match type of Hms with rbind ?r _ = _ => destruct r as [ms0|] eqn:El end; cbn [rbind] in Hms; [|discriminate]. injection Hms as <-.
  assert (Hmods : map im_model ms0 = g_models g).
  { transitivity (map snd (combine (seq 0 (List.length (g_models g))) (g_models g))); [|apply combine_seq_snd].
    eapply rmapM_map_eq; [exact El|]. intros [j m] y _ Hy. cbn [fst snd] in Hy |- *. destruct (settings _ _ _ _); cbn [rbind] in Hy; [|discriminate]. now injection Hy as <-. }
  split; [rewrite map_app, Hmods; f_equal; destruct (extra_base g); reflexivity|].
  intros j m im Hj Him. destruct (rmapM_nth _ _ _ j (j, m) El (combine_seq_nth _ _ _ Hj)) as (im' & Him' & Ey). cbn [fst snd] in Ey.
  rewrite nth_error_app1 in Him by (apply nth_error_Some; congruence). rewrite Him in Him'. injection Him' as <-.
  destruct (settings _ _ _ _) as [d|] eqn:Ed; cbn [rbind] in Ey; [|discriminate]. injection Ey as <-. cbn [im_params]. exists d. split; auto.
  destruct (settings_spec _ _ _ _ _ Ed) as [Hf Hset]. split; [exact Hf|]. intros p name Hpn.
  destruct (Hset p name Hpn) as (v & Hv & Hw). exists v. split.
  { apply dget_In_NoDup; [unfold dkeys; rewrite Hf; exact Hnd|]. eapply nth_error_In; eauto. }
  intros tensor tt' i Htt Hi. rewrite (written_set g _ v tensor tt' i Hw Hi).
  match goal with |- context[unpack_single ?q] => set (qs := q) end. 
  assert (Hqs : Forall2 (fun k q => expressed (g_negative g) name (gene l (List.length (g_models g)) (S (List.length (filters g))) (List.length ps) k j i p) q)
                        (seq 0 (Z.to_nat (layer_groups g))) qs).
  { unfold qs. generalize (seq 0 (Z.to_nat (layer_groups g))). intros sq. induction sq as [|k sq IH]; cbn [map]; constructor; [|exact IH].
    unfold gene. rewrite <- Hp. match goal with |- expressed _ _ (nth ?a l 0) (adjust g name (nth ?b l 0)) => replace a with b by ring end.
    apply adjust_expressed. apply Hincl. eapply nth_error_In; eauto. }
  assert (Hne : qs <> []).
  { intros E0. rewrite E0 in Hqs. inversion Hqs as [Hs|]. destruct (Z.to_nat (layer_groups g)); [cbn in Hk0; lia|discriminate]. }
  exists qs. clearbody qs. destruct (eval_gradient tensor qs tt' Hne Htt) as (r1 & Hr1 & _). destruct (eval_gradient None qs tt' Hne Htt) as (r2 & Hr2 & i2 & a2 & b2 & Ha2 & Hb2 & H1 & H2 & Hval2).
  destruct qs as [|q0 [|q1 qs]]; [congruence| |]; cbn [unpack_single].
  - exists q0. split; [exact Hqs|]. split; [reflexivity|]. exists r2. split; [exact Hr2|]. 
    assert (a2 = q0) by (destruct i2 as [|[|i2]]; cbn in Ha2; congruence). assert (b2 = q0) by (apply nth_error_In in Hb2; destruct Hb2 as [->|[]]; reflexivity). subst a2 b2. rewrite Hval2. ring.
  - exists r1. split; [exact Hqs|]. split; [exact Hr1|]. exists r2. split; [exact Hr2|].
    destruct (eval_gradient tensor (q0 :: q1 :: qs) tt' Hne Htt) as (r3 & Hr3 & i3 & a3 & b3 & Ha3 & Hb3 & H3 & H4 & Hval3). assert (r3 = r1) as -> by congruence.
    assert (Hsame : evaluate_setting tensor tt' (PList (map PNum (q0 :: q1 :: qs))) = evaluate_setting None tt' (PList (map PNum (q0 :: q1 :: qs)))) by reflexivity.
    rewrite Hsame, Hr2 in Hr1. injection Hr1 as ->. reflexivity.
Qed.

(** ** No genotype of the right length is refused *)
Definition genotype_length g : nat :=
  (Z.to_nat (layer_groups g) * List.length (g_models g) * S (List.length (filters g)) *
   match dget method_params (g_method g) with Some ps => List.length ps | None => 0 end)%nat.

Lemma config_total g t ps : topk_ok topk2 -> validate g = Ok tt -> g_models g <> [] -> (0 < g_layers g)%Z ->
  (g_method g = "slerp" -> (2 <= List.length (g_models g))%nat) -> dget method_params (g_method g) = Some ps ->
  t_groups t = Z.to_nat (layer_groups g) -> t_models t = List.length (g_models g) -> t_sets t = S (List.length (filters g)) -> t_params t = List.length ps ->
  exists c, config g (Shaped t) = Ok c.
Proof.
  intros Htop Hv Hne HL Hslerp Eps Hg1 Hg2 Hg3 Hg4. apply C42_accepted in Hv as (_ & _ & Hs0 & Hdiv).
  unfold genotype_merge_config. cbn [to_torch rbind]. rewrite Hg1, Hg2, Hg4.
  assert (Hgr : (0 < g_granularity g)%Z -> (0 < layer_groups g /\ layer_groups g * g_granularity g = g_layers g)%Z).
  { intros Hlt. destruct Hdiv as (k & Hk); [lia|]. unfold layer_groups. rewrite (proj2 (Z.ltb_lt _ _) Hlt). rewrite Hk, Z.div_mul by lia. nia. }
  assert (Hpos : (0 < layer_groups g)%Z).
  { unfold layer_groups in *. destruct (Z.ltb_spec 0 (g_granularity g)); [now apply Hgr|lia]. }
  assert (Hif : (0 <? g_granularity g)%Z && negb (Z.of_nat (Z.to_nat (layer_groups g)) * g_granularity g =? g_layers g)%Z = false).
  { destruct (Z.ltb_spec 0 (g_granularity g)) as [Hlt|]; [|reflexivity]. cbn. rewrite Z2Nat.id by lia. destruct (Hgr Hlt) as [_ ->]. now rewrite Z.eqb_refl. }
  rewrite Hif, Nat.eqb_refl. cbn [negb]. unfold dgetE. rewrite Eps. cbn [rbind]. rewrite Nat.eqb_refl. cbn [negb].
  assert (Hset : forall value, exists d, settings g (t_sets t) ps value = Ok d).
  { intros value. rewrite Hg3. unfold settings. destruct (Nat.ltb_spec 1 (S (List.length (filters g)))) as [Hlt|Hge]; [|cbn; eauto].
    assert (Hft : forall i, (i < S (List.length (filters g)))%nat -> exists f, filter_at g i = Ok f).
    { intros i Hi. unfold filter_at, filters in *. destruct (g_filters g) as [fs|]; [|cbn in Hlt; lia]. unfold nthE.
      destruct (nth_error (map Some fs ++ [None]) i) eqn:En; [eauto|]. apply nth_error_None in En. rewrite app_length, map_length in En. cbn in En. lia. }
    assert (Hrm : forall A B (f : A -> result B) l, (forall x, In x l -> exists y, f x = Ok y) -> exists out, rmapM f l = Ok out).
    { clear. induction l as [|x l IH]; intros Hx; cbn; [eauto|]. destruct (Hx x) as (y & ->); [now left|]. cbn.
      destruct IH as (out & ->); [intros z Hz; apply Hx; now right|]. cbn. eauto. }
    apply Hrm. intros [k p] _. cbn [fst snd].
    destruct (Hrm _ _ (fun i => let! f := filter_at g i in Ok (PCond (value i k p) f)) (seq 0 (S (List.length (filters g))))) as (out & ->); [|cbn; eauto].
    intros i Hi. apply in_seq in Hi. destruct (Hft i ltac:(lia)) as (f & ->). cbn. eauto. }
  assert (Hrm : forall A B (f : A -> result B) l, (forall x, In x l -> exists y, f x = Ok y) -> exists out, rmapM f l = Ok out /\ (l <> [] -> out <> [])).
  { clear. induction l as [|x l IH]; intros Hx; cbn; [eexists; split; [reflexivity|congruence]|]. destruct (Hx x) as (y & ->); [now left|]. cbn.
    destruct IH as (out & -> & _); [intros z Hz; apply Hx; now right|]. cbn. eexists. split; [reflexivity|discriminate]. }
  assert (Hseq : seq 0 (t_groups t) <> []) by (rewrite Hg1; destruct (Z.to_nat (layer_groups g)) eqn:En; [lia|discriminate]).
  assert (Hcm : combine (seq 0 (List.length (g_models g))) (g_models g) <> []) by (destruct (g_models g); [congruence|discriminate]).
  destruct (String.eqb_spec (g_method g) "slerp") as [Hs|Hs].
  - assert (Hsl : exists s, slerp_slices topk2 softmax1 g t = Ok s /\ s <> []).
    { unfold slerp_slices. edestruct Hrm as (out & Ho & Hne'); [|exists out; split; [exact Ho|auto]].
      intros k _. cbn beta. rewrite Hg3, Hg2. cbn [Nat.eqb]. destruct (Nat.ltb_spec (List.length (g_models g)) 2) as [Hlt|_]; [specialize (Hslerp Hs); lia|].
      match goal with |- context[topk2 ?r] => set (row := r) end. specialize (Htop row ltac:(unfold row; rewrite map_length, seq_length; auto)).
      destruct (topk2 row) as [i j]. destruct Htop as (_ & Hi & Hj & _). unfold row in Hi, Hj. rewrite map_length, seq_length in Hi, Hj.
      unfold nthE. destruct (nth_error (g_models g) i) eqn:E1; [|apply nth_error_None in E1; lia].
      destruct (nth_error (g_models g) j) eqn:E2; [|apply nth_error_None in E2; lia]. cbn. eauto. }
    destruct Hsl as (s & -> & Hs1). cbn [rbind]. unfold validate_config. cbn [mc_modules mc_slices mc_models truthy]. destruct s; [congruence|]. cbn. eauto.
  - destruct (g_smooth g).
    + assert (Hsl : exists s, smooth_models g t ps = Ok s /\ s <> []).
      { unfold smooth_models. match goal with |- context[rmapM ?f ?l] => edestruct (Hrm _ _ f l) as (out & -> & Hne') end.
        - intros [j m] _. cbn [fst snd]. edestruct Hset as (d & ->). cbn. eauto.
        - cbn [rbind]. eexists. split; [reflexivity|]. specialize (Hne' Hcm). destruct out; [congruence|discriminate]. }
      destruct Hsl as (s & -> & Hs1). cbn [rbind]. unfold validate_config. cbn [mc_modules mc_slices mc_models truthy]. destruct s; [congruence|]. cbn. eauto.
    + assert (Hsl : exists s, discrete_slices g t ps = Ok s /\ s <> []).
      { unfold discrete_slices. edestruct Hrm as (out & Ho & Hne'); [|exists out; split; [exact Ho|auto]].
        intros k _. cbn beta. match goal with |- context[rmapM ?f ?l] => edestruct (Hrm _ _ f l) as (o2 & -> & _) end.
        - intros [j m] _. cbn [fst snd]. edestruct Hset as (d & ->). cbn. eauto.
        - cbn. eauto. }
      destruct Hsl as (s & -> & Hs1). cbn [rbind]. unfold validate_config. cbn [mc_modules mc_slices mc_models truthy]. destruct s; [congruence|]. cbn. eauto.
Qed.

(** Every flat genotype of the length of the initial one is turned into a configuration, whatever its entries: the search
    never meets an invalid genotype. *)
Theorem C42_total g l : topk_ok topk2 -> validate g = Ok tt -> g_models g <> [] -> (0 < g_layers g)%Z ->
  (g_method g = "slerp" -> (2 <= List.length (g_models g))%nat) ->
  (exists c, config g (Flat l) = Ok c) <-> List.length l = genotype_length g.
Proof.
  intros Htop Hv Hne HL Hslerp. pose proof (proj1 (C42_accepted g) Hv) as (Hin & _ & _ & Hdiv).
  assert (Hps : exists ps, dget method_params (g_method g) = Some ps /\ (0 < List.length ps)%nat).
  { cbn [In] in Hin. destruct Hin as [<-|[<-|[<-|[<-|[<-|[]]]]]]; eexists; (split; [reflexivity|cbn; lia]). }
  destruct Hps as (ps & Hps & Hpl).
  assert (Hpos : (0 < layer_groups g)%Z).
  { unfold layer_groups. destruct (Z.ltb_spec 0 (g_granularity g)) as [Hlt|]; [|lia]. destruct Hdiv as (k & Hk); [lia|]. rewrite Hk, Z.div_mul by lia. nia. }
  assert (Hml : (0 < List.length (g_models g))%nat) by (destruct (g_models g); [congruence|cbn; lia]).
  unfold genotype_length. rewrite Hps. set (known := (Z.to_nat (layer_groups g) * List.length (g_models g) * S (List.length (filters g)))%nat).
  assert (Hk : (0 < known)%nat) by (unfold known; apply Nat.mul_pos_pos; [apply Nat.mul_pos_pos; lia|lia]). split.
  - intros (c & Hc). destruct (config_cases _ _ _ _ _ Hc) as (t & ps' & Ht & Hps' & _ & _ & Hp & _). assert (ps' = ps) as -> by congruence.
    cbn in Ht. fold known in Ht. destruct (Nat.eqb_spec known 0) as [|_]; [lia|]. destruct (Nat.eqb_spec (List.length l mod known) 0) as [Hmod|]; [|discriminate].
    cbn [orb negb] in Ht. injection Ht as <-. cbn [t_params] in Hp. rewrite <- Hp. rewrite (Nat.div_mod_eq (List.length l) known) at 1. lia.
  - intros Hl. assert (Hmod : (List.length l mod known = 0)%nat) by (rewrite Hl, Nat.mul_comm; apply Nat.mod_mul; lia).
    assert (Hdv : (List.length l / known = List.length ps)%nat) by (rewrite Hl, Nat.mul_comm; apply Nat.div_mul; lia).
    assert (Ht : exists t, to_torch g (Flat l) = Ok t /\ t_groups t = Z.to_nat (layer_groups g) /\ t_models t = List.length (g_models g) /\ t_sets t = S (List.length (filters g)) /\ t_params t = List.length ps).
    { cbn. fold known. destruct (Nat.eqb_spec known 0) as [|_]; [lia|]. rewrite Hmod. cbn [Nat.eqb orb negb]. eexists. split; [reflexivity|]. cbn [t_groups t_models t_sets t_params]. auto. }
    destruct Ht as (t & Ht & H1 & H2 & H3 & H4). destruct (config_total g t ps Htop Hv Hne HL Hslerp Hps H1 H2 H3 H4) as (c & Hc). exists c.
    unfold genotype_merge_config in Hc |- *. rewrite Ht. cbn [to_torch] in Hc. exact Hc.
Qed.
End Theorems.

(** the genomes of [Examples] meet the hypotheses *)
Example C42_total_nonvacuous : exists c, genotype_merge_config ex_topk ex_softmax ex_genome (Flat ex_flat) = Ok c /\ List.length ex_flat = genotype_length ex_genome.
Proof. eexists. split; [vm_compute; reflexivity|reflexivity]. Qed.
Example C42_initial_nonvacuous : exists t c v, initial_genotype ex_genome = Ok t /\ genotype_merge_config ex_topk ex_softmax ex_genome (Shaped t) = Ok c /\ model_setting c 11%nat "density" v.
Proof.
  do 3 eexists. split; [reflexivity|]. split; [vm_compute; reflexivity|].
  left. do 4 eexists. split; [reflexivity|]. split; [now left|]. split; [right; now left|]. split; [reflexivity|]. split; [reflexivity|]. right. now left.
Qed.
Example C42_smooth_values_nonvacuous : exists c ps, genotype_merge_config ex_topk ex_softmax ex_smooth (Flat [1; -2; 3; -4; 5; -6]%Q) = Ok c /\ g_smooth ex_smooth = true /\
  dget method_params (g_method ex_smooth) = Some ps.
Proof. do 2 eexists. split; [vm_compute; reflexivity|]. split; reflexivity. Qed.
Example C42_slerp_weights_nonvacuous : exists c slices s, genotype_merge_config ex_topk ex_softmax ex_slerp (Flat [1; 3; 2; -1; -2; -3]%Q) = Ok c /\ mc_slices c = Some slices /\ In s slices.
Proof. do 3 eexists. split; [vm_compute; reflexivity|]. split; [reflexivity|]. now left. Qed.

Print Assumptions C42_accepted.
Print Assumptions C42_options.
Print Assumptions C42_slerp_weights.
Print Assumptions C42_initial_values.
Print Assumptions C42_smooth_values.
Print Assumptions C42_total.
