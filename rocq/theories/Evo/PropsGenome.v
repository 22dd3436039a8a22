(** C42: the merge configurations generated from genotypes. *)
From Coq Require Import QArith Qabs Qminmax Lqa.
From Verif.Base Require Import Py PyFacts.
From Verif.Config Require Import Model Spec Proofs.
From Verif.Evo Require Import Model Spec Proofs.
Local Open Scope string_scope.
Local Open Scope list_scope.

Section Theorems.
Context {M : Type} {E : Eqb M}.
Variables (topk2 : list Q -> nat * nat) (softmax1 : Q -> Q -> Q).
Implicit Types (g : genome M) (c : merge_config M).
Notation config := (genotype_merge_config topk2 softmax1).

(** the three ways a configuration is produced *)
Lemma config_cases g x c : config g x = Ok c ->
  exists t ps, to_torch g x = Ok t /\ dget method_params (g_method g) = Some ps /\
    ((0 < g_granularity g)%Z -> (Z.of_nat (t_groups t) * g_granularity g = g_layers g)%Z) /\
    t_models t = List.length (g_models g) /\ t_params t = List.length ps /\ mc_base c = g_base g /\
    ((g_method g = "slerp" /\ exists s, slerp_slices topk2 softmax1 g t = Ok s /\ mc_slices c = Some s /\ mc_models c = None /\ s <> []) \/
     (g_method g <> "slerp" /\ g_smooth g = true /\ exists ms, smooth_models g t ps = Ok ms /\ mc_slices c = None /\ mc_models c = Some ms /\ ms <> []) \/
     (g_method g <> "slerp" /\ g_smooth g = false /\ exists s, discrete_slices g t ps = Ok s /\ mc_slices c = Some s /\ mc_models c = None /\ s <> [])).
Proof.
  unfold genotype_merge_config. destruct (to_torch g x) as [t|]; cbn [rbind]; [|discriminate].
  destruct (Z.ltb 0 (g_granularity g) && _) eqn:Eg; [discriminate|].
  destruct (Nat.eqb_spec (t_models t) (List.length (g_models g))) as [Hm|]; cbn [negb]; [|discriminate].
  unfold dgetE. destruct (dget method_params (g_method g)) as [ps|]; cbn [rbind]; [|discriminate].
  destruct (Nat.eqb_spec (t_params t) (List.length ps)) as [Hp|]; cbn [negb]; [|discriminate].
  assert (Hg : (0 < g_granularity g)%Z -> (Z.of_nat (t_groups t) * g_granularity g = g_layers g)%Z).
  { intros Hlt. apply Z.ltb_lt in Hlt. rewrite Hlt in Eg. cbn in Eg. apply negb_false_iff in Eg. now apply Z.eqb_eq in Eg. }
  intros Hc. exists t, ps. split; [reflexivity|]. split; [reflexivity|]. split; [exact Hg|]. split; [exact Hm|]. split; [exact Hp|].
  destruct (String.eqb_spec (g_method g) "slerp") as [Hs|Hs].
  - destruct (slerp_slices topk2 softmax1 g t) as [s|]; cbn [rbind] in Hc; [|discriminate].
    unfold validate_config in Hc. cbn [mc_modules mc_slices mc_models truthy] in Hc. destruct s as [|s0 s]; [discriminate|]. cbn in Hc. injection Hc as <-.
    split; [reflexivity|]. left. split; auto. exists (s0 :: s). repeat split. discriminate.
  - destruct (g_smooth g).
    + destruct (smooth_models g t ps) as [ms|]; cbn [rbind] in Hc; [|discriminate].
      unfold validate_config in Hc. cbn [mc_modules mc_slices mc_models truthy] in Hc. destruct ms as [|m0 ms]; [discriminate|]. cbn in Hc. injection Hc as <-.
      split; [reflexivity|]. right; left. split; auto. split; auto. exists (m0 :: ms). repeat split. discriminate.
    + destruct (discrete_slices g t ps) as [s|]; cbn [rbind] in Hc; [|discriminate].
      unfold validate_config in Hc. cbn [mc_modules mc_slices mc_models truthy] in Hc. destruct s as [|s0 s]; [discriminate|]. cbn in Hc. injection Hc as <-.
      split; [reflexivity|]. right; right. split; auto. split; auto. exists (s0 :: s). repeat split. discriminate.
Qed.

(** layer range [k] of a genome *)
Definition slice_range g (k : nat) (s : output_slice M) : Prop :=
  os_sources s <> [] /\ forall a, In a (os_sources s) -> is_start a = (Z.of_nat k * layer_step g)%Z /\ is_end a = ((Z.of_nat k + 1) * layer_step g)%Z.

Lemma ranges_cover g n (slices : list (output_slice M)) :
  Forall2 (slice_range g) (seq 0 n) slices -> (0 <= layer_step g)%Z \/ n = 1%nat ->
  (Z.of_nat n * layer_step g = g_layers g)%Z -> uses_each_layer_once (g_layers g) slices.
Proof.
  intros H Hs Hn. split.
  - assert (Hl : flat_map slice_layers slices = flat_map (fun k => zrange (Z.of_nat k * layer_step g) ((Z.of_nat k + 1) * layer_step g)) (seq 0 n)).
    { clear Hn Hs. induction H as [|k s l slices [Hne Hr] _ IH]; cbn [flat_map]; [reflexivity|]. rewrite IH. f_equal.
      unfold slice_layers. destruct (os_sources s) as [|a rest]; [congruence|]. destruct (Hr a) as [-> ->]; [now left|reflexivity]. }
    rewrite Hl, <- Hn. destruct Hs as [Hs| ->]; [now apply zrange_tiles|]. cbn [seq flat_map]. rewrite app_nil_r. f_equal; lia.
  - intros s Hin. assert (Hr : exists k, slice_range g k s).
    { clear - H Hin. induction H as [|k s' l slices Hr _ IH]; [contradiction|]. destruct Hin as [->|Hin]; eauto. }
    destruct Hr as (k & Hne & Hr). split; auto. intros a b Ha Hb. destruct (Hr a Ha) as [-> ->], (Hr b Hb) as [-> ->]. auto.
Qed.

Lemma slerp_range g t s : slerp_slices topk2 softmax1 g t = Ok s -> Forall2 (slice_range g) (seq 0 (t_groups t)) s.
Proof.
  intros H. apply rmapM_Ok_Forall2 in H. induction H as [|k y l s Hk _ IH]; constructor; auto. clear IH. cbv beta zeta in Hk.
  destruct (Nat.eqb (t_sets t) 0); [discriminate|]. destruct (Nat.ltb (t_models t) 2); [discriminate|].
  match type of Hk with context[topk2 ?r] => destruct (topk2 r) as [i j] end. destruct (nthE (g_models g) i) as [mi|]; cbn [rbind] in Hk; [|discriminate].
  destruct (nthE (g_models g) j) as [mj|]; cbn [rbind] in Hk; [|discriminate]. injection Hk as <-. split; [discriminate|]. cbn [os_sources].
  intros a Ha. cbn [app] in Ha. destruct Ha as [<-|[<-|Ha]]; [auto..|]. destruct (extra_base g); [|contradiction]. destruct Ha as [<-|[]]. auto.
Qed.
Lemma discrete_range g t ps s : g_models g <> [] -> discrete_slices g t ps = Ok s -> Forall2 (slice_range g) (seq 0 (t_groups t)) s.
Proof.
  intros Hne H. apply rmapM_Ok_Forall2 in H. induction H as [|k y l s Hk _ IH]; constructor; auto. clear IH. cbv beta zeta in Hk.
  match type of Hk with rbind ?r _ = _ => destruct r as [srcs|] eqn:Es end; cbn [rbind] in Hk; [|discriminate]. injection Hk as <-.
  split; cbn [os_sources].
  - destruct srcs; [|discriminate]. apply rmapM_Ok_Forall2 in Es. destruct (g_models g) as [|m ms]; [congruence|]. inversion Es.
  - intros a Ha. apply in_app_iff in Ha as [Ha|Ha].
    + destruct (rmapM_In_inv _ _ _ _ Es Ha) as ([j m] & _ & Hy). destruct (settings _ _ _ _); cbn [rbind] in Hy; [|discriminate]. injection Hy as <-. auto.
    + destruct (extra_base g); [|contradiction]. destruct Ha as [<-|[]]. auto.
Qed.

(** Slices are consecutive, do not overlap and cover all the layers (configurations of the smooth mode have no slices:
    they merge the models whole). A four-dimensional genotype must have one group if there is no layer granularity;
    flat genotypes always do. *)
Theorem C42_layers_partial g x c :
  config g x = Ok c -> g_models g <> [] -> (0 <= g_layers g)%Z ->
  (forall t, x = Shaped t -> (0 < g_granularity g)%Z \/ t_groups t = 1%nat) ->
  (exists slices, mc_slices c = Some slices /\ mc_models c = None /\ uses_each_layer_once (g_layers g) slices) \/
  (g_smooth g = true /\ g_method g <> "slerp" /\ mc_slices c = None /\
   exists ms, mc_models c = Some ms /\ map im_model ms = g_models g ++ match extra_base g with Some b => [b] | None => [] end).
Proof.
  intros Hc Hne HL Hx. destruct (config_cases _ _ _ Hc) as (t & ps & Ht & Hps & Hg & Hm & Hp & _ & Hcase).
  assert (Hgr : (0 <= layer_step g)%Z /\ (Z.of_nat (t_groups t) * layer_step g = g_layers g)%Z).
  { unfold layer_step. destruct (Z.ltb_spec 0 (g_granularity g)) as [Hlt|Hge]; [split; [lia|auto]|]. split; [auto|].
    assert (t_groups t = 1%nat) as ->; [|lia]. destruct x as [l|t'|]; cbn in Ht.
    - unfold layer_groups in Ht. destruct (Z.ltb_spec 0 (g_granularity g)) as [|_]; [lia|].
      destruct (_ || _); [discriminate|]. injection Ht as <-. reflexivity.
    - injection Ht as <-. destruct (Hx t' eq_refl); [lia|auto].
    - discriminate. }
  destruct Hgr as [Hs0 Hgr]. destruct Hcase as [(_ & s & Hs & Es & Em & _)|[(Hns & Hsm & ms & Hms & Es & Em & _)|(_ & _ & s & Hs & Es & Em & _)]].
  - left. exists s. split; [auto|]. split; [auto|]. apply (ranges_cover g (t_groups t)); auto using slerp_range.
  - right. repeat split; auto. exists ms. split; auto. unfold smooth_models in Hms.
    match type of Hms with rbind ?r _ = _ => destruct r as [l|] eqn:El end; cbn [rbind] in Hms; [|discriminate]. injection Hms as <-.
    rewrite map_app. f_equal; [|destruct (extra_base g); reflexivity].
    transitivity (map snd (combine (seq 0 (List.length (g_models g))) (g_models g))); [|apply combine_seq_snd].
    eapply rmapM_map_eq; [exact El|]. intros [j m] y _ Hy. cbn [fst snd] in Hy |- *. destruct (settings _ _ _ _); cbn [rbind] in Hy; [|discriminate]. now injection Hy as <-.
  - left. exists s. split; [auto|]. split; [auto|]. apply (ranges_cover g (t_groups t)); eauto using discrete_range.
Qed.

(** Finding: without a layer granularity nothing checks the number of groups of a four-dimensional genotype, and the
    slices then run past the last layer. *)
Theorem C42_groups_refuted : exists (g : genome nat) (x : genotype) (c : merge_config nat) (slices : list (output_slice nat)),
  validate g = Ok tt /\ config g x = Ok c /\ mc_slices c = Some slices /\ flat_map slice_layers slices = zrange 0 4 /\ g_layers g = 2%Z.
Proof.
  exists {| g_models := [0; 1]%nat; g_method := "linear"; g_base := None; g_tokenizer := false; g_granularity := 0; g_normalize := None;
            g_negative := false; g_filters := None; g_smooth := false; g_layers := 2 |}.
  exists (Shaped {| t_groups := 2; t_models := 2; t_sets := 1; t_params := 1; t_at := fun _ _ _ _ => 1 |}).
  eexists. eexists. repeat split; reflexivity.
Qed.

(** ** Values *)
Lemma params_names g ps : dget method_params (g_method g) = Some ps -> g_method g <> "slerp" ->
  NoDup ps /\ incl ps ["weight"; "density"].
Proof.
  intros Hd Hs. apply dget_In in Hd. unfold method_params in Hd. cbn [In] in Hd.
  destruct Hd as [[= _ <-]|[[= _ <-]|[[= _ <-]|[[= _ <-]|[[= Hm _]|[]]]]]]; [..|congruence];
    (split; [repeat constructor; cbn; intuition discriminate|intros p; cbn; tauto]).
Qed.

Definition ok_value g (name : string) (q : Q) : Prop :=
  (name = "density" -> 0 <= q /\ q <= 1)%Q /\ (name = "weight" -> g_negative g = false -> 0 <= q)%Q.
Definition ok_setting g (name : string) (v : pval) : Prop :=
  (name = "density" -> always (fun q => 0 <= q /\ q <= 1)%Q v) /\
  (name = "weight" -> g_negative g = false -> always (fun q => 0 <= q)%Q v).

Lemma adjust_ok g name x : In name ["weight"; "density"] -> ok_value g name (adjust g name x).
Proof.
  intros Hn. split.
  - intros ->. apply adjust_density.
  - intros -> Hneg. rewrite adjust_weight, Hneg. apply Qabs_nonneg.
Qed.
Lemma num_ok g name x : In name ["weight"; "density"] -> ok_setting g name (PNum (adjust g name x)).
Proof. intros Hn. destruct (adjust_ok g name x Hn) as [H1 H2]. split; intros; apply always_num; auto. Qed.
Lemma gradient_ok g name xs : In name ["weight"; "density"] -> ok_setting g name (unpack_single (map (adjust g name) xs)).
Proof.
  intros Hn. assert (Hcase : unpack_single (map (adjust g name) xs) = PList (map PNum (map (adjust g name) xs)) \/ exists x, unpack_single (map (adjust g name) xs) = PNum (adjust g name x)).
  { destruct xs as [|x [|y xs]]; cbn; eauto. }
  destruct Hcase as [->|(x & ->)]; [|now apply num_ok].
  assert (Hv : forall q, In q (map (adjust g name) xs) -> ok_value g name q) by (intros q Hq; apply in_map_iff in Hq as (x & <- & _); now apply adjust_ok).
  split.
  - intros En tensor t r Ht Hr. destruct (always_gradient 0 (Some 1%Q) (map (adjust g name) xs)) with (tensor := tensor) (t := t) (r := r) as (q & -> & Hq); eauto.
    intros q Hq. now apply (Hv q Hq).
  - intros En Hneg tensor t r Ht Hr. destruct (always_gradient 0 None (map (adjust g name) xs)) with (tensor := tensor) (t := t) (r := r) as (q & -> & Hq); eauto.
    + intros q Hq. split; auto. now apply (Hv q Hq).
    + exists q. tauto.
Qed.
Lemma settings_ok g sets ps value d name v : settings g sets ps value = Ok d -> In (name, v) d ->
  (forall i k, nth_error ps k = Some name -> ok_setting g name (value i k name)) -> ok_setting g name v.
Proof.
  intros Hd Hin Hv. destruct (settings_spec _ _ _ _ _ Hd) as [Hf Hs]. apply In_nth_error in Hin as (k & Hk).
  assert (Hkp : nth_error ps k = Some name) by (rewrite <- Hf, nth_error_map, Hk; reflexivity).
  destruct (Hs k name Hkp) as (v' & Hk' & Hw). rewrite Hk in Hk'. injection Hk' as <-.
  split; intros; apply (written_always g sets (fun i => value i k name) v); auto; intros i _; now apply (Hv i k Hkp).
Qed.

(** A density read from the configuration, for any tensor at any depth, lies in [0,1], and a weight is non-negative
    unless negative weights are allowed. *)
Theorem C42_bounds g x c m name v :
  (forall a b, 0 <= softmax1 a b <= 1)%Q ->
  config g x = Ok c -> model_setting c m name v ->
  (name = "density" -> always (fun q => 0 <= q /\ q <= 1)%Q v) /\
  (name = "weight" -> g_negative g = false -> always (fun q => 0 <= q)%Q v).
Proof.
  intros Hsm Hc Hset. destruct (config_cases _ _ _ Hc) as (t & ps & Ht & Hps & Hg & Hm & Hp & _ & Hcase).
  destruct Hcase as [(_ & s & Hs & Es & Em & _)|[(Hns & Hsmooth & ms & Hms & Es & Em & _)|(Hns & _ & s & Hs & Es & Em & _)]].
  - destruct Hset as [(slices & sl & src & d & E1 & Hin & Hsrc & _ & Ep & Hd)|(ms & im & d & E1 & _)]; [|congruence].
    rewrite Es in E1. injection E1 as <-. unfold slerp_slices in Hs. destruct (rmapM_In_inv _ _ _ _ Hs Hin) as (k & _ & Hk). cbv beta zeta in Hk.
    destruct (Nat.eqb (t_sets t) 0); [discriminate|]. destruct (Nat.ltb (t_models t) 2); [discriminate|].
    match type of Hk with context[topk2 ?r] => destruct (topk2 r) as [i j] end. destruct (nthE (g_models g) i) as [mi|]; cbn [rbind] in Hk; [|discriminate].
    destruct (nthE (g_models g) j) as [mj|]; cbn [rbind] in Hk; [|discriminate]. injection Hk as <-. cbn [os_sources] in Hsrc.
    match type of Hsrc with context[softmax1 ?a ?b] => set (tv := softmax1 a b) in *; pose proof (Hsm a b) as Htv; fold tv in Htv end. clearbody tv.
    cbn [app] in Hsrc. destruct Hsrc as [<-|[<-|Hsrc]]; cbn [is_params] in Ep.
    + destruct (g_tokenizer g); [|discriminate]. injection Ep as <-. destruct Hd as [[= <- <-]|[]]. split; [discriminate|]. intros _ _. apply always_num. lra.
    + destruct (g_tokenizer g); [|discriminate]. injection Ep as <-. destruct Hd as [[= <- <-]|[]]. split; [discriminate|]. intros _ _. apply always_num. lra.
    + destruct (extra_base g); [|contradiction]. destruct Hsrc as [<-|[]]. discriminate.
  - destruct (params_names g ps Hps Hns) as [_ Hincl].
    destruct Hset as [(slices & sl & src & d & E1 & _)|(ms' & im & d & E1 & Hin & _ & Ep & Hd)]; [congruence|].
    rewrite Em in E1. injection E1 as <-. unfold smooth_models in Hms.
    match type of Hms with rbind ?r _ = _ => destruct r as [l|] eqn:El end; cbn [rbind] in Hms; [|discriminate]. injection Hms as <-.
    apply in_app_iff in Hin as [Hin|Hin]; [|destruct (extra_base g); [destruct Hin as [<-|[]]; discriminate|contradiction]].
    destruct (rmapM_In_inv _ _ _ _ El Hin) as ([j mm] & _ & Hy). cbn [fst snd] in Hy.
    destruct (settings _ _ _ _) as [d'|] eqn:Ed; cbn [rbind] in Hy; [|discriminate]. injection Hy as <-. cbn [im_params] in Ep. injection Ep as ->.
    eapply settings_ok; [exact Ed|exact Hd|]. intros i k Hk. cbn beta. rewrite <- (map_map (fun k0 => t_at t k0 j i k) (adjust g name)).
    apply gradient_ok. apply Hincl. eapply nth_error_In; eauto.
  - destruct (params_names g ps Hps Hns) as [_ Hincl].
    destruct Hset as [(slices & sl & src & d & E1 & Hin & Hsrc & _ & Ep & Hd)|(ms & im & d & E1 & _)]; [|congruence].
    rewrite Es in E1. injection E1 as <-. unfold discrete_slices in Hs. destruct (rmapM_In_inv _ _ _ _ Hs Hin) as (k & _ & Hk). cbv beta zeta in Hk.
    match type of Hk with rbind ?r _ = _ => destruct r as [srcs|] eqn:El end; cbn [rbind] in Hk; [|discriminate]. injection Hk as <-. cbn [os_sources] in Hsrc.
    apply in_app_iff in Hsrc as [Hsrc|Hsrc]; [|destruct (extra_base g); [destruct Hsrc as [<-|[]]; discriminate|contradiction]].
    destruct (rmapM_In_inv _ _ _ _ El Hsrc) as ([j mm] & _ & Hy). cbn [fst snd] in Hy.
    destruct (settings _ _ _ _) as [d'|] eqn:Ed; cbn [rbind] in Hy; [|discriminate]. injection Hy as <-. cbn [is_params] in Ep. injection Ep as ->.
    eapply settings_ok; [exact Ed|exact Hd|]. intros i k' Hk. apply num_ok. apply Hincl. eapply nth_error_In; eauto.
Qed.

(** Each model gets, for each layer group, parameter and tensor, the genotype entry meant for it: the entry of the first
    filter that applies to the tensor, else of the last parameter set. *)
Theorem C42_values g l c ps :
  config g (Flat l) = Ok c -> g_method g <> "slerp" -> g_smooth g = false -> dget method_params (g_method g) = Some ps ->
  exists slices, mc_slices c = Some slices /\ Z.of_nat (List.length slices) = layer_groups g /\
  List.length l = (List.length slices * List.length (g_models g) * S (List.length (filters g)) * List.length ps)%nat /\
  forall k s, nth_error slices k = Some s ->
    map is_model (os_sources s) = g_models g ++ match extra_base g with Some b => [b] | None => [] end /\
    forall j m src, nth_error (g_models g) j = Some m -> nth_error (os_sources s) j = Some src ->
      exists d, is_params src = Some d /\ dkeys d = ps /\
      forall p name, nth_error ps p = Some name ->
        exists v, dget d name = Some v /\
        forall tensor t i, set_for (filters g) tensor i ->
          exists q, evaluate_setting tensor t v = Ok (Some (PNum q)) /\
                    expressed (g_negative g) name
                      (gene l (List.length (g_models g)) (S (List.length (filters g))) (List.length ps) k j i p) q.
Proof.
  intros Hc Hns Hsm Hps. destruct (config_cases _ _ _ Hc) as (t & ps' & Ht & Hps' & Hg & Hm & Hp & _ & Hcase).
  rewrite Hps in Hps'. injection Hps' as <-. destruct (params_names g ps Hps Hns) as [Hnd Hincl].
  destruct Hcase as [(? & _)|[(_ & ? & _)|(_ & _ & s & Hs & Es & Em & Hne)]]; [congruence..|].
  exists s. split; auto. cbn in Ht.
  destruct (Nat.eqb_spec (Z.to_nat (layer_groups g) * List.length (g_models g) * S (List.length (filters g))) 0) as [|Hk0]; [discriminate|].
  destruct (Nat.eqb_spec (List.length l mod (Z.to_nat (layer_groups g) * List.length (g_models g) * S (List.length (filters g)))) 0) as [Hmod|]; [|discriminate].
  cbn [orb negb] in Ht. injection Ht as <-. cbn [t_groups t_models t_sets t_params] in *.
  unfold discrete_slices in Hs. cbn [t_groups t_sets t_at] in Hs.
  assert (Hlen : List.length s = Z.to_nat (layer_groups g)).
  { pose proof (proj1 (rmapM_Ok_Forall2 _ _ _) Hs) as HF. clear - HF. remember (seq 0 (Z.to_nat (layer_groups g))) as sq eqn:Eq.
    assert (List.length sq = Z.to_nat (layer_groups g)) as <- by (subst; apply seq_length). clear Eq. induction HF; cbn; auto. }
  split; [destruct (Z.le_gt_cases 0 (layer_groups g)); [lia|]; destruct s; [congruence|]; cbn in Hlen; lia|].
  split.
  { rewrite Hlen. set (known := (Z.to_nat (layer_groups g) * List.length (g_models g) * S (List.length (filters g)))%nat) in *.
    rewrite <- Hp. rewrite (Nat.div_mod_eq (List.length l) known) at 1. rewrite Hmod. lia. }
  intros k sl Hk.
  assert (Hkl : (k < Z.to_nat (layer_groups g))%nat) by (rewrite <- Hlen; apply nth_error_Some; congruence).
  assert (Hsq : nth_error (seq 0 (Z.to_nat (layer_groups g))) k = Some k) by (rewrite (nth_error_nth' _ 0%nat) by (rewrite seq_length; auto); now rewrite seq_nth by auto).
  destruct (rmapM_nth _ _ _ k k Hs Hsq) as (sl' & Hk' & Esl). rewrite Hk in Hk'. injection Hk' as <-. cbv beta zeta in Esl.
  match type of Esl with rbind ?r _ = _ => destruct r as [srcs|] eqn:El end; cbn [rbind] in Esl; [|discriminate]. injection Esl as <-. cbn [os_sources].
  assert (Hmods : map is_model srcs = g_models g).
  { transitivity (map snd (combine (seq 0 (List.length (g_models g))) (g_models g))); [|apply combine_seq_snd].
    eapply rmapM_map_eq; [exact El|]. intros [j m] y _ Hy. cbn [fst snd] in Hy |- *. destruct (settings _ _ _ _); cbn [rbind] in Hy; [|discriminate]. now injection Hy as <-. }
  split.
  { rewrite map_app, Hmods. f_equal. destruct (extra_base g); reflexivity. }
  intros j m src Hj Hsrc.
  destruct (rmapM_nth _ _ _ j (j, m) El (combine_seq_nth _ _ _ Hj)) as (src' & Hsrc' & Ey). cbn [fst snd] in Ey.
  rewrite nth_error_app1 in Hsrc by (apply nth_error_Some; congruence). rewrite Hsrc in Hsrc'. injection Hsrc' as <-.
  destruct (settings _ _ _ _) as [d|] eqn:Ed; cbn [rbind] in Ey; [|discriminate]. injection Ey as <-. cbn [is_params]. exists d. split; auto.
  destruct (settings_spec _ _ _ _ _ Ed) as [Hf Hset]. split; [exact Hf|]. intros p name Hpn.
  destruct (Hset p name Hpn) as (v & Hv & Hw). exists v. split.
  { apply dget_In_NoDup; [unfold dkeys; rewrite Hf; exact Hnd|]. eapply nth_error_In; eauto. }
  intros tensor tt' i Hi. rewrite (written_set g _ v tensor tt' i Hw Hi). cbn [evaluate_setting]. eexists. split; [reflexivity|].
  unfold gene. rewrite <- Hp.
  match goal with |- expressed _ _ (nth ?a l 0) (adjust g name (nth ?b l 0)) => replace a with b by ring end.
  apply adjust_expressed. apply Hincl. eapply nth_error_In; eauto.
Qed.

(** ** SLERP: the two models with the highest values, the higher one being the base *)
Definition topk_ok : Prop := forall row : list Q, (2 <= List.length row)%nat ->
  let (i, j) := topk2 row in
  i <> j /\ (i < List.length row)%nat /\ (j < List.length row)%nat /\ (nth j row 0 <= nth i row 0)%Q /\
  forall k, (k < List.length row)%nat -> k <> i -> (nth k row 0 <= nth j row 0)%Q.

Theorem C42_slerp_partial g l c :
  topk_ok -> (forall a b, 0 <= softmax1 a b <= 1)%Q ->
  config g (Flat l) = Ok c -> g_method g = "slerp" -> g_filters g = None -> extra_base g = None ->
  exists slices, mc_slices c = Some slices /\ Z.of_nat (List.length slices) = layer_groups g /\
  forall k s, nth_error slices k = Some s ->
    let v j := gene l (List.length (g_models g)) 1 1 k j 0 0 in
    exists i j mi mj t, i <> j /\ nth_error (g_models g) i = Some mi /\ nth_error (g_models g) j = Some mj /\
      (v j <= v i)%Q /\ (forall o, (o < List.length (g_models g))%nat -> o <> i -> (v o <= v j)%Q) /\
      map is_model (os_sources s) = [mi; mj] /\ os_base s = Some mi /\
      os_params s = Some [("t", PNum t)] /\ (0 <= t <= 1)%Q.
Proof.
  intros Htop Hsm Hc Hsl Hf Hb. destruct (config_cases _ _ _ Hc) as (t & ps & Ht & Hps & Hg & Hm & Hp & _ & Hcase).
  destruct Hcase as [(_ & s & Hs & Es & Em & Hne)|[(? & _)|(? & _)]]; [|congruence..].
  rewrite Hsl in Hps. injection Hps as <-. cbn [List.length] in Hp. exists s. split; auto. cbn in Ht. unfold filters in Ht. rewrite Hf in Ht. cbn [List.length] in Ht.
  destruct (Nat.eqb_spec (Z.to_nat (layer_groups g) * List.length (g_models g) * 1) 0) as [|Hk0]; [discriminate|].
  destruct (Nat.eqb_spec (List.length l mod (Z.to_nat (layer_groups g) * List.length (g_models g) * 1)) 0) as [Hmod|]; [|discriminate].
  cbn [orb negb] in Ht. injection Ht as <-. cbn [t_groups t_models t_sets t_params] in *. unfold slerp_slices in Hs. cbn [t_groups t_models t_sets t_at] in Hs. rewrite Hp in Hs.
  assert (Hlen : List.length s = Z.to_nat (layer_groups g)).
  { pose proof (proj1 (rmapM_Ok_Forall2 _ _ _) Hs) as HF. clear - HF. remember (seq 0 (Z.to_nat (layer_groups g))) as sq eqn:Eq.
    assert (List.length sq = Z.to_nat (layer_groups g)) as <- by (subst; apply seq_length). clear Eq. induction HF; cbn; auto. }
  split; [destruct (Z.le_gt_cases 0 (layer_groups g)); [lia|]; destruct s; [congruence|]; cbn in Hlen; lia|].
  intros k sl Hk. set (v := fun j => gene l (List.length (g_models g)) 1 1 k j 0 0).
  assert (Hkl : (k < Z.to_nat (layer_groups g))%nat) by (rewrite <- Hlen; apply nth_error_Some; congruence).
  assert (Hsq : nth_error (seq 0 (Z.to_nat (layer_groups g))) k = Some k) by (rewrite (nth_error_nth' _ 0%nat) by (rewrite seq_length; auto); now rewrite seq_nth by auto).
  destruct (rmapM_nth _ _ _ k k Hs Hsq) as (sl' & Hk' & Esl). rewrite Hk in Hk'. injection Hk' as <-. cbv beta zeta in Esl.
  cbn [Nat.eqb] in Esl. destruct (Nat.ltb_spec (List.length (g_models g)) 2) as [|H2]; [discriminate|].
  set (row := map _ (seq 0 (List.length (g_models g)))) in Esl.
  assert (Hrl : List.length row = List.length (g_models g)) by (unfold row; now rewrite map_length, seq_length).
  assert (Hrow : forall j, (j < List.length (g_models g))%nat -> nth j row 0%Q = v j).
  { intros j Hj. unfold row. rewrite (nth_indep _ 0%Q ((fun m => nth (((k * List.length (g_models g) + m) * 1 + 0) * 1 + 0) l 0%Q) 0%nat)) by (rewrite map_length, seq_length; auto).
    rewrite (map_nth (fun m => nth (((k * List.length (g_models g) + m) * 1 + 0) * 1 + 0) l 0%Q)). rewrite seq_nth by auto. unfold v, gene. f_equal. cbn [Nat.add]. ring. }
  specialize (Htop row ltac:(rewrite Hrl; auto)). destruct (topk2 row) as [i j]. rewrite Hrl in Htop. destruct Htop as (Hij & Hi & Hj & Hvij & Hrest).
  unfold nthE in Esl. destruct (nth_error (g_models g) i) as [mi|] eqn:Emi; cbn [rbind] in Esl; [|discriminate].
  destruct (nth_error (g_models g) j) as [mj|] eqn:Emj; cbn [rbind] in Esl; [|discriminate]. injection Esl as <-. rewrite Hb. cbn [os_sources os_base os_params map is_model app].
  exists i, j, mi, mj, (softmax1 (nth i row 0%Q) (nth j row 0%Q)).
  rewrite !Hrow in Hvij by auto. repeat split; auto; [|apply Hsm..]. intros o Ho Hoi. pose proof (Hrest o Ho Hoi) as Hr. rewrite !Hrow in Hr by auto. exact Hr.
Qed.

(** Finding: a SLERP genome whose base model is not one of its models produces slices with three sources, which the
    SLERP method refuses. *)
Theorem C42_slerp_base_refuted g x c b :
  config g x = Ok c -> g_method g = "slerp" -> extra_base g = Some b ->
  forall slices s, mc_slices c = Some slices -> In s slices -> List.length (os_sources s) = 3%nat.
Proof.
  intros Hc Hsl Hb slices s Hs Hin. destruct (config_cases _ _ _ Hc) as (t & ps & Ht & _ & _ & _ & _ & _ & [(_ & s' & Hs' & Es & _)|[(? & _)|(? & _)]]); [|congruence..].
  rewrite Es in Hs. injection Hs as <-. unfold slerp_slices in Hs'. destruct (rmapM_In_inv _ _ _ _ Hs' Hin) as (k & _ & Hk). cbv beta zeta in Hk.
  destruct (Nat.eqb (t_sets t) 0); [discriminate|]. destruct (Nat.ltb (t_models t) 2); [discriminate|].
  match type of Hk with context[topk2 ?r] => destruct (topk2 r) as [i j] end. destruct (nthE (g_models g) i) as [mi|]; cbn [rbind] in Hk; [|discriminate].
  destruct (nthE (g_models g) j) as [mj|]; cbn [rbind] in Hk; [|discriminate]. injection Hk as <-. rewrite Hb. reflexivity.
Qed.

(** The initial genotype of a valid genome is accepted: it never raises. *)
Theorem C42_initial g :
  topk_ok -> validate g = Ok tt -> g_models g <> [] -> (0 < g_layers g)%Z ->
  (g_method g = "slerp" -> (2 <= List.length (g_models g))%nat) ->
  exists t c, initial_genotype g = Ok t /\ config g (Shaped t) = Ok c.
Proof.
  intros Htop Hv Hne HL Hslerp. unfold validate in Hv.
  destruct (dmem method_params (g_method g)) eqn:Ed; cbn [negb] in Hv; [|discriminate].
  destruct (_ && _) in Hv; [discriminate|].
  destruct (String.eqb (g_method g) "slerp" && (g_smooth g || truthy (g_filters g))) eqn:Esl; [discriminate|].
  destruct (Z.ltb (g_granularity g) 1 || Z.eqb (g_layers g mod g_granularity g) 0) eqn:Eg; [|discriminate]. clear Hv.
  unfold dmem in Ed. destruct (dget method_params (g_method g)) as [ps|] eqn:Eps; [|discriminate]. clear Ed.
  unfold initial_genotype, dgetE. rewrite Eps. cbn [rbind]. destruct (g_models g) as [|m0 ms0] eqn:Ems; [congruence|]. rewrite <- Ems in *.
  match goal with |- exists t c, Ok ?T = Ok t /\ _ => exists T; enough (exists c, config g (Shaped T) = Ok c) as (c & Hc) by eauto end.
  unfold genotype_merge_config. cbn [to_torch rbind t_groups t_models t_params].
  assert (Hgr : (0 < g_granularity g)%Z -> (0 < layer_groups g /\ layer_groups g * g_granularity g = g_layers g)%Z).
  { intros Hlt. apply orb_true_iff in Eg as [Eg|Eg]; [apply Z.ltb_lt in Eg; lia|]. apply Z.eqb_eq in Eg.
    unfold layer_groups. rewrite (proj2 (Z.ltb_lt _ _) Hlt). pose proof (Z.div_mod (g_layers g) (g_granularity g) ltac:(lia)). split; nia. }
  assert (Hpos : (0 < layer_groups g)%Z).
  { unfold layer_groups in *. destruct (Z.ltb_spec 0 (g_granularity g)); [now apply Hgr|lia]. }
  assert (Hif : (0 <? g_granularity g)%Z && negb (Z.of_nat (Z.to_nat (layer_groups g)) * g_granularity g =? g_layers g)%Z = false).
  { destruct (Z.ltb_spec 0 (g_granularity g)) as [Hlt|]; [|reflexivity]. cbn. rewrite Z2Nat.id by lia. destruct (Hgr Hlt) as [_ ->]. now rewrite Z.eqb_refl. }
  rewrite Hif, Nat.eqb_refl. cbn [negb]. unfold dgetE. rewrite Eps. cbn [rbind]. rewrite Nat.eqb_refl. cbn [negb].
  match goal with |- context[smooth_models g ?t0 ps] => set (t := t0) end.
  assert (Hset : forall value, exists d, settings g (t_sets t) ps value = Ok d).
  { intros value. cbn [t t_sets]. unfold settings. destruct (Nat.ltb_spec 1 (S (List.length (filters g)))) as [Hlt|Hge]; [|cbn; eauto].
    assert (Hft : forall i, (i < S (List.length (filters g)))%nat -> exists f, filter_at g i = Ok f).
    { intros i Hi. unfold filter_at, filters in *. destruct (g_filters g) as [fs|]; [|cbn in Hlt; lia]. unfold nthE.
      destruct (nth_error (map Some fs ++ [None]) i) eqn:En; [eauto|]. apply nth_error_None in En. rewrite app_length, map_length in En. cbn in En. lia. }
    assert (Hrm : forall A B (f : A -> result B) l, (forall x, In x l -> exists y, f x = Ok y) -> exists out, rmapM f l = Ok out).
    { clear. induction l as [|x l IH]; intros Hx; cbn; [eauto|]. destruct (Hx x) as (y & ->); [now left|]. cbn.
      destruct IH as (out & ->); [intros z Hz; apply Hx; now right|]. cbn. eauto. }
    apply Hrm. intros [k p] _. cbn [fst snd].
    destruct (Hrm _ _ (fun i => let! f := filter_at g i in Ok (PCond (value i k p) f)) (seq 0 (S (List.length (filters g))))) as (out & ->); [|cbn; eauto].
    intros i Hi. apply in_seq in Hi. destruct (Hft i ltac:(lia)) as (f & ->). cbn. eauto. }
  assert (Hrm : forall A B (f : A -> result B) l, (forall x, In x l -> exists y, f x = Ok y) -> exists out, rmapM f l = Ok out /\ (l <> [] -> out <> [])).
  { clear. induction l as [|x l IH]; intros Hx; cbn; [eexists; split; [reflexivity|congruence]|]. destruct (Hx x) as (y & ->); [now left|]. cbn.
    destruct IH as (out & -> & _); [intros z Hz; apply Hx; now right|]. cbn. eexists. split; [reflexivity|discriminate]. }
  assert (Hseq : seq 0 (t_groups t) <> []) by (cbn [t t_groups]; destruct (Z.to_nat (layer_groups g)) eqn:En; [lia|discriminate]).
  assert (Hcm : combine (seq 0 (List.length (g_models g))) (g_models g) <> []) by (rewrite Ems; discriminate).
  destruct (String.eqb_spec (g_method g) "slerp") as [Hs|Hs].
  - assert (Hsl : exists s, slerp_slices topk2 softmax1 g t = Ok s /\ s <> []).
    { unfold slerp_slices. edestruct Hrm as (out & Ho & Hne'); [|exists out; split; [exact Ho|auto]].
      intros k _. cbn beta. cbn [t t_sets t_models Nat.eqb]. destruct (Nat.ltb_spec (List.length (g_models g)) 2) as [Hlt|_]; [specialize (Hslerp Hs); lia|].
      match goal with |- context[topk2 ?r] => set (row := r) end. specialize (Htop row ltac:(unfold row; rewrite map_length, seq_length; auto)).
      destruct (topk2 row) as [i j]. destruct Htop as (_ & Hi & Hj & _). unfold row in Hi, Hj. rewrite map_length, seq_length in Hi, Hj.
      unfold nthE. destruct (nth_error (g_models g) i) eqn:E1; [|apply nth_error_None in E1; lia].
      destruct (nth_error (g_models g) j) eqn:E2; [|apply nth_error_None in E2; lia]. cbn. eauto. }
    destruct Hsl as (s & -> & Hs0). cbn [rbind]. unfold validate_config. cbn [mc_modules mc_slices mc_models truthy]. destruct s; [congruence|]. cbn. eauto.
  - destruct (g_smooth g).
    + assert (Hsl : exists s, smooth_models g t ps = Ok s /\ s <> []).
      { unfold smooth_models. match goal with |- context[rmapM ?f ?l] => edestruct (Hrm _ _ f l) as (out & -> & Hne') end.
        - intros [j m] _. cbn [fst snd]. edestruct Hset as (d & ->). cbn. eauto.
        - cbn [rbind]. eexists. split; [reflexivity|]. specialize (Hne' Hcm). destruct out; [congruence|discriminate]. }
      destruct Hsl as (s & -> & Hs0). cbn [rbind]. unfold validate_config. cbn [mc_modules mc_slices mc_models truthy]. destruct s; [congruence|]. cbn. eauto.
    + assert (Hsl : exists s, discrete_slices g t ps = Ok s /\ s <> []).
      { unfold discrete_slices. edestruct Hrm as (out & Ho & Hne'); [|exists out; split; [exact Ho|auto]].
        intros k _. cbn beta. match goal with |- context[rmapM ?f ?l] => edestruct (Hrm _ _ f l) as (o2 & -> & _) end.
        - intros [j m] _. cbn [fst snd]. edestruct Hset as (d & ->). cbn. eauto.
        - cbn. eauto. }
      destruct Hsl as (s & -> & Hs0). cbn [rbind]. unfold validate_config. cbn [mc_modules mc_slices mc_models truthy]. destruct s; [congruence|]. cbn. eauto.
Qed.
End Theorems.
Print Assumptions C42_layers_partial.
Print Assumptions C42_groups_refuted.
Print Assumptions C42_bounds.
Print Assumptions C42_values.
Print Assumptions C42_slerp_partial.
Print Assumptions C42_slerp_base_refuted.
Print Assumptions C42_initial.
