(** * C87: the recorded configuration and the card describe the merge *)
From Coq Require Import Lia Permutation QArith.
From Verif.Base Require Import Py PyFacts.
From Verif.Common Require Import Model.
From Verif.Config Require Import Model.
From Verif.Arch Require Import Model Data Table Choose.
From Verif.Plan Require Import Model Spec Proofs NormProofs ModuleProofs.
From Verif.Plan Require Import Props.
From Verif.Run Require Import CacheSpec PropsCache.
From Verif.Recorded Require Import Model Spec Proofs.
Local Open Scope string_scope.
Local Open Scope list_scope.

Section Configuration.
Context {M : Type} {HM : Eqb M}.
Variable W : world M.

(** The recorded configuration is a valid one, and names the models the given one names. *)
Theorem C87_valid c c' : w_arch W <> [] -> validate_config c = Ok tt ->
  (forall nm d, In (nm, d) (opt_list (mc_modules c)) -> validate_module d = Ok tt) -> recorded W c = Ok c' ->
  validate_config c' = Ok tt /\ (forall nm d, In (nm, d) (opt_list (mc_modules c')) -> validate_module d = Ok tt) /\
  (forall m, names_model c' m <-> names_model c m) /\
  mc_base c' = mc_base c /\ mc_params c' = mc_params c /\ mc_dtype c' = mc_dtype c /\ mc_out_dtype c' = mc_out_dtype c.
Proof.
  intros Ha Hv Hvm He. destruct (C14_normal_form W c c' Hvm He) as (ms & ms' & Hms & Em & HF & Tm & Ts & Eb & Ep & Ed & Eo).
  assert (Hne : ms' <> []).
  { intros ->. inversion HF as [E|]. subst ms. unfold validate_config in Hv. destruct (truthy (mc_slices c)); [destruct Hms as (? & ? & _ & E); discriminate|].
    destruct (truthy (mc_models c)) eqn:T; [|rewrite Hms in Hv; discriminate]. destruct (w_arch W) as [|[nm md] l]; [congruence|]. rewrite dkeys_cons in Hms. discriminate. }
  split; [|split; [|split; [|auto]]].
  - unfold validate_config. rewrite Em, Tm, Ts. destruct ms'; [congruence|reflexivity].
  - rewrite Em. cbn [opt_list]. intros nm d Hi. clear - HF Hi. induction HF as [|kv kv' l l' (_ & T1 & T2 & _) _ IH]; [destruct Hi|].
    destruct Hi as [->|Hi]; [|exact (IH Hi)]. cbn in T1, T2. unfold validate_module. now rewrite T1, T2.
  - intros m. exact (C84_named_kept W c c' m Ha Hv Hvm He).
Qed.

(** Merging again with the recorded configuration writes the same configuration and the same tensors: the output
    configuration is the same and so is the list of tasks. The modules take their numbers of layers from keys apart
    from each other, and both runs take the same model for the base of the output configuration; for modules given by
    models, without a base model, it is one of theirs. *)
Theorem C87_rerun c c' referenced referenced' base out saves : NoDup (dkeys (w_arch W)) -> w_arch W <> [] ->
  keys_apart (w_arch W) -> (forall nm md, In (nm, md) (w_arch W) -> counted_by_key md) ->
  validate_config c = Ok tt -> (forall nm d, In (nm, d) (opt_list (mc_modules c)) -> validate_module d = Ok tt) ->
  Permutation referenced (referenced_models c) -> based c referenced base -> based c referenced' base -> models_have c base ->
  recorded W c = Ok c' -> model_out_config W c referenced = Ok out -> plan_to_disk W c out = Ok saves ->
  model_out_config W c' referenced' = Ok out /\ plan_to_disk W c' out = Ok saves /\ recorded W c' = Ok c'.
Proof.
  intros Hnd Hne Hap Hct Hv Hvm Hperm Hb Hb' Hbm He Ho Hp. unfold recorded in *.
  assert (Hplan : exists ts, plan W c out = Ok ts) by (unfold plan_to_disk in Hp; destruct (plan W c out); [eauto|discriminate]). destruct Hplan as (ts & Hts).
  pose proof (normalize_idem W c c' He) as He'. split; [|split; [|exact He']].
  - eapply (rerun W c c' referenced referenced' base out ts); eauto. intros Tm. destruct Hb as [Hb|(Hb & Hh)]; [now left|right].
    assert (Hin : In base (referenced_models c)). { eapply Permutation_in; [exact Hperm|]. destruct referenced; [discriminate|]. injection Hh as ->. now left. }
    apply (proj2 (C84_referenced c)) in Hin. unfold validate_config in Hv. rewrite Tm in Hv. unfold names_model in Hin. rewrite Hb in Hin.
    destruct (mc_modules c) as [[|kv l]|]; cbn [truthy opt_list] in *; [|destruct (mc_slices c) as [[|]|]; discriminate|];
      (destruct (mc_slices c) as [[|sl l']|]; cbn [truthy opt_list] in *; try discriminate);
      (destruct Hin as [Hin|[(im & Hi & <-)|[(? & ? & [] & _)|(? & ? & [] & _)]]]; [discriminate|now apply in_map]).
  - assert (Eo : mc_out_dtype c' = mc_out_dtype c) by (destruct (C14_normal_form W c c' Hvm He) as (? & ? & ? & ? & ? & ? & ? & ? & ? & ? & E); exact E).
    unfold plan_to_disk, plan in *. rewrite He' . rewrite He in Hp. rewrite Eo. exact Hp.
Qed.
End Configuration.

(** The conditions on the architecture hold for every definition shipped with mergekit. *)
Lemma json_counted a p : ja_override a = None \/ ja_key a = None -> counted_by_key {| md_arch := json_module a; md_prefix := p |}.
Proof.
  intros Ha k cfg n Hk Hn Hnum. cbn in Hk, Hnum. destruct Ha as [Ha|Ha]; [|congruence]. unfold ja_num in Hnum. rewrite Ha, Hk in Hnum.
  destruct (get_config_value cfg k) as [v|]; [|discriminate]. cbn in Hnum. destruct v; try discriminate. now injection Hnum as ->.
Qed.
Definition key_ok (m : module_info) : bool :=
  match m with MJson d => match ja_override (jd_arch d), ja_key (jd_arch d) with Some _, Some _ => false | _, _ => true end | _ => true end.
Lemma key_ok_counted m p : key_ok m = true -> counted_by_key {| md_arch := module_of m; md_prefix := p |}.
Proof.
  destruct m as [d|n|n]; intros Hk.
  - apply json_counted. cbn in Hk. destruct (ja_override (jd_arch d)), (ja_key (jd_arch d)); auto; discriminate.
  - intros k cfg z E Hn Hnum. cbn [module_of afmoe_module md_arch ma_key ma_num] in *. rewrite E in Hnum. unfold base_num in Hnum. destruct (get_config_value cfg k) as [v|]; [|discriminate]. cbn in Hnum. destruct v; try discriminate. now injection Hnum as ->.
  - intros k cfg z E Hn Hnum. cbn [module_of glm4_module md_arch ma_key ma_num] in *. rewrite E in Hnum. unfold base_num in Hnum. destruct (get_config_value cfg k) as [v|]; [|discriminate]. cbn in Hnum. destruct v; try discriminate. now injection Hnum as ->.
Qed.
Definition two_apart (m m' : string * module_entry) : bool :=
  eqb (fst m) (fst m') ||
  match ma_key (module_of (me_info (snd m))), ma_key (module_of (me_info (snd m'))) with
  | Some k, Some k' => String.eqb k "" || String.eqb k' "" || disjoint (split_on "."%char k') (split_on "."%char k)
  | _, _ => true
  end.
Definition arch_ok (a : architecture) : bool :=
  forallb (fun m => key_ok (me_info (snd m)) && forallb (two_apart m) (ar_modules a)) (ar_modules a) &&
  match ar_modules a with [] => false | _ => true end && (if list_eq_dec string_dec (dedup (map fst (ar_modules a))) (map fst (ar_modules a)) then true else false).
Lemma arch_ok_sound a : arch_ok a = true ->
  NoDup (dkeys (modules_of a)) /\ modules_of a <> [] /\ keys_apart (modules_of a) /\ forall nm md, In (nm, md) (modules_of a) -> counted_by_key md.
Proof.
  unfold arch_ok. rewrite !andb_true_iff. intros ((Hf & Hn) & Hd). rewrite forallb_forall in Hf.
  assert (Ek : dkeys (modules_of a) = map fst (ar_modules a)) by (unfold dkeys, modules_of; rewrite map_map; reflexivity).
  split; [|split; [|split]].
  - rewrite Ek. destruct (list_eq_dec _ _ _) as [E|]; [|discriminate]. rewrite <- E. apply dedup_NoDup.
  - unfold modules_of. destruct (ar_modules a); discriminate.
  - intros nm md nm' md' k Hi Hi' Hne Hk Hk0 k' Hk' Hk0'. apply in_map_iff in Hi as (m & [= <- <-] & Hm). apply in_map_iff in Hi' as (m' & [= <- <-] & Hm').
    specialize (Hf m Hm). apply andb_true_iff in Hf as (_ & Hf). rewrite forallb_forall in Hf. specialize (Hf m' Hm'). unfold two_apart in Hf.
    cbn [md_arch] in Hk, Hk'. rewrite Hk, Hk' in Hf. destruct (eqb_spec (fst m) (fst m')) as [E|_]; [congruence|]. cbn [orb] in Hf.
    destruct (String.eqb_spec k "") as [|_]; [contradiction|]. destruct (String.eqb_spec k' "") as [|_]; [contradiction|]. exact Hf.
  - intros nm md Hi. apply in_map_iff in Hi as (m & [= <- <-] & Hm). apply key_ok_counted. specialize (Hf m Hm). now apply andb_true_iff in Hf as (Hf & _).
Qed.
Theorem C87_shipped cfg a : arch_info_for_config table cfg = Ok (Some a) ->
  NoDup (dkeys (modules_of a)) /\ modules_of a <> [] /\ keys_apart (modules_of a) /\ forall nm md, In (nm, md) (modules_of a) -> counted_by_key md.
Proof.
  intros Ha. apply arch_ok_sound.
  assert (Hall : forallb arch_ok table = true) by (vm_compute; reflexivity). rewrite forallb_forall in Hall.
  assert (Htab : forallb (fun kv => forallb arch_ok (snd kv)) (name_to_arch table) = true) by (vm_compute; reflexivity). rewrite forallb_forall in Htab.
  unfold arch_info_for_config in Ha. destruct (hc_names cfg) as [[|name [|]]|]; try discriminate.
  destruct (eqb name "AfmoeForCausalLM"). { destruct (experts_of cfg "num_experts"); [|discriminate]. injection Ha as <-. reflexivity. }
  destruct (eqb name "Glm4MoeForCausalLM"). { destruct (experts_of cfg "n_routed_experts"); [|discriminate]. injection Ha as <-. reflexivity. }
  destruct (dget (name_to_arch table) name) as [l|] eqn:E; [|discriminate]. apply dget_In in E. specialize (Htab _ E). cbn [snd] in Htab. rewrite forallb_forall in Htab.
  apply Htab. destruct l as [|x [|y l]]; [discriminate|injection Ha as <-; now left|]. injection Ha as Ha. exact (proj1 (find_some (fun a => eqb (ar_type a) (hc_type cfg)) (x :: y :: l) Ha)).
Qed.

(** * The card *)
(** When a path is taken for a repository of the hub. *)
Theorem C87_hub exists_ repo p : is_hf exists_ repo p = Ok true <->
  (p <> "" /\ (forall r, p <> "/" ++ r /\ p <> "~" ++ r)%string /\ (count "/"%char p <= 1)%nat /\ (exists_ p = false \/ repo p = Ok true)).
Proof.
  unfold is_hf, starts_local. destruct p as [|ch r]; cbn [rbind]; [split; [discriminate|intros (Hp & _); congruence]|].
  destruct (Ascii.eqb_spec ch "/"%char) as [->|H1]; cbn [orb].
  { split; [discriminate|]. intros (_ & Hr & _). destruct (Hr r) as (Hr1 & _). now exfalso; apply Hr1. }
  destruct (Ascii.eqb_spec ch "~"%char) as [->|H2]; cbn [orb].
  { split; [discriminate|]. intros (_ & Hr & _). destruct (Hr r) as (_ & Hr1). now exfalso; apply Hr1. }
  set (p := String ch r). assert (Hs : forall x, p <> ("/" ++ x)%string /\ p <> ("~" ++ x)%string) by (intros x; split; intros [= E _]; congruence).
  destruct (Nat.ltb_spec 1 (count "/"%char p)) as [Hc|Hc].
  { split; [discriminate|]. intros (_ & _ & Hc' & _). lia. }
  destruct (exists_ p) eqn:Ex; cbn [negb].
  - split.
    + intros Hr. split; [discriminate|]. split; [exact Hs|]. split; [lia|]. right. destruct (repo p) as [b|[]]; try discriminate; exact Hr.
    + intros (_ & _ & _ & [|Hr]); [discriminate|]. now rewrite Hr.
  - split; [|reflexivity]. intros _. split; [discriminate|]. split; [exact Hs|]. split; [lia|now left].
Qed.
(** A path that exists and might name a repository is looked up: without the hub, the card cannot be made. *)
Theorem C87_hub_fails exists_ repo p e : is_hf exists_ repo p = Err e <->
  ((p = "" /\ e = IndexError) \/
   (p <> "" /\ (forall r, p <> "/" ++ r /\ p <> "~" ++ r)%string /\ (count "/"%char p <= 1)%nat /\ exists_ p = true /\ repo p = Err e /\ e <> ValidationError)).
Proof.
  unfold is_hf, starts_local. destruct p as [|ch r]; cbn [rbind].
  { split; [intros [= <-]; now left|]. intros [(_ & ->)|(Hp & _)]; [reflexivity|congruence]. }
  destruct (Ascii.eqb_spec ch "/"%char) as [->|H1]; cbn [orb].
  { split; [discriminate|]. intros [(E & _)|(_ & Hr & _)]; [discriminate|]. destruct (Hr r) as (Hr1 & _). now exfalso; apply Hr1. }
  destruct (Ascii.eqb_spec ch "~"%char) as [->|H2]; cbn [orb].
  { split; [discriminate|]. intros [(E & _)|(_ & Hr & _)]; [discriminate|]. destruct (Hr r) as (_ & Hr1). now exfalso; apply Hr1. }
  set (p := String ch r). assert (Hs : forall x, p <> ("/" ++ x)%string /\ p <> ("~" ++ x)%string) by (intros x; split; intros [= E _]; congruence).
  destruct (Nat.ltb_spec 1 (count "/"%char p)) as [Hc|Hc].
  { split; [discriminate|]. intros [(E & _)|(_ & _ & Hc' & _)]; [discriminate|lia]. }
  destruct (exists_ p) eqn:Ex; cbn [negb].
  - split.
    + intros Hr. right. split; [discriminate|]. split; [exact Hs|]. split; [lia|]. split; [reflexivity|]. destruct (repo p) as [b|[]]; try discriminate; injection Hr as <-; split; (reflexivity || discriminate).
    + intros [(E & _)|(_ & _ & _ & _ & -> & Hv)]; [discriminate|]. destruct e; (reflexivity || congruence).
  - split; [discriminate|]. intros [(E & _)|(_ & _ & _ & E & _)]; discriminate.
Qed.

Section Card.
Context {M : Type} {HM : Eqb M}.
Variable path : M -> string.
Variable lora : M -> option string.
Variable hf : string -> result bool.
Notation described := (described path lora hf).
Notation made_of := (made_of path lora).

Lemma link_iff p t : maybe_link_hf hf p = Ok t <-> linked hf p t.
Proof.
  unfold maybe_link_hf, linked. destruct (hf p) as [[|]|]; cbn [rbind]; split; intros Ht.
  - injection Ht as <-. left. auto.
  - destruct Ht as [(_ & ->)|(E & _)]; [reflexivity|discriminate].
  - injection Ht as <-. right. auto.
  - destruct Ht as [(E & _)|(_ & ->)]; [discriminate|reflexivity].
  - discriminate.
  - destruct Ht as [(E & _)|(E & _)]; discriminate.
Qed.
Lemma md_iff m t : modelref_md path lora hf m = Ok t <-> described m t.
Proof.
  unfold modelref_md, Spec.described. destruct (maybe_link_hf hf (path m)) as [t1|] eqn:E1; cbn [rbind].
  - apply link_iff in E1. destruct (lora m) as [l|].
    + destruct (maybe_link_hf hf l) as [t2|] eqn:E2; cbn [rbind].
      * apply link_iff in E2. split; [intros [= <-]; exists t1; split; [exact E1|]; exists t2; auto|].
        intros (t1' & H1 & t2' & H2 & ->). apply link_iff in E1, E2, H1, H2. congruence.
      * split; [discriminate|]. intros (_ & _ & t2 & H2 & _). apply link_iff in H2. congruence.
    + split; [intros [= <-]; eauto|]. intros (t1' & H1 & ->). apply link_iff in E1, H1. congruence.
  - split; [discriminate|]. intros (t1 & H1 & _). apply link_iff in H1. congruence.
Qed.
Lemma hub_path_spec p l : hub_path hf p = Ok l -> forall q, In q l <-> (q = p /\ hf p = Ok true).
Proof.
  unfold hub_path. destruct (hf p) as [[|]|]; cbn [rbind]; intros [= <-] q; cbn; split; intros Hq; [destruct Hq as [<-|[]]; auto|left; now destruct Hq|destruct Hq|destruct Hq; discriminate].
Qed.
Lemma hub_paths_spec m l : hub_paths path lora hf m = Ok l -> forall q, In q l <-> (made_of m q /\ hf q = Ok true).
Proof.
  unfold hub_paths, Spec.made_of. destruct (hub_path hf (path m)) as [a|] eqn:Ea; [|discriminate]. cbn [rbind]. intros Hl q. pose proof (hub_path_spec _ _ Ea q) as Ha.
  destruct (lora m) as [lo|].
  - destruct (hub_path hf lo) as [b|] eqn:Eb; [|discriminate]. cbn [rbind] in Hl. injection Hl as <-. rewrite in_app_iff, Ha, (hub_path_spec _ _ Eb q).
    split; [intros [(-> & Hq)|(-> & Hq)]; auto|]. intros ([<-|[= <-]] & Hq); auto.
  - cbn [rbind] in Hl. injection Hl as <-. rewrite app_nil_r, Ha. split; [intros (-> & Hq); auto|]. intros ([<-|E] & Hq); [auto|discriminate].
Qed.
Lemma extract_spec ms l : extract_hf_paths path lora hf ms = Ok l -> forall q, In q l <-> exists m, In m ms /\ made_of m q /\ hf q = Ok true.
Proof.
  unfold extract_hf_paths. destruct (rmapM _ ms) as [ls|] eqn:E; [|discriminate]. cbn [rbind]. intros [= <-] q. apply rmapM_Ok_Forall2 in E.
  induction E as [|m x ms ls Hx _ IH]; cbn [concat]; [split; [intros []|intros (m & [] & _)]|]. rewrite in_app_iff, IH, (hub_paths_spec _ _ Hx q). split.
  - intros [Hq|(m' & Hi & Hq)]; [exists m; split; [now left|exact Hq]|exists m'; split; [now right|exact Hq]].
  - intros (m' & [<-|Hi] & Hq); [now left|right; eauto].
Qed.

(** The card's metadata lists the repositories of the hub the models are made of; the text names the base model, except
    for slerp; the list has the other models, in order, each as often as it was given. *)
Theorem C87_card method base referenced referenced2 cd : generate_card path lora hf method base referenced referenced2 = Ok cd ->
  (forall p, In p (cd_bases cd) <-> exists m, In m referenced /\ made_of m p /\ hf p = Ok true) /\
  (forall b, card_base method base b -> exists t, described b t /\ cd_base_text cd = (" using " ++ t ++ " as a base")%string) /\
  ((forall b, ~ card_base method base b) -> cd_base_text cd = "") /\
  exists ms, Forall2 (fun m line => exists t, described m t /\ line = ("* " ++ t)%string) ms (cd_bullets cd) /\
    (forall m, In m ms <-> In m referenced2 /\ ~ card_base method base m) /\ (NoDup referenced2 -> NoDup ms).
Proof.
  unfold generate_card. destruct (extract_hf_paths _ _ _ _) as [bases|] eqn:Eb; [|discriminate]. cbn [rbind]. set (actual := if String.eqb method "slerp" then None else base).
  assert (Hact : forall b, actual = Some b <-> card_base method base b).
  { intros b. unfold actual, card_base. destruct (String.eqb_spec method "slerp") as [E|E]; split; intros Hb; [discriminate|destruct Hb; contradiction|auto|now destruct Hb]. }
  intros Hc. destruct (match actual with Some b => _ | None => Ok "" end) as [text|] eqn:Et; [|discriminate]. cbn [rbind] in Hc.
  destruct (rmapM _ _) as [bul|] eqn:El in Hc; [|discriminate]. cbn [rbind] in Hc. injection Hc as <-. cbn [cd_bases cd_base_text cd_bullets].
  split; [exact (extract_spec _ _ Eb)|]. split; [|split].
  - intros b Hb. apply Hact in Hb. rewrite Hb in Et. destruct (modelref_md path lora hf b) as [t|] eqn:E; [|discriminate]. cbn in Et. injection Et as <-. exists t. split; [now apply md_iff|reflexivity].
  - intros Hn. destruct actual as [b|] eqn:Ea; [exfalso; apply (Hn b); now apply Hact|]. now injection Et as <-.
  - eexists. split; [|split].
    + apply rmapM_Ok_Forall2 in El. eapply Forall2_impl; [|exact El]. intros m line Hl. cbn beta in Hl. destruct (modelref_md path lora hf m) as [t|] eqn:E; [|discriminate]. cbn in Hl. injection Hl as <-.
      exists t. split; [now apply md_iff|reflexivity].
    + intros m. rewrite filter_In, <- Hact. destruct actual as [b|]; [|split; intros (Hi & _); split; auto; discriminate].
      destruct (eqb_spec m b) as [->|Hn]; cbn; split; intros (Hi & Hx); split; auto; first [discriminate Hx|exfalso; now apply Hx|congruence].
    + intros Hnd. now apply NoDup_filter.
Qed.

(** The card can be made exactly when every path it shows can be told to be of the hub or not. *)
Lemma md_total m : (exists t, modelref_md path lora hf m = Ok t) <-> forall p, made_of m p -> exists b, hf p = Ok b.
Proof.
  unfold modelref_md, maybe_link_hf, Spec.made_of. split.
  - intros (t & Ht) p [<-|Hp]; [destruct (hf (path m)) as [b|]; [eauto|discriminate]|]. rewrite Hp in Ht. destruct (hf (path m)) as [b|]; [|discriminate]. cbn [rbind] in Ht. destruct (hf p) as [b'|]; [eauto|discriminate].
  - intros Hp. destruct (Hp (path m) (or_introl eq_refl)) as (b & ->). cbn [rbind]. destruct (lora m) as [l|]; [|eauto]. destruct (Hp l (or_intror eq_refl)) as (b' & ->). cbn [rbind]. eauto.
Qed.
Lemma hub_paths_total m : (exists t, hub_paths path lora hf m = Ok t) <-> forall p, made_of m p -> exists b, hf p = Ok b.
Proof.
  unfold hub_paths, hub_path, Spec.made_of. split.
  - intros (t & Ht) p [<-|Hp]; [destruct (hf (path m)) as [b|]; [eauto|discriminate]|]. rewrite Hp in Ht. destruct (hf (path m)) as [b|]; [|discriminate]. cbn [rbind] in Ht. destruct (hf p) as [b'|]; [eauto|discriminate].
  - intros Hp. destruct (Hp (path m) (or_introl eq_refl)) as (b & ->). cbn [rbind]. destruct (lora m) as [l|]; [|cbn [rbind]; eauto]. destruct (Hp l (or_intror eq_refl)) as (b' & ->). cbn [rbind]. eauto.
Qed.
Lemma rmapM_total {A B} (f : A -> result B) l : (exists r, rmapM f l = Ok r) <-> forall a, In a l -> exists b, f a = Ok b.
Proof.
  induction l as [|a l IH]; cbn [rmapM].
  - split; [intros _ a []|]. intros _. eexists; reflexivity.
  - split.
    + intros (r & Hr) x Hx. destruct (f a) as [b|] eqn:E; [|discriminate]. cbn [rbind] in Hr. destruct (rmapM f l) as [r'|]; [|discriminate].
      destruct Hx as [<-|Hx]; [eauto|]. apply IH; eauto.
    + intros Hall. destruct (Hall a (or_introl eq_refl)) as (b & ->). cbn [rbind]. destruct (proj2 IH) as (r & ->); [intros x Hx; apply Hall; now right|]. cbn [rbind]. eauto.
Qed.
Theorem C87_card_made method base referenced referenced2 : Permutation referenced referenced2 -> (forall b, base = Some b -> In b referenced) ->
  (exists cd, generate_card path lora hf method base referenced referenced2 = Ok cd) <->
  (forall m p, In m referenced -> made_of m p -> exists b, hf p = Ok b).
Proof.
  intros Hperm Hbase. unfold generate_card. set (actual := if String.eqb method "slerp" then None else base).
  assert (Hact : forall b, actual = Some b -> In b referenced) by (intros b Hb; apply Hbase; unfold actual in Hb; destruct (String.eqb method "slerp"); [discriminate|exact Hb]). split.
  - intros (cd & Hc) m p Hi. unfold extract_hf_paths in Hc. destruct (rmapM (hub_paths path lora hf) referenced) as [ls|] eqn:E; [|discriminate].
    apply (proj1 (hub_paths_total m)). apply (proj1 (rmapM_total _ referenced)); eauto.
  - intros Hall. unfold extract_hf_paths. destruct (proj2 (rmapM_total (hub_paths path lora hf) referenced)) as (ls & ->).
    { intros m Hi. apply hub_paths_total. intros p. now apply Hall. }
    cbn [rbind]. assert (Ht : exists t, match actual with Some b => let! t := modelref_md path lora hf b in Ok (" using " ++ t ++ " as a base")%string | None => Ok "" end = Ok t).
    { destruct actual as [b|] eqn:Ea; [|eauto]. destruct (proj2 (md_total b)) as (t & ->); [intros p; apply Hall; now apply Hact|]. cbn [rbind]. eauto. }
    destruct Ht as (t & ->). cbn [rbind]. edestruct (proj2 (rmapM_total (fun m => let! t := modelref_md path lora hf m in Ok ("* " ++ t)%string)
      (filter (fun m => negb (match actual with Some b => eqb m b | None => false end)) referenced2))) as (bul & ->).
    { intros m Hi. apply filter_In in Hi as (Hi & _). destruct (proj2 (md_total m)) as (x & ->); [|cbn [rbind]; eauto]. intros p. apply Hall. eapply Permutation_in; [apply Permutation_sym; exact Hperm|exact Hi]. }
    cbn [rbind]. eauto.
Qed.

(** The card of the recorded configuration has every model the given configuration names, and no other. *)
Theorem C87_card_models (W : world M) c c' method referenced referenced2 cd : w_arch W <> [] -> validate_config c = Ok tt ->
  (forall nm d, In (nm, d) (opt_list (mc_modules c)) -> validate_module d = Ok tt) -> recorded W c = Ok c' ->
  Permutation referenced (referenced_models c') -> Permutation referenced2 (referenced_models c') ->
  generate_card path lora hf method (mc_base c') referenced referenced2 = Ok cd ->
  exists ms, Forall2 (fun m line => exists t, described m t /\ line = ("* " ++ t)%string) ms (cd_bullets cd) /\ NoDup ms /\
    (forall m, names_model c m <-> In m ms \/ card_base method (mc_base c) m) /\
    (forall m, In m ms -> ~ card_base method (mc_base c) m) /\
    (forall p, In p (cd_bases cd) <-> exists m, names_model c m /\ made_of m p /\ hf p = Ok true).
Proof.
  intros Ha Hv Hvm He Hp1 Hp2 Hc. destruct (C87_valid W c c' Ha Hv Hvm He) as (_ & _ & Hn & Eb & _). destruct (C84_referenced c') as (Hnd & Href).
  rewrite Eb in Hc. destruct (C87_card _ _ _ _ _ Hc) as (H1 & _ & _ & ms & HF & Hms & Hndm). exists ms. split; [exact HF|]. split; [apply Hndm; eapply Permutation_NoDup; [apply Permutation_sym; exact Hp2|exact Hnd]|].
  assert (Hin : forall rf, Permutation rf (referenced_models c') -> forall m, In m rf <-> names_model c m).
  { intros rf Hp m. rewrite <- Hn, <- Href. split; apply Permutation_in; [exact Hp|now apply Permutation_sym]. }
  split; [|split].
  - intros m. rewrite Hms, (Hin _ Hp2). split.
    + intros Hm. assert (D : card_base method (mc_base c) m \/ ~ card_base method (mc_base c) m).
      { unfold card_base. destruct (string_dec method "slerp") as [->|Hs]; [right; intros (F & _); congruence|]. destruct (mc_base c) as [b|]; [|right; intros (_ & F); discriminate].
        destruct (eqb_spec m b) as [->|Hb]; [now left|]. right. intros (_ & F). congruence. }
      destruct D; auto.
    + intros [(Hm & _)|(_ & Hb)]; [exact Hm|]. left. exact Hb.
  - intros m Hm. now apply Hms.
  - intros p. rewrite H1. split; intros (m & Hm & Hq); exists m; (split; [|exact Hq]); now apply (Hin _ Hp1).
Qed.

(** The card of an adapter: the note on the vocabulary appears when both sizes are given and differ. *)
Theorem C87_lora base finetuned bv fv bases details note : generate_card_lora path lora hf base finetuned bv fv = Ok (bases, details, note) ->
  (forall p, In p bases <-> (made_of base p \/ made_of finetuned p) /\ hf p = Ok true) /\
  (exists f b, described finetuned f /\ described base b /\ details = ("This LoRA adapter was extracted from " ++ f ++ " and uses " ++ b ++ " as a base.")%string) /\
  forall verb b f, note = Some (verb, b, f) <->
    (bv = Some b /\ fv = Some f /\ b <> 0%Z /\ f <> 0%Z /\ ((verb = "extended" /\ (b < f)%Z) \/ (verb = "reduced" /\ (f < b)%Z))).
Proof.
  unfold generate_card_lora. destruct (extract_hf_paths _ _ _ _) as [bs|] eqn:Eb; [|discriminate]. cbn [rbind].
  destruct (modelref_md path lora hf finetuned) as [t|] eqn:Ef; [|discriminate]. destruct (modelref_md path lora hf base) as [u|] eqn:Eu; [|discriminate]. cbn [rbind]. intros [= <- <- <-].
  split; [|split].
  - intros p. rewrite (extract_spec _ _ Eb p). split; [intros (m & [<-|[<-|[]]] & Hm & Hp); auto|]. intros ([Hm|Hm] & Hp); [exists base|exists finetuned]; cbn; auto.
  - exists t, u. apply md_iff in Ef, Eu. auto.
  - intros verb b f. unfold vocab_note, given_size. destruct bv as [bz|]; [|split; [discriminate|intros (E & _); discriminate]]. destruct fv as [fz|]; [|split; [destruct (Z.eqb bz 0); discriminate|intros (_ & E & _); discriminate]].
    destruct (Z.eqb_spec bz 0) as [->|Hb]; [split; [discriminate|intros ([= <-] & _ & F & _); congruence]|].
    destruct (Z.eqb_spec fz 0) as [->|Hf]; [split; [discriminate|intros (_ & [= <-] & _ & F & _); congruence]|].
    destruct (Z.eqb_spec bz fz) as [->|Hne]; [split; [discriminate|intros ([= <-] & [= <-] & _ & _ & [(_ & F)|(_ & F)]); lia]|].
    destruct (Z.ltb_spec bz fz) as [Hl|Hl]; (split; [intros [= <- <- <-]; split; [reflexivity|split; [reflexivity|split; [exact Hb|split; [exact Hf|]]]]; first [left; split; [reflexivity|lia]|right; split; [reflexivity|lia]]|]); intros ([= <-] & [= <-] & _ & _ & [(-> & F)|(-> & F)]); (reflexivity || lia).
Qed.
End Card.

(** * Findings *)
(** Without a base model the output configuration is the one of whichever model the set yields first. *)
Definition ex_order_world : world nat :=
  {| w_arch := w_arch ex_world; w_cfg := fun m => CVObj [("num_hidden_layers", CVInt 4); ("rope_theta", CVInt (Z.of_nat m))];
     w_tensors := w_tensors ex_world; w_params := []; w_tparams := w_tparams ex_world; w_tokenizer := false |}.
Theorem C87_order_refuted : exists (W : world nat) c referenced referenced' out out',
  validate_config c = Ok tt /\ Permutation referenced (referenced_models c) /\ Permutation referenced' (referenced_models c) /\
  model_out_config W c referenced = Ok out /\ model_out_config W c referenced' = Ok out' /\ out <> out'.
Proof.
  exists ex_order_world, (ex_models_cfg None), [1; 2]%nat, [2; 1]%nat. do 2 eexists. split; [reflexivity|]. split; [apply Permutation_refl|]. split; [constructor|].
  split; [reflexivity|]. split; [reflexivity|]. discriminate.
Qed.

(** Two modules given by models of their own, and no base model: the output configuration has the numbers of layers of one
    model for both, whatever is saved, and merging with the recorded configuration gives another one. *)
Definition ex_part (key w : string) : module_def :=
  {| md_arch := json_module {| ja_pre := []; ja_layer := [wi (w ++ ".${layer_index}.w")%string false None]; ja_post := []; ja_key := Some key; ja_override := None |}; md_prefix := None |}.
Definition ex_two_world : world nat :=
  {| w_arch := [("text", ex_part "text_layers" "text"); ("vision", ex_part "vision_layers" "vision")];
     w_cfg := fun m => CVObj [("text_layers", CVInt (if Nat.eqb m 1 then 2 else 3)); ("vision_layers", CVInt (if Nat.eqb m 1 then 2 else 3))];
     w_tensors := fun _ => []; w_params := []; w_tparams := []; w_tokenizer := false |}.
Definition ex_two_cfg : merge_config nat :=
  {| mc_modules := Some [("text", {| om_slices := None; om_models := Some [{| im_model := 1%nat; im_params := None |}]; om_params := None |});
                         ("vision", {| om_slices := None; om_models := Some [{| im_model := 2%nat; im_params := None |}]; om_params := None |})];
     mc_slices := None; mc_models := None; mc_base := None; mc_params := None; mc_dtype := None; mc_out_dtype := None |}.
Theorem C87_other_base_refuted : exists (W : world nat) c c' out saves out',
  validate_config c = Ok tt /\ keys_apart (w_arch W) /\ (forall nm md, In (nm, md) (w_arch W) -> counted_by_key md) /\
  recorded W c = Ok c' /\ model_out_config W c (referenced_models c) = Ok out /\ plan_to_disk W c out = Ok saves /\
  map sv_name saves = ["text.0.w"; "text.1.w"; "vision.0.w"; "vision.1.w"; "vision.2.w"] /\
  get_config_value out "vision_layers" = Ok (CVInt 2) /\
  referenced_models c' = referenced_models c /\ model_out_config W c' (referenced_models c') = Ok out' /\ get_config_value out' "vision_layers" = Ok (CVInt 3).
Proof.
  exists ex_two_world, ex_two_cfg. do 4 eexists. split; [reflexivity|]. split.
  { intros nm md nm' md' k Hi Hi' Hne Hk Hk0 k' Hk' Hk0'. destruct Hi as [[= <- <-]|[[= <- <-]|[]]], Hi' as [[= <- <-]|[[= <- <-]|[]]]; try congruence; injection Hk as <-; injection Hk' as <-; reflexivity. }
  split. { intros nm md [[= <- <-]|[[= <- <-]|[]]]; apply json_counted; now left. }
  split; [reflexivity|]. split; [reflexivity|]. split; [vm_compute; reflexivity|]. split; [reflexivity|]. split; [reflexivity|]. split; [reflexivity|]. split; reflexivity.
Qed.

(** A model in a directory given by a relative path, and no hub: no card, so no tokenizer either. *)
Theorem C87_offline_refuted : exists (exists_ : string -> bool) repo,
  (forall p, repo p = Err RuntimeError) /\ exists_ "models/local" = true /\
  generate_card (fun _ : nat => "models/local") (fun _ => None) (is_hf exists_ repo) "linear" None [0%nat] [0%nat] = Err RuntimeError.
Proof. exists (fun _ => true), (fun _ => Err RuntimeError). repeat split. Qed.

(** * Concrete cases *)
Definition ex_recorded_cfg : merge_config nat :=
  {| mc_modules := None; mc_slices := None; mc_models := mc_models (ex_models_cfg None); mc_base := Some 7%nat;
     mc_params := Some [("weight", PNum 1)]; mc_dtype := None; mc_out_dtype := Some "bfloat16" |}.
Example C87_nonvacuous :
  let W := ex_order_world in let c := ex_recorded_cfg in
  exists c' out saves, NoDup (dkeys (w_arch W)) /\ w_arch W <> [] /\ keys_apart (w_arch W) /\ (forall nm md, In (nm, md) (w_arch W) -> counted_by_key md) /\
    validate_config c = Ok tt /\ based c (referenced_models c) 7%nat /\ models_have c 7%nat /\ recorded W c = Ok c' /\ c' <> c /\
    model_out_config W c (referenced_models c) = Ok out /\ plan_to_disk W c out = Ok saves /\ (length saves = 8)%nat.
Proof.
  cbn zeta.
  do 3 eexists. split; [repeat constructor; intros []|]. split; [discriminate|]. split.
  { intros nm md nm' md' k Hi Hi' Hne. destruct Hi as [[= <- <-]|[]], Hi' as [[= <- <-]|[]]. congruence. }
  split. { intros nm md [[= <- <-]|[]]. apply json_counted. now left. }
  split; [reflexivity|]. split; [now left|]. split; [intros nm d []|]. split; [reflexivity|]. split; [discriminate|]. split; [reflexivity|]. split; [vm_compute; reflexivity|]. reflexivity.
Qed.
Example C87_card_nonvacuous :
  generate_card (fun m : nat => if Nat.eqb m 1 then "org/one" else "/local/two") (fun m => if Nat.eqb m 1 then Some "org/adapter" else None)
    (is_hf (fun _ => false) (fun _ => Ok false)) "ties" (Some 2%nat) [1; 2]%nat [2; 1]%nat =
  Ok {| cd_bases := ["org/one"; "org/adapter"]; cd_base_text := " using /local/two as a base";
        cd_bullets := ["* [org/one](https://huggingface.co/org/one) + [org/adapter](https://huggingface.co/org/adapter)"] |} /\
  (exists a, arch_info_for_config table {| hc_names := Some ["T5ForConditionalGeneration"]; hc_type := "t5"; hc_fields := CVObj [] |} = Ok (Some a) /\ (1 < length (modules_of a))%nat).
Proof. split; [reflexivity|]. eexists. split; [vm_compute; reflexivity|]. vm_compute. lia. Qed.

Print Assumptions C87_valid.
Print Assumptions C87_rerun.
Print Assumptions C87_shipped.
Print Assumptions C87_hub.
Print Assumptions C87_hub_fails.
Print Assumptions C87_card.
Print Assumptions C87_card_made.
Print Assumptions C87_card_models.
Print Assumptions C87_lora.
Print Assumptions C87_order_refuted.
Print Assumptions C87_other_base_refuted.
Print Assumptions C87_offline_refuted.
