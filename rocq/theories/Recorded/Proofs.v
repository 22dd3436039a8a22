(** Proofs about the recorded configuration and the card. *)
From Coq Require Import Lia.
From Verif.Base Require Import Py PyFacts.
From Verif.Config Require Import Model.
From Verif.Arch Require Import Model.
From Verif.Plan Require Import Model Spec Proofs NormProofs ModuleProofs.
From Verif.Plan Require Import Props.
From Verif.Run Require Import CacheSpec PropsCache.
From Verif.Recorded Require Import Model Spec.
Local Open Scope string_scope.
Local Open Scope list_scope.

(** * Writing the value that is already there *)
Lemma dset_same {V} (d : dict string V) k v : dget d k = Some v -> dset d k v = d.
Proof.
  induction d as [|[a b] d IH]; cbn; [discriminate|]. destruct (eqb_spec k a) as [->|Hn].
  - now intros [= ->].
  - intros Hd. now rewrite (IH Hd).
Qed.
Lemma set_same v : forall ps c, ps <> [] -> get_path c ps = Ok v -> set_path c ps v = Ok c.
Proof.
  induction ps as [|p ps IH]; intros c Hn Hg; [congruence|]. cbn [get_path] in Hg. destruct c as [| | | |d]; try discriminate. cbn [attr] in Hg.
  destruct (dget d p) as [c1|] eqn:Hd; [|discriminate]. destruct ps as [|q ps].
  - cbn in Hg. injection Hg as ->. cbn [set_path]. now rewrite dset_same.
  - cbn [set_path] in *. rewrite Hd. rewrite (IH c1 ltac:(discriminate) Hg). cbn [rbind]. now rewrite dset_same.
Qed.

Section R.
Context {M : Type} {HM : Eqb M}.
Variable W : world M.

Lemma dget_F2 {A B} (P : string * A -> string * B -> Prop) ms ms' nm :
  Forall2 (fun kv kv' => fst kv' = fst kv /\ P kv kv') ms ms' ->
  match dget ms nm with
  | Some d => exists d', dget ms' nm = Some d' /\ P (nm, d) (nm, d') /\ In (nm, d) ms /\ In (nm, d') ms'
  | None => dget ms' nm = None
  end.
Proof.
  induction 1 as [|[a d] [b d'] ms ms' (E & Hp) _ IH]; [reflexivity|]. cbn in E. subst b. cbn [dget].
  destruct (eqb_spec nm a) as [->|Hn].
  - exists d'. split; [reflexivity|]. split; [exact Hp|]. split; now left.
  - destruct (dget ms nm) as [x|]; [|exact IH]. destruct IH as (x' & E & Hx & H1 & H2). exists x'. split; [exact E|]. split; [exact Hx|]. split; now right.
Qed.

(** the number of layers of a module given by models, once normalised *)
Lemma full_layers c out nm md d d' (base : M) ts :
  dget (w_arch W) nm = Some md -> normalised W (mc_base c) md d d' -> truthy (om_models d) = true ->
  plan_module W c out nm d' = Ok ts ->
  (mc_base c = Some base \/ In base (map im_model (opt_list (om_models d)))) ->
  exists n, om_slices d' <> None /\ truthy (om_slices d') = true /\ rmapM first_len (opt_list (om_slices d')) = Ok [n] /\ ma_num (md_arch md) (w_cfg W base) = Ok n.
Proof.
  intros Hmd Hn Ht Hp Hb. destruct Hn as [(E & _)|(ms & srcs & extra & Em & Hne & -> & HF & Hx)]; [congruence|].
  rewrite Em in Hb. cbn [opt_list] in Hb.
  assert (Hfull : exists s, In s (srcs ++ extra) /\ is_start s = 0%Z /\ ma_num (md_arch md) (w_cfg W base) = Ok (is_end s)).
  { assert (Hin : In base (map im_model ms) -> exists s, In s (srcs ++ extra) /\ is_start s = 0%Z /\ ma_num (md_arch md) (w_cfg W base) = Ok (is_end s)).
    { intros Hi. clear - HF Hi. induction HF as [|im s ims srcs (E1 & _ & E2 & E3) _ IH]; [destruct Hi|].
      destruct Hi as [<-|Hi]; [exists s; split; [now left|]; auto|]. destruct (IH Hi) as (x & Hx & Hy). exists x. split; [now right|exact Hy]. }
    destruct Hb as [Hb|Hb]; [|auto]. rewrite Hb in Hx. destruct Hx as [(Hi & _)|(_ & s & -> & E1 & _ & E2 & E3)]; [auto|].
    exists s. split; [apply in_or_app; right; now left|]. auto. }
  assert (Hfirst : exists s0 rest, srcs ++ extra = s0 :: rest /\ is_start s0 = 0%Z).
  { destruct HF as [|im s ims srcs (_ & _ & E & _) _]; [congruence|]. exists s, (srcs ++ extra). split; [reflexivity|exact E]. }
  destruct Hfirst as (s0 & rest & Es & E0). destruct Hfull as (s & Hs & Es0 & Hs1). exists (is_end s). cbn [om_slices truthy opt_list].
  split; [discriminate|]. split; [reflexivity|]. split; [|exact Hs1]. cbn [rmapM]. unfold first_len. cbn [os_sources]. rewrite Es. cbn [rbind]. unfold slice_len.
  assert (Heq : (is_end s0 - is_start s0 = is_end s - is_start s)%Z).
  { destruct (Z.eq_dec (is_end s0 - is_start s0) (is_end s - is_start s)) as [E|E]; [exact E|exfalso].
    set (sl := {| os_sources := srcs ++ extra; os_base := None; os_params := None |}) in *.
    refine (C11_unequal_sources_rejected W c out nm md {| om_slices := Some [sl]; om_models := None; om_params := om_params d |} sl [] sl s0 s ts Hmd eq_refl (or_introl eq_refl) _ _ E Hp); subst sl; cbn [os_sources]; [rewrite Es; now left|exact Hs]. }
  do 2 f_equal. lia.
Qed.

Lemma plan_parts c0 out ts : plan W c0 out = Ok ts -> exists c, normalize_config W c0 = Ok c /\ forall nm d, In (nm, d) (opt_list (mc_modules c)) -> exists p, plan_module W c out nm d = Ok p.
Proof.
  unfold plan. destruct (normalize_config W c0) as [c|]; [|discriminate]. cbn [rbind]. intros Hp. exists c. split; [reflexivity|].
  destruct (rmapM _ _) as [r|] eqn:E in Hp; [|discriminate]. clear Hp. apply rmapM_Ok_Forall2 in E. intros nm d Hi.
  induction E as [|kv y l r Hy _ IH]; [destruct Hi|]. destruct Hi as [->|Hi]; [|exact (IH Hi)]. cbn beta in Hy. cbn [fst snd] in Hy.
  destruct (plan_module W c out nm d) as [p|]; [eauto|discriminate].
Qed.

(** a module keeps its number of layers, or was given by models and gets the number the base has *)
Lemma layers_kept c c' out ts base nm md : NoDup (dkeys (w_arch W)) -> validate_config c = Ok tt ->
  (forall nm d, In (nm, d) (opt_list (mc_modules c)) -> validate_module d = Ok tt) ->
  (truthy (mc_models c) = true -> mc_base c = Some base \/ In base (map im_model (opt_list (mc_models c)))) -> models_have c base ->
  normalize_config W c = Ok c' -> plan W c out = Ok ts -> In (nm, md) (w_arch W) ->
  module_layers c' nm = module_layers c nm \/
  (module_layers c nm = Ok None /\ exists n, module_layers c' nm = Ok (Some n) /\ ma_num (md_arch md) (w_cfg W base) = Ok n).
Proof.
  intros Hnd Hv Hvm Hb1 Hb2 He Hp Hi. destruct (C14_normal_form W c c' Hvm He) as (ms & ms' & Hms & Em & HF & Hfm & Hfs & Eb & _).
  destruct (plan_parts _ _ _ Hp) as (c1 & He1 & Hpm). assert (c1 = c') by congruence. subst c1. rewrite Em in Hpm. cbn [opt_list] in Hpm.
  pose proof (dget_In_NoDup (w_arch W) nm md Hnd Hi) as Hmd.
  pose proof (dget_F2 _ ms ms' nm HF) as Hd.
  assert (Hmod : forall d, dget ms nm = Some d -> truthy (om_models d) = true -> (mc_base c = Some base \/ In base (map im_model (opt_list (om_models d)))) ->
            exists n, module_layers c' nm = Ok (Some n) /\ ma_num (md_arch md) (w_cfg W base) = Ok n).
  { intros d Ed Ht Hbase. rewrite Ed in Hd. destruct Hd as (d' & Ed' & (_ & _ & md' & Emd & Hn) & _ & Hi'). cbn [fst snd] in *.
    assert (md' = md) by congruence. subst md'. destruct (Hpm nm d' Hi') as (p & Hp1). rewrite <- Eb in Hbase, Hn.
    destruct (full_layers c' out nm md d d' base p Hmd Hn Ht Hp1 Hbase) as (n & _ & Ht' & Hl & Hnum). exists n. split; [|exact Hnum].
    unfold module_layers. rewrite Em. cbn [opt_list]. destruct ms' as [|kv ms']; [destruct Hi'|]. cbn [truthy]. rewrite Ed', Ht', Hl. cbn [rbind]. do 2 f_equal. unfold zsum. cbn. lia. }
  assert (Hkeep : forall d, dget ms nm = Some d -> truthy (om_models d) = false -> module_layers c' nm = (if truthy (om_slices d) then let! ls := rmapM first_len (opt_list (om_slices d)) in Ok (Some (zsum ls)) else Ok None)).
  { intros d Ed Ht. rewrite Ed in Hd. destruct Hd as (d' & Ed' & (_ & _ & md' & _ & Hn) & _ & Hi'). cbn [fst snd] in *.
    destruct Hn as [(_ & ->)|(ims & srcs & extra & Ems & Hne & _)]; [|rewrite Ems in Ht; destruct ims; [congruence|discriminate]].
    unfold module_layers. rewrite Em. cbn [opt_list]. destruct ms' as [|kv ms']; [destruct Hi'|]. cbn [truthy]. now rewrite Ed'. }
  unfold validate_config in Hv. destruct (truthy (mc_slices c)) eqn:Ts.
  - destruct Hms as (nm0 & md0 & Ea & Ems). rewrite Ea in Hi. destruct Hi as [[= -> ->]|[]].
    left. rewrite (Hkeep {| om_slices := mc_slices c; om_models := None; om_params := None |}); [|rewrite Ems; cbn; now rewrite eqb_refl|reflexivity].
    cbn [om_slices]. rewrite Ts. unfold module_layers. destruct (truthy (mc_modules c)); [destruct (truthy (mc_models c)); discriminate|]. now rewrite Ts.
  - destruct (truthy (mc_models c)) eqn:Tm.
    + right. split. { unfold module_layers. destruct (truthy (mc_modules c)); [discriminate|]. now rewrite Ts. }
      apply (Hmod {| om_slices := None; om_models := mc_models c; om_params := None |}); [|exact Tm|exact (Hb1 eq_refl)].
      rewrite Hms. assert (Hk : In nm (dkeys (w_arch W))) by (apply in_map_iff; exists (nm, md); auto). clear - Hk.
      induction (dkeys (w_arch W)) as [|k ks IH]; [destruct Hk|]. cbn. destruct (eqb_spec nm k) as [->|Hn]; [reflexivity|]. destruct Hk as [->|Hk]; [congruence|auto].
    + destruct (truthy (mc_modules c)) eqn:Tmod; [|discriminate]. rewrite Hms in Tmod.
      destruct (dget ms nm) as [d|] eqn:Ed.
      * assert (Hin : In (nm, d) (opt_list (mc_modules c))) by (rewrite Hms; now apply dget_In).
        destruct (truthy (om_models d)) eqn:Td.
        -- right. split; [|apply (Hmod d eq_refl Td); exact (Hb2 nm d Hin Td)].
           unfold module_layers. rewrite Hms, Tmod. cbn [opt_list]. rewrite Ed. specialize (Hvm nm d Hin). unfold validate_module in Hvm. rewrite Td in Hvm.
           destruct (truthy (om_slices d)); [discriminate|reflexivity].
        -- left. rewrite (Hkeep d eq_refl Td). unfold module_layers. rewrite Hms, Tmod. cbn [opt_list]. now rewrite Ed.
      * left. unfold module_layers. rewrite Hms, Em, Tmod. cbn [opt_list]. rewrite Ed, Hd, Ts, Hfs. now destruct (truthy (Some ms')).
Qed.

Definition put (cfg : cfgval) (dn : module_def * option Z) : cfgval :=
  match snd dn with Some n => set_layers cfg (ma_key (md_arch (fst dn))) n | None => cfg end.
Lemma fold_same (f f' : string -> result (option Z)) base : forall l cs cs' cfg,
  NoDup (dkeys l) -> keys_apart l -> (forall nm md, In (nm, md) l -> counted_by_key md) ->
  (forall nm md, In (nm, md) l -> f' nm = f nm \/ (f nm = Ok None /\ exists n, f' nm = Ok (Some n) /\ ma_num (md_arch md) (w_cfg W base) = Ok n)) ->
  (forall nm md k, In (nm, md) l -> ma_key (md_arch md) = Some k -> k <> "" -> get_config_value cfg k = get_config_value (w_cfg W base) k) ->
  rmapM (fun kv => let! n := f (fst kv) in Ok (snd kv, n)) l = Ok cs ->
  rmapM (fun kv => let! n := f' (fst kv) in Ok (snd kv, n)) l = Ok cs' ->
  fold_left put cs' cfg = fold_left put cs cfg.
Proof.
  induction l as [|[nm md] l IH]; intros cs cs' cfg Hnd Hap Hct Hf Hg E E'; [injection E as <-; injection E' as <-; reflexivity|].
  cbn [rmapM fst snd] in E, E'. destruct (f nm) as [r|] eqn:Er; [|discriminate]. destruct (f' nm) as [r'|] eqn:Er'; [|discriminate]. cbn [rbind] in E, E'.
  destruct (rmapM _ l) as [cs1|] eqn:E1 in E; [|discriminate]. destruct (rmapM _ l) as [cs1'|] eqn:E1' in E'; [|discriminate]. cbn [rbind] in E, E'. injection E as <-. injection E' as <-.
  cbn [fold_left]. rewrite dkeys_cons in Hnd. inversion Hnd as [|? ? Hnin Hnd']; subst.
  assert (Hput : put cfg (md, r') = put cfg (md, r)).
  { destruct (Hf nm md (or_introl eq_refl)) as [Heq|(H0 & n & Hn & Hnum)]; [congruence|]. rewrite Er in H0. rewrite Er' in Hn. injection H0 as ->. injection Hn as ->.
    unfold put. cbn [fst snd]. unfold set_layers. destruct (ma_key (md_arch md)) as [k|] eqn:Ek; [|reflexivity]. destruct (String.eqb_spec k "") as [|Hne]; [reflexivity|].
    pose proof (Hct nm md (or_introl eq_refl) k _ n Ek Hne Hnum) as Hk. rewrite <- (Hg nm md k (or_introl eq_refl) Ek Hne) in Hk.
    unfold set_config_value. rewrite (set_same (CVInt n)); [reflexivity|apply split_on_nonempty|exact Hk]. }
  rewrite Hput. apply IH; try assumption.
  - intros a b a' b' k Ha Ha'. apply Hap; now right.
  - intros a b Ha. apply (Hct a b). now right.
  - intros a b Ha. apply (Hf a b). now right.
  - intros a b k Ha Ek Hne. rewrite <- (Hg a b k (or_intror Ha) Ek Hne). unfold put. cbn [fst snd]. destruct r as [n|]; [|reflexivity].
    apply set_layers_apart. apply (Hap a b nm md k); [now right|now left| |exact Ek|exact Hne]. intros ->. apply Hnin. apply in_map_iff. exists (nm, b). auto.
Qed.

Lemma layers_ok c c' out ts base : NoDup (dkeys (w_arch W)) -> validate_config c = Ok tt ->
  (forall nm d, In (nm, d) (opt_list (mc_modules c)) -> validate_module d = Ok tt) ->
  (truthy (mc_models c) = true -> mc_base c = Some base \/ In base (map im_model (opt_list (mc_models c)))) -> models_have c base ->
  normalize_config W c = Ok c' -> plan W c out = Ok ts ->
  forall l cs, incl l (w_arch W) -> rmapM (fun kv => let! n := module_layers c (fst kv) in Ok (snd kv, n)) l = Ok cs ->
  exists cs', rmapM (fun kv => let! n := module_layers c' (fst kv) in Ok (snd kv, n)) l = Ok cs'.
Proof.
  intros Hnd Hv Hvm Hb1 Hb2 He Hp. induction l as [|[nm md] l IH]; intros cs Hl E; [eexists; reflexivity|]. cbn [rmapM fst snd] in *.
  destruct (module_layers c nm) as [r|] eqn:Er; [|discriminate]. cbn [rbind] in E. destruct (rmapM _ l) as [cs1|] eqn:E1 in E; [|discriminate].
  destruct (IH cs1 (fun x Hx => Hl x (or_intror Hx)) E1) as (cs' & Ecs'). rewrite Ecs'.
  destruct (layers_kept c c' out ts base nm md Hnd Hv Hvm Hb1 Hb2 He Hp (Hl _ (or_introl eq_refl))) as [->|(_ & n & -> & _)]; [rewrite Er|]; cbn [rbind]; eauto.
Qed.

Lemma rerun c c' referenced referenced' base out ts : NoDup (dkeys (w_arch W)) -> validate_config c = Ok tt ->
  (forall nm d, In (nm, d) (opt_list (mc_modules c)) -> validate_module d = Ok tt) ->
  keys_apart (w_arch W) -> (forall nm md, In (nm, md) (w_arch W) -> counted_by_key md) ->
  based c referenced base -> based c referenced' base ->
  (truthy (mc_models c) = true -> mc_base c = Some base \/ In base (map im_model (opt_list (mc_models c)))) -> models_have c base ->
  normalize_config W c = Ok c' -> model_out_config W c referenced = Ok out -> plan W c out = Ok ts ->
  model_out_config W c' referenced' = Ok out.
Proof.
  intros Hnd Hv Hvm Hap Hct Hba Hba' Hb1 Hb2 He Ho Hp.
  assert (Eb : mc_base c' = mc_base c) by (destruct (C14_normal_form W c c' Hvm He) as (? & ? & ? & ? & ? & ? & ? & E & _); exact E).
  assert (Hbase : forall rf, based c rf base -> (match mc_base c with Some b => Ok b | None => match rf with m :: _ => Ok m | [] => Err IndexError end end) = Ok base).
  { intros rf [->|(-> & Hh)]; [reflexivity|]. destruct rf; [discriminate|]. now injection Hh as ->. }
  unfold model_out_config in *. rewrite Eb. rewrite (Hbase _ Hba'). rewrite (Hbase _ Hba) in Ho. cbn [rbind] in *.
  destruct (rmapM _ (w_arch W)) as [cs|] eqn:Ec in Ho; [|discriminate]. cbn [rbind] in Ho. injection Ho as Ho.
  destruct (layers_ok c c' out ts base Hnd Hv Hvm Hb1 Hb2 He Hp (w_arch W) cs (incl_refl _) Ec) as (cs' & Ec'). rewrite Ec'. cbn [rbind]. f_equal. rewrite <- Ho.
  change (fold_left put cs' (w_cfg W base) = fold_left put cs (w_cfg W base)).
  eapply (fold_same (module_layers c) (module_layers c') base (w_arch W)); eauto.
  intros nm md Hi. eapply layers_kept; eauto.
Qed.
End R.
