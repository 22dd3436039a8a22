From Coq Require Import Lia QArith Lqa.
From Verif.Base Require Import Py PyFacts.
From Verif.Config Require Import Model.
From Verif.Arch Require Import Model.
From Verif.Plan Require Import Model Spec Proofs.
Local Open Scope list_scope.

Section N.
Context {M : Type} `{Eqb M}.
Variable W : world M.

Lemma norm_module_idem base a m m' : norm_module W base a m = Ok m' -> norm_module W base a m' = Ok m'.
Proof.
  unfold norm_module at 1. destruct (om_models m) as [[|m0 ms]|] eqn:Hm.
  - intros He; injection He as <-. unfold norm_module. rewrite Hm. reflexivity.
  - intros He. ibind He srcs Hs. ibind He extra Hx. injection He as <-. reflexivity.
  - intros He; injection He as <-. unfold norm_module. rewrite Hm. reflexivity.
Qed.

Lemma norm_module_models base a m m' : norm_module W base a m = Ok m' -> truthy (om_models m') = false.
Proof.
  unfold norm_module. destruct (om_models m) as [[|m0 ms]|] eqn:Hm.
  - intros He; injection He as <-. rewrite Hm. reflexivity.
  - intros He. ibind He srcs Hs. ibind He extra Hx. injection He as <-. reflexivity.
  - intros He; injection He as <-. rewrite Hm. reflexivity.
Qed.

(** the sources generated for a list of models *)
Definition full_depth (a : module_arch) (m : M) (p : params) (s : input_slice M) : Prop :=
  is_model s = m /\ is_params s = p /\ is_start s = 0%Z /\ ma_num a (w_cfg W m) = Ok (is_end s).

Lemma norm_module_sources base a m m' ms : norm_module W base a m = Ok m' -> om_models m = Some ms -> ms <> [] ->
  exists srcs extra,
    m' = {| om_slices := Some [{| os_sources := srcs ++ extra; os_base := None; os_params := None |}];
            om_models := None; om_params := om_params m |} /\
    Forall2 (fun im s => full_depth a (im_model im) (im_params im) s) ms srcs /\
    match base with
    | Some b => (In b (map im_model ms) /\ extra = []) \/
                (~ In b (map im_model ms) /\ exists s, extra = [s] /\ full_depth a b None s)
    | None => extra = []
    end.
Proof.
  intros He Hm Hne. unfold norm_module in He. rewrite Hm in He. destruct ms as [|m0 ms]; [congruence|].
  ibind He srcs Hs. ibind He extra Hx. injection He as <-. exists srcs, extra. split; [reflexivity|]. split.
  - apply rmapM_Ok_Forall2 in Hs. eapply Forall2_impl; [|exact Hs]. intros im s Hf. cbn beta in Hf.
    ibind Hf n Hn. injection Hf as <-. repeat split. exact Hn.
  - destruct base as [b|]; [|injection Hx as <-; reflexivity].
    destruct (existsb (fun im => eqb (im_model im) b) (m0 :: ms)) eqn:Hex.
    + left. injection Hx as <-. split; [|reflexivity]. apply existsb_exists in Hex. destruct Hex as (im & Hin & Heq).
      destruct (eqb_spec (im_model im) b) as [<-|]; [|discriminate]. apply in_map. exact Hin.
    + right. split.
      * intros Hin. apply in_map_iff in Hin. destruct Hin as (im & <- & Hin).
        assert (Hc : existsb (fun im0 => eqb (im_model im0) (im_model im)) (m0 :: ms) = true).
        { apply existsb_exists. exists im. split; [exact Hin|apply eqb_refl]. }
        congruence.
      * ibind Hx n Hn. injection Hx as <-. eexists. split; [reflexivity|]. repeat split. exact Hn.
Qed.

Lemma rmapM_map_fst {A K V} (f : A -> result (K * V)) (g : A -> K) l r :
  rmapM f l = Ok r -> (forall a kv, f a = Ok kv -> fst kv = g a) -> map fst r = map g l.
Proof.
  intros Hr Hf. apply rmapM_Ok_Forall2 in Hr. induction Hr as [|a kv l r Ha _ IH]; [reflexivity|].
  simpl. rewrite IH, (Hf _ _ Ha). reflexivity.
Qed.

Lemma rmapM_idem {A B} (f : A -> result B) (g : B -> result B) l r :
  rmapM f l = Ok r -> (forall a b, f a = Ok b -> g b = Ok b) -> rmapM g r = Ok r.
Proof.
  intros Hr Hf. apply rmapM_Ok_Forall2 in Hr. induction Hr as [|a b l r Ha _ IH]; [reflexivity|].
  change (rmapM g (b :: r)) with (let! y := g b in let! ys := rmapM g r in Ok (y :: ys)).
  rewrite (Hf _ _ Ha), IH. reflexivity.
Qed.

Lemma normalize_inv c c' : normalize_config W c = Ok c' ->
  exists ms ms',
    (if truthy (mc_slices c) then exists nm md, w_arch W = [(nm, md)] /\
        ms = [(nm, {| om_slices := mc_slices c; om_models := None; om_params := None |})]
     else if truthy (mc_models c) then
        ms = map (fun nm => (nm, {| om_slices := None; om_models := mc_models c; om_params := None |})) (dkeys (w_arch W))
     else mc_modules c = Some ms) /\
    rmapM (fun kv => let! md := dgetE (w_arch W) (fst kv) in
                     let! m := norm_module W (mc_base c) (md_arch md) (snd kv) in Ok (fst kv, m)) ms = Ok ms' /\
    c' = set_modules c (Some ms') (if truthy (mc_slices c) then None else mc_slices c)
                       (if truthy (mc_models c) then None else mc_models c).
Proof.
  unfold normalize_config. intros He. ibind He c2 Hc2.
  set (c1 := if truthy (mc_models c) then _ else c) in *.
  assert (Hs1 : mc_slices c1 = mc_slices c) by (unfold c1; destruct (truthy (mc_models c)); reflexivity).
  assert (Hm1 : mc_models c1 = if truthy (mc_models c) then None else mc_models c)
    by (unfold c1; destruct (truthy (mc_models c)); reflexivity).
  rewrite Hs1 in Hc2.
  assert (Hfix : forall a b d, set_modules c1 a b d = set_modules c a b d).
  { intros. unfold c1, set_modules. destruct (truthy (mc_models c)); reflexivity. }
  destruct (truthy (mc_slices c)) eqn:Hts.
  - destruct (dkeys (w_arch W)) as [|nm [|]] eqn:Hk; try discriminate. injection Hc2 as <-.
    rewrite Hfix in He. cbn [mc_modules mc_slices mc_models set_modules] in He. ibind He ms' Hms. injection He as <-.
    eexists; exists ms'. split; [|split; [exact Hms|]].
    + destruct (w_arch W) as [|[nm' md] [|x l]]; try discriminate. exists nm', md. split; [reflexivity|].
      rewrite dkeys_cons in Hk. injection Hk as ->. reflexivity.
    + rewrite Hm1. reflexivity.
  - injection Hc2 as <-. rewrite Hs1, Hm1 in He.
    unfold c1 in He at 1. destruct (truthy (mc_models c)) eqn:Htm.
    + cbn [mc_modules set_modules] in He. ibind He ms' Hms. rewrite Hfix in He. injection He as <-.
      eexists; exists ms'. split; [reflexivity|]. split; [exact Hms|]. reflexivity.
    + destruct (mc_modules c) as [ms|] eqn:Hmc; [|discriminate].
      ibind He ms' Hms. rewrite Hfix in He. injection He as <-.
      exists ms, ms'. split; [reflexivity|]. split; [exact Hms|reflexivity].
Qed.

Lemma normalize_models c c' : normalize_config W c = Ok c' ->
  truthy (mc_models c') = false /\ truthy (mc_slices c') = false /\
  (forall nm d, In (nm, d) (opt_list (mc_modules c')) -> truthy (om_models d) = false).
Proof.
  intros He. destruct (normalize_inv c c' He) as (ms & ms' & _ & Hms & ->).
  cbn [mc_models mc_slices mc_modules set_modules opt_list].
  split; [destruct (truthy (mc_models c)) eqn:Ht; [reflexivity|exact Ht]|].
  split; [destruct (truthy (mc_slices c)) eqn:Ht; [reflexivity|exact Ht]|].
  clear He. intros nm d Hin. apply rmapM_Ok_Forall2 in Hms. induction Hms as [|x y l l' Hxy _ IH]; [destruct Hin|].
  destruct Hin as [->|Hin]; [|exact (IH Hin)].
  cbn beta in Hxy. ibind Hxy md Hmd. ibind Hxy m Hm. injection Hxy as _ <-. exact (norm_module_models _ _ _ _ Hm).
Qed.

Lemma normalize_idem c c' : normalize_config W c = Ok c' -> normalize_config W c' = Ok c'.
Proof.
  intros He. pose proof (normalize_models c c' He) as (Hm & Hs & _).
  destruct (normalize_inv c c' He) as (ms & ms' & _ & Hms & Hc').
  unfold normalize_config. rewrite Hm. cbn zeta. rewrite Hs. cbn [rbind].
  assert (Hmod : mc_modules c' = Some ms') by (rewrite Hc'; reflexivity).
  assert (Hb : mc_base c' = mc_base c) by (rewrite Hc'; reflexivity).
  rewrite Hmod, Hb.
  rewrite (rmapM_idem _ (fun kv => let! md := dgetE (w_arch W) (fst kv) in
                     let! m := norm_module W (mc_base c) (md_arch md) (snd kv) in Ok (fst kv, m)) _ _ Hms).
  - cbn [rbind]. rewrite Hc'. reflexivity.
  - intros a b Hab. ibind Hab md Hmd. ibind Hab m Hmm. injection Hab as <-. cbn [fst snd].
    rewrite Hmd. cbn [rbind]. rewrite (norm_module_idem _ _ _ _ Hmm). reflexivity.
Qed.
End N.

(** * Nested configuration values *)
Lemma split_on_nonempty sep s : split_on sep s <> [].
Proof. destruct s as [|c s]; simpl; [discriminate|]. destruct (Ascii.eqb c sep); [discriminate|]. destruct (split_on sep s); discriminate. Qed.

Lemma get_set_path v : forall ps c c', set_path c ps v = Ok c' -> get_path c' ps = Ok v.
Proof.
  induction ps as [|p ps IH]; intros c c' Hs; [discriminate|].
  destruct ps as [|q ps].
  - simpl in Hs. destruct c; try discriminate. injection Hs as <-. simpl. rewrite dget_dset_eq. reflexivity.
  - cbn [set_path] in Hs. destruct c as [| | | |d]; try discriminate.
    destruct (dget d p) as [c1|] eqn:Hd; [|discriminate]. ibind Hs c2 Hc2. injection Hs as <-.
    cbn [get_path attr]. rewrite dget_dset_eq. exact (IH _ _ Hc2).
Qed.

(** paths that branch off *)
Fixpoint disjoint (ps qs : list string) : bool :=
  match ps, qs with
  | p :: ps, q :: qs => if eqb p q then disjoint ps qs else true
  | _, _ => false
  end.

Lemma get_set_other v : forall ps qs c c', disjoint ps qs = true -> set_path c ps v = Ok c' -> get_path c' qs = get_path c qs.
Proof.
  induction ps as [|p ps IH]; intros qs c c' Hd Hs; [discriminate|].
  destruct qs as [|q qs]; [discriminate|]. cbn [disjoint] in Hd.
  destruct ps as [|p' ps].
  - simpl in Hs. destruct c; try discriminate. injection Hs as <-. cbn [get_path attr].
    destruct (eqb_spec p q) as [->|Hne]; [discriminate|]. rewrite dget_dset_neq by congruence. reflexivity.
  - cbn [set_path] in Hs. destruct c as [| | | |d]; try discriminate.
    destruct (dget d p) as [c1|] eqn:Hdp; [|discriminate]. ibind Hs c2 Hc2. injection Hs as <-.
    cbn [get_path attr]. destruct (eqb_spec p q) as [->|Hne].
    + rewrite dget_dset_eq, Hdp. exact (IH _ _ _ Hd Hc2).
    + rewrite dget_dset_neq by congruence. reflexivity.
Qed.

(** a readable key whose holder is an object can be set *)
Lemma set_path_ok v : forall ps c x, ps <> [] -> get_path c ps = Ok x -> exists c', set_path c ps v = Ok c'.
Proof.
  induction ps as [|p ps IH]; intros c x Hne Hg; [congruence|].
  cbn [get_path] in Hg. destruct c as [| | | |d]; try discriminate. cbn [attr] in Hg.
  destruct (dget d p) as [c1|] eqn:Hd; [|discriminate].
  destruct ps as [|q ps]; [eexists; reflexivity|].
  destruct (IH c1 x ltac:(discriminate) Hg) as [c2 Hc2]. cbn [set_path]. rewrite Hd.
  cbn [set_path] in Hc2. rewrite Hc2. eexists; reflexivity.
Qed.
