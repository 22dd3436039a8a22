From Coq Require Import Lia QArith Lqa.
From Verif.Base Require Import Py PyFacts.
From Verif.Config Require Import Model Proofs.
From Verif.Arch Require Import Model.
From Verif.Plan Require Import Model Spec.
Local Open Scope list_scope.

Lemma rbind_Ok {A B} (r : result A) (f : A -> result B) b :
  rbind r f = Ok b -> exists a, r = Ok a /\ f a = Ok b.
Proof. destruct r as [a|e]; simpl; [eauto|discriminate]. Qed.

Ltac ibind Hyp x Hx := apply rbind_Ok in Hyp; destruct Hyp as (x & Hx & Hyp).

(** * Dictionaries built from pairs *)
Lemma dict_of_dget_in {K V} `{Eqb K} (l : list (K * V)) k :
  In k (dkeys (dict_of l)) <-> In k (map fst l).
Proof.
  unfold dict_of.
  assert (Hgen : forall l (d : dict K V), In k (dkeys (fold_left (fun d kv => dset d (fst kv) (snd kv)) l d)) <->
                   In k (dkeys d) \/ In k (map fst l)).
  { clear. induction l as [|[a b] l IH]; intros d; simpl; [tauto|].
    rewrite IH, dkeys_dset_In. simpl. intuition. }
  rewrite Hgen. split; [intros [[]|Hk]; exact Hk|right; assumption].
Qed.

Lemma fold_dset_other {K V} `{Eqb K} (l : list (K * V)) : forall d k, ~ In k (map fst l) ->
  dget (fold_left (fun d kv => dset d (fst kv) (snd kv)) l d) k = dget d k.
Proof.
  induction l as [|[a b] l IH]; intros d k Hk; simpl; [reflexivity|].
  rewrite IH by (intros Hc; apply Hk; right; exact Hc).
  apply dget_dset_neq. intros ->. apply Hk. left; reflexivity.
Qed.

Lemma dict_of_dget {K V} `{Eqb K} (l : list (K * V)) :
  NoDup (map fst l) -> forall k v, dget (dict_of l) k = Some v <-> In (k, v) l.
Proof.
  unfold dict_of.
  assert (Hgen : forall l (d : dict K V), NoDup (map fst l) -> (forall k, In k (map fst l) -> dget d k = None) ->
            forall k v, dget (fold_left (fun d kv => dset d (fst kv) (snd kv)) l d) k = Some v <->
                        In (k, v) l \/ dget d k = Some v).
  { clear. induction l as [|[a b] l IH]; intros d Hnd Hdisj k v; simpl; [tauto|].
    simpl in Hnd. inversion Hnd as [|? ? Ha Hnd']; subst.
    rewrite IH; [|assumption|].
    - rewrite dget_dset. destruct (eqb_spec k a) as [->|Hne].
      + assert (Hd : dget d a = None) by (apply Hdisj; left; reflexivity). rewrite Hd.
        split; [intros [Hin|He]; [left; right; exact Hin|injection He as ->; left; left; reflexivity]|].
        intros [[He|Hin]|He]; [injection He as ->; right; reflexivity|left; exact Hin|discriminate].
      + split; [intros [Hin|He]; [left; right; exact Hin|right; exact He]|].
        intros [[He|Hin]|He]; [congruence|left; exact Hin|right; exact He].
    - intros k' Hk'. rewrite dget_dset_neq; [apply Hdisj; right; exact Hk'|]. intros ->. contradiction. }
  intros Hnd k v. rewrite (Hgen l [] Hnd (fun _ _ => eq_refl)). simpl. intuition discriminate.
Qed.

(** * enumerations *)

Lemma enum_from_nth {A} (l : list A) : forall s i x, nth_error (combine (seq s (length l)) l) i = Some x ->
  fst x = (s + i)%nat /\ nth_error l i = Some (snd x).
Proof.
  induction l as [|a l IH]; intros s i x Hx; [destruct i; discriminate|].
  destruct i as [|i]; simpl in Hx; [injection Hx as <-; simpl; split; [lia|reflexivity]|].
  destruct (IH _ _ _ Hx) as [H1 H2]. split; [lia|exact H2].
Qed.

Lemma enum_nth {A} (l : list A) i x : nth_error (enum l) i = Some x -> fst x = i /\ nth_error l i = Some (snd x).
Proof. apply (enum_from_nth l 0 i x). Qed.

Lemma enum_length {A} (l : list A) : length (enum l) = length l.
Proof. unfold enum. rewrite combine_length, seq_length. lia. Qed.

Lemma rmapM_nth {A B} (f : A -> result B) l r i a : rmapM f l = Ok r -> nth_error l i = Some a ->
  exists b, nth_error r i = Some b /\ f a = Ok b.
Proof.
  intros Hr. apply rmapM_Ok_Forall2 in Hr. revert i. induction Hr as [|x y l r Hxy _ IH]; intros i Hi.
  - destruct i; discriminate.
  - destruct i as [|i]; [injection Hi as ->; exists y; auto|exact (IH i Hi)].
Qed.

Lemma rmapM_length {A B} (f : A -> result B) l r : rmapM f l = Ok r -> length r = length l.
Proof. intros Hr. apply rmapM_Ok_Forall2 in Hr. induction Hr; simpl; congruence. Qed.

Lemma dict_of_nodup {X Y} `{Eqb X} (l : list (X * Y)) : NoDup (dkeys l) -> dict_of l = l.
Proof.
  unfold dict_of. rewrite <- (rev_involutive l). induction (rev l) as [|a r IH]; cbn; intros HN; auto.
  unfold dkeys in *. rewrite map_app in HN. rewrite fold_left_app, IH by now apply NoDup_app_remove_r in HN.
  cbn. rewrite dset_fresh; [now destruct a|]. cbn in HN. apply NoDup_remove_2 in HN. rewrite app_nil_r in HN. exact HN.
Qed.

Section P.
Context {M : Type} `{Eqb M}.
Variable W : world M.

Lemma any_present_ok l b : any_present W l = Ok b ->
  (b = true -> exists m wi, In (m, wi) l /\ In (wi_name wi) (w_tensors W m)) /\
  (b = false -> forall m wi, In (m, wi) l -> ~ In (wi_name wi) (w_tensors W m)).
Proof.
  induction l as [|[m w] l IH]; simpl; intros Hb.
  - injection Hb as <-. split; [discriminate|intros _ m wi []].
  - assert (Hb' : (if mem (wi_name w) (w_tensors W m) then Ok true else any_present W l) = Ok b).
    { destruct (wi_aliases w) as [[|]|]; [assumption|discriminate|assumption]. }
    clear Hb. destruct (mem_spec (wi_name w) (w_tensors W m)) as [Hin|Hn].
    + injection Hb' as <-. split; [intros _; exists m, w; auto|discriminate].
    + destruct (IH Hb') as [IH1 IH2]. split.
      * intros Hbt. destruct (IH1 Hbt) as (m' & wi & Hi & Ht). exists m', wi; auto.
      * intros Hbf m' wi [He|Hi]; [injection He as <- <-; exact Hn|exact (IH2 Hbf m' wi Hi)].
Qed.

Lemma read_params_ok r m fo ps d : read_params r m fo ps = Ok d -> NoDup (map pd_name ps) ->
  forall p, In p ps -> exists v, dget d (pd_name p) = Some v /\
    parameter r (pd_name p) m (pd_default p) (pd_required p && negb fo) = Ok v.
Proof.
  intros Hr Hnd p Hp. unfold read_params in Hr. ibind Hr kvs Hk. injection Hr as <-.
  assert (Hfst : map fst kvs = map pd_name ps).
  { apply rmapM_Ok_Forall2 in Hk. clear - Hk. induction Hk as [|x y l l' Hxy _ IH]; [reflexivity|].
    simpl. rewrite IH. f_equal. ibind Hxy v Hv. injection Hxy as <-. reflexivity. }
  destruct (In_nth_error _ _ Hp) as [i Hi]. destruct (rmapM_nth _ _ _ _ _ Hk Hi) as (kv & Hkv & Hf).
  ibind Hf v Hv. injection Hf as <-. exists v. split; [|exact Hv].
  apply dict_of_dget; [rewrite Hfst; exact Hnd|]. apply (nth_error_In _ _ Hkv).
Qed.

Lemma plan_tensor_ok w win models r o : plan_tensor W w win models r = Ok o ->
  tensor_ok W r w (combine models win) (appended w o).
Proof.
  unfold plan_tensor. intros Hp. ibind Hp b Hb.
  set (ins := combine models win) in *.
  assert (Hpres : (b = true -> wi_optional w = true -> exists m wi, In (m, wi) ins /\ In (wi_name wi) (w_tensors W m)) /\
                  (b = false -> wi_optional w = true /\ forall m wi, In (m, wi) ins -> ~ In (wi_name wi) (w_tensors W m))).
  { destruct (wi_optional w).
    - destruct (any_present_ok _ _ Hb) as [H1 H2]. split; [intros Hbt _; exact (H1 Hbt)|intros Hbf; split; [reflexivity|exact (H2 Hbf)]].
    - injection Hb as <-. split; discriminate. }
  destruct b; simpl in Hp.
  - right. ibind Hp gp Hgp. ibind Hp tp Htp. injection Hp as <-.
    eexists. split; [reflexivity|]. split; [|apply Hpres; reflexivity].
    assert (Hfst : map fst tp = map fst ins).
    { apply rmapM_Ok_Forall2 in Htp. clear - Htp. induction Htp as [|x y l l' Hxy _ IH]; [reflexivity|].
      simpl. rewrite IH. f_equal. destruct x as [m wi]. ibind Hxy v Hv. injection Hxy as <-. reflexivity. }
    unfold merges; cbn [mt_weight mt_gather mt_permuted mt_dtype mt_base mt_params mt_tparams].
    split; [reflexivity|]. split; [intros m; apply dict_of_dget_in|].
    split; [intros Hnd; now apply dict_of_nodup|].
    split; [reflexivity|]. split; [reflexivity|]. split; [reflexivity|]. split.
    + intros Hnd p Hp. destruct (read_params_ok _ _ _ _ _ Hgp Hnd p Hp) as (v & Hv & Hpar).
      rewrite andb_true_r in Hpar. eauto.
    + intros Hnd Hndp m wi p Hin Hp.
      destruct (In_nth_error _ _ Hin) as [i Hi]. destruct (rmapM_nth _ _ _ _ _ Htp Hi) as (md & Hmd & Hf).
      cbn beta iota in Hf. ibind Hf d Hd. injection Hf as <-.
      destruct (read_params_ok _ _ _ _ _ Hd Hndp p Hp) as (v & Hv & Hpar).
      exists d, v. split; [apply dict_of_dget; [rewrite Hfst; exact Hnd|exact (nth_error_In _ _ Hmd)]|].
      split; [exact Hv|]. rewrite <- Hpar. f_equal. f_equal. destruct (reader_base r); [reflexivity|reflexivity].
  - left. injection Hp as <-. destruct Hpres as [_ Hf]. destruct (Hf eq_refl) as [H1 H2].
    split; [reflexivity|]. split; assumption.
Qed.

Lemma combine_map_fst_len {A B C} (f : A -> B) (l : list A) (l' : list C) : length l = length l' ->
  Forall2 (fun a bc => fst bc = f a) l (combine (map f l) l').
Proof.
  revert l'. induction l as [|a l IH]; intros [|c l'] Hl; try discriminate; constructor; [reflexivity|].
  apply IH. injection Hl; auto.
Qed.

Lemma plan_layer_ok c out_cfg mdef def sl j (t : Q) k r part :
  r = {| r_config := c; r_t := 0; r_tensor := None; r_slice := Some sl; r_module := Some def |} ->
  (slice_layers sl = 1%nat -> t == 1) ->
  (1 < slice_layers sl -> t * inject_Z (Z.of_nat (slice_layers sl) - 1) == inject_Z (Z.of_nat j))%nat ->
  plan_layer W out_cfg mdef (os_sources sl) (Z.of_nat j) t r (Z.of_nat k) = Ok part ->
  layer_ok W c out_cfg mdef def sl j k part.
Proof.
  intros -> Ht1 Ht2 Hp. unfold plan_layer in Hp. ibind Hp wout Hwo. ibind Hp win Hwi. ibind Hp ts Hts.
  injection Hp as <-.
  exists t, wout, ts. split; [exact Ht1|]. split; [exact Ht2|]. split; [exact Hwo|]. split; [reflexivity|].
  split; [rewrite (rmapM_length _ _ _ Hts); apply enum_length|].
  intros i w p Hi Hpi.
  assert (Hen : nth_error (enum wout) i = Some (i, w)).
  { destruct (nth_error (enum wout) i) as [x|] eqn:Hx.
    - destruct (enum_nth _ _ _ Hx) as [H1 H2]. destruct x; simpl in *. congruence.
    - apply nth_error_None in Hx. rewrite enum_length in Hx.
      assert (i < length wout)%nat by (apply nth_error_Some; congruence). lia. }
  destruct (rmapM_nth _ _ _ _ _ Hts Hen) as (p' & Hp' & Hf). rewrite Hpi in Hp'. injection Hp' as <-.
  cbn beta iota in Hf. ibind Hf ins Hins. ibind Hf o Ho. injection Hf as <-.
  exists (combine (map is_model (os_sources sl)) ins). split.
  - apply rmapM_Ok_Forall2 in Hwi. apply rmapM_Ok_Forall2 in Hins.
    clear - Hwi Hins. revert ins Hins. induction Hwi as [|s ws l l' Hs _ IH]; intros ins Hins.
    + inversion Hins; subst. constructor.
    + inversion Hins as [|? wi ? ins' Hwi' Hrest]; subst. simpl. constructor; [|apply IH; exact Hrest].
      simpl. split; [reflexivity|]. exists ws. split; [exact Hs|].
      unfold nthE in Hwi'. destruct (nth_error ws i); [injection Hwi' as ->; reflexivity|discriminate].
  - exact (plan_tensor_ok _ _ _ _ _ Ho).
Qed.

Lemma depth_spec (n j : nat) : (j < n)%nat ->
  (n = 1%nat -> depth (Z.of_nat n) (Z.of_nat j) == 1) /\
  (1 < n -> depth (Z.of_nat n) (Z.of_nat j) * inject_Z (Z.of_nat n - 1) == inject_Z (Z.of_nat j))%nat.
Proof.
  intros Hj. unfold depth. split.
  - intros ->. reflexivity.
  - intros Hn. destruct (Z.ltb_spec 1 (Z.of_nat n)); [|lia]. field.
    intros Hz. apply (inject_Z_injective (Z.of_nat n - 1) 0) in Hz. lia.
Qed.

Lemma plan_layers_ok c out_cfg mdef def sl (num : nat) :
  num = slice_layers sl ->
  forall n j k part cur',
  (j + n = num)%nat ->
  plan_layers W out_cfg mdef sl {| r_config := c; r_t := 0; r_tensor := None; r_slice := Some sl; r_module := Some def |}
    (Z.of_nat num) (map Z.of_nat (seq j n)) (Z.of_nat k) = Ok (part, cur') ->
  cur' = Z.of_nat (k + n) /\
  exists parts, part = concat parts /\ length parts = n /\
    forall i p, nth_error parts i = Some p -> layer_ok W c out_cfg mdef def sl (j + i) (k + i) p.
Proof.
  intros Hnum. induction n as [|n IH]; intros j k part cur' Hjn Hp; cbn [seq map plan_layers] in Hp.
  - injection Hp as <- <-. split; [f_equal; lia|]. exists []. split; [reflexivity|]. split; [reflexivity|].
    intros i p Hi. destruct i; discriminate.
  - ibind Hp a Ha. ibind Hp b Hb. injection Hp as <- <-.
    replace (Z.of_nat k + 1)%Z with (Z.of_nat (S k)) in Hb by lia.
    destruct b as [b curb]. destruct (IH (S j) (S k) b curb ltac:(lia) Hb) as (Hcur & parts & Hb' & Hlen & Hall).
    split; [simpl; rewrite Hcur; f_equal; lia|].
    exists (a :: parts). simpl. split; [rewrite Hb'; reflexivity|]. split; [congruence|].
    intros i p Hi. destruct i as [|i]; simpl in Hi.
    + injection Hi as <-. rewrite !Nat.add_0_r.
      destruct (depth_spec num j ltac:(lia)) as [D1 D2].
      eapply plan_layer_ok; [reflexivity| | |exact Ha]; rewrite <- Hnum; assumption.
    + specialize (Hall i p Hi). replace (j + S i)%nat with (S j + i)%nat by lia.
      replace (k + S i)%nat with (S k + i)%nat by lia. exact Hall.
Qed.

Lemma plan_slice_ok c out_cfg mdef def sl k part cur' :
  plan_slice W c out_cfg mdef def sl (Z.of_nat k) = Ok (part, cur') ->
  (forall s s', In s (os_sources sl) -> In s' (os_sources sl) -> (is_end s - is_start s = is_end s' - is_start s')%Z) /\
  os_sources sl <> [] /\
  cur' = Z.of_nat (k + slice_layers sl) /\
  exists parts, part = concat parts /\ length parts = slice_layers sl /\
    forall i p, nth_error parts i = Some p -> layer_ok W c out_cfg mdef def sl i (k + i) p.
Proof.
  unfold plan_slice. intros Hp.
  destruct (os_sources sl) as [|s0 ss] eqn:Hss; [discriminate|]. cbn [map] in Hp.
  destruct (forallb (Z.eqb (slice_len s0)) (map slice_len ss)) eqn:Hall; [|discriminate].
  rewrite forallb_forall in Hall.
  assert (Heq : forall s, In s (s0 :: ss) -> slice_len s = slice_len s0).
  { intros s [<-|Hs]; [reflexivity|]. specialize (Hall (slice_len s) (in_map slice_len ss s Hs)). apply Z.eqb_eq in Hall. congruence. }
  split. { intros s s' Hs Hs'. change (slice_len s = slice_len s'). rewrite (Heq s Hs), (Heq s' Hs'). reflexivity. }
  split; [discriminate|].
  assert (Hsl : slice_layers sl = Z.to_nat (slice_len s0)) by (unfold slice_layers; rewrite Hss; reflexivity).
  unfold layer_range in Hp. 
  destruct (Z.leb_spec (slice_len s0) 0) as [Hneg|Hpos].
  - replace (Z.to_nat (slice_len s0)) with 0%nat in * by lia. simpl in Hp. injection Hp as <- <-.
    rewrite Hsl. split; [f_equal; lia|]. exists []. split; [reflexivity|]. split; [reflexivity|].
    intros i p Hi. destruct i; discriminate.
  - replace (slice_len s0) with (Z.of_nat (slice_layers sl)) in Hp at 1 by lia.
    rewrite <- Hsl in Hp.
    destruct (plan_layers_ok c out_cfg mdef def sl _ eq_refl (slice_layers sl) 0 k part cur' eq_refl Hp) as (Hc & parts & H1 & H2 & H3).
    split; [exact Hc|]. exists parts. split; [exact H1|]. split; [exact H2|]. intros i p Hi. exact (H3 i p Hi).
Qed.

Lemma plan_slices_ok c out_cfg mdef def : forall sls k part cur',
  plan_slices W c out_cfg mdef def sls (Z.of_nat k) = Ok (part, cur') ->
  (forall sl s s', In sl sls -> In s (os_sources sl) -> In s' (os_sources sl) ->
     (is_end s - is_start s = is_end s' - is_start s')%Z) /\
  (forall sl, In sl sls -> os_sources sl <> []) /\
  cur' = Z.of_nat (k + total_layers sls) /\
  exists parts, part = concat parts /\ length parts = total_layers sls /\
    forall pre sl post j, sls = pre ++ sl :: post -> (j < slice_layers sl)%nat ->
      exists p, nth_error parts (total_layers pre + j) = Some p /\
                layer_ok W c out_cfg mdef def sl j (k + total_layers pre + j) p.
Proof.
  induction sls as [|sl sls IH]; intros k part cur' Hp; cbn [plan_slices] in Hp.
  - injection Hp as <- <-. split; [intros ? ? ? []|]. split; [intros ? []|].
    split; [unfold total_layers; simpl; f_equal; lia|].
    exists []. split; [reflexivity|]. split; [reflexivity|]. intros pre sl post j He. destruct pre; discriminate.
  - ibind Hp a Ha. ibind Hp b Hb. injection Hp as <- <-.
    destruct a as [a ca]. destruct b as [b cb]. cbn [fst snd] in *.
    destruct (plan_slice_ok _ _ _ _ _ _ _ _ Ha) as (Hlen & Hne & Hca & pa & Hpa & Hla & Hpall).
    rewrite Hca in Hb. destruct (IH _ _ _ Hb) as (Hlen' & Hne' & Hcb & pb & Hpb & Hlb & Hpball).
    split. { intros sl' s s' [<-|Hin] Hs Hs'; [exact (Hlen s s' Hs Hs')|exact (Hlen' sl' s s' Hin Hs Hs')]. }
    split. { intros sl' [<-|Hin]; [exact Hne|exact (Hne' sl' Hin)]. }
    split. { rewrite Hcb. f_equal. unfold total_layers; simpl. lia. }
    exists (pa ++ pb). split; [rewrite concat_app, Hpa, Hpb; reflexivity|].
    split; [rewrite app_length, Hla, Hlb; reflexivity|].
    intros pre sl' post j He Hj. destruct pre as [|x pre]; simpl in He.
    + injection He as <- _. unfold total_layers; simpl. 
      destruct (nth_error pa j) as [p|] eqn:Hpj; [|apply nth_error_None in Hpj; lia].
      exists p. split; [rewrite nth_error_app1 by lia; exact Hpj|]. rewrite Nat.add_0_r. exact (Hpall j p Hpj).
    + injection He as <- He. destruct (Hpball pre sl' post j He Hj) as (p & Hp1 & Hp2).
      exists p. split.
      * rewrite nth_error_app2 by (unfold total_layers; simpl; lia).
        replace (total_layers (sl :: pre) + j - length pa)%nat with (total_layers pre + j)%nat by (unfold total_layers; simpl; lia).
        exact Hp1.
      * replace (k + total_layers (sl :: pre) + j)%nat with (k + slice_layers sl + total_layers pre + j)%nat
          by (unfold total_layers; simpl; lia). exact Hp2.
Qed.

Lemma combine_repeat {A B} (w : B) (l : list A) n :
  combine l (repeat w n) = map (fun m => (m, w)) (firstn n l).
Proof. revert n. induction l as [|a l IH]; intros [|n]; simpl; [reflexivity..|]. rewrite IH. reflexivity. Qed.

Lemma plan_outer_ok c def n sl ws part : plan_outer W c def n sl ws = Ok part ->
  outer_ok W c def sl (firstn n (map is_model (os_sources sl))) ws part.
Proof.
  unfold plan_outer. intros Hp. ibind Hp ts Hts. injection Hp as <-. exists ts. split; [reflexivity|].
  apply rmapM_Ok_Forall2 in Hts. eapply Forall2_impl; [|exact Hts].
  intros w p Hf. cbn beta in Hf. ibind Hf o Ho. injection Hf as <-.
  rewrite <- combine_repeat. exact (plan_tensor_ok _ _ _ _ _ Ho).
Qed.
End P.
