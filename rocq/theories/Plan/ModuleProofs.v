From Coq Require Import Lia QArith Lqa.
From Verif.Base Require Import Py PyFacts.
From Verif.Config Require Import Model.
From Verif.Arch Require Import Model.
From Verif.Plan Require Import Model Spec Proofs NormProofs.
Local Open Scope list_scope.

Section D.
Context {A : Type} (P : A -> Prop).
Lemma drops_app a1 b1 a2 b2 : drops P a1 b1 -> drops P a2 b2 -> drops P (a1 ++ a2) (b1 ++ b2).
Proof. intros H1 H2. induction H1; simpl; [exact H2|constructor 2; assumption|constructor 3; assumption]. Qed.
Lemma drops_In full sub x : drops P full sub -> In x sub -> In x full.
Proof. induction 1; simpl; intros Hx; [exact Hx|destruct Hx as [<-|Hx]; auto|auto]. Qed.
Lemma drops_kept full sub x : drops P full sub -> In x full -> ~ P x -> In x sub.
Proof. induction 1; simpl; intros Hx Hn; [exact Hx|destruct Hx as [<-|Hx]; auto|destruct Hx as [<-|Hx]; [contradiction|auto]]. Qed.
Lemma drops_NoDup_map {B} (f : A -> B) full sub : drops P full sub -> NoDup (map f full) -> NoDup (map f sub).
Proof.
  induction 1 as [|x full sub Hd IH|x full sub Hp Hd IH]; simpl; intros Hnd; [constructor| |].
  - inversion Hnd as [|? ? Hx Hnd']; subst. constructor; [|auto].
    intros Hc. apply Hx. apply in_map_iff in Hc. destruct Hc as (y & <- & Hy). apply in_map. exact (drops_In _ _ _ Hd Hy).
  - inversion Hnd; subst; auto.
Qed.
End D.

Section P.
Context {M : Type} `{Eqb M}.
Variable W : world M.

Notation opt_w := (fun w : weight_info => wi_optional w = true).

Lemma tensor_ok_drops r w ins p : tensor_ok W r w ins p -> drops opt_w [w] (map fst p).
Proof.
  intros [(-> & Ho & _)|(t & -> & _)]; simpl; [constructor 3; [exact Ho|constructor]|constructor 2; constructor].
Qed.

Lemma drops_concat : forall (full : list weight_info) (parts : list (list (weight_info * merge_task M))),
  length parts = length full ->
  (forall i w p, nth_error full i = Some w -> nth_error parts i = Some p -> drops opt_w [w] (map fst p)) ->
  drops opt_w full (map fst (concat parts)).
Proof.
  induction full as [|w full IH]; intros [|p parts] Hl Hall; try discriminate; [constructor|].
  simpl. rewrite map_app. change (w :: full) with ([w] ++ full).
  apply drops_app; [exact (Hall 0%nat w p eq_refl eq_refl)|].
  apply IH; [injection Hl; auto|]. intros i w' p' Hw Hp. exact (Hall (S i) w' p' Hw Hp).
Qed.

Lemma layer_ok_drops c out_cfg mdef def sl j k p : layer_ok W c out_cfg mdef def sl j k p ->
  exists wout, c_layer mdef (Z.of_nat k) out_cfg = Ok wout /\ drops opt_w wout (map fst p).
Proof.
  intros (t & wout & parts & _ & _ & Hw & -> & Hl & Hall). exists wout. split; [exact Hw|].
  apply drops_concat; [exact Hl|]. intros i w q Hi Hq. destruct (Hall i w q Hi Hq) as (ins & _ & Hok).
  exact (tensor_ok_drops _ _ _ _ Hok).
Qed.

Lemma Forall2_nth {A B} (R : A -> B -> Prop) l l' : Forall2 R l l' ->
  forall i a b, nth_error l i = Some a -> nth_error l' i = Some b -> R a b.
Proof.
  induction 1 as [|x y l l' Hxy _ IH]; intros i a b Ha Hb; [destruct i; discriminate|].
  destruct i as [|i]; simpl in *; [congruence|eauto].
Qed.
Lemma Forall2_len {A B} (R : A -> B -> Prop) l l' : Forall2 R l l' -> length l' = length l.
Proof. induction 1; simpl; congruence. Qed.

Lemma outer_ok_drops c def sl models ws p : outer_ok W c def sl models ws p -> drops opt_w ws (map fst p).
Proof.
  intros (parts & -> & Hall). apply drops_concat; [exact (Forall2_len _ _ _ Hall)|].
  intros i w q Hw Hq. exact (tensor_ok_drops _ _ _ _ (Forall2_nth _ _ _ Hall i w q Hw Hq)).
Qed.

(** everything about one module *)
Definition module_plan (c : merge_config M) (out_cfg : cfgval) (mdef : module_def) (def : output_module M)
    (s0 : output_slice M) (sls : list (output_slice M)) (ts : list (weight_info * merge_task M)) (cur : Z) : Prop :=
  exists wpre wpost pre layers post,
    c_pre mdef out_cfg = Ok wpre /\ c_post mdef out_cfg = Ok wpost /\
    ts = pre ++ concat layers ++ post /\
    cur = Z.of_nat (total_layers (s0 :: sls)) /\
    length layers = total_layers (s0 :: sls) /\
    outer_ok W c def s0 (map is_model (os_sources s0)) wpre pre /\
    outer_ok W c def (last (s0 :: sls) s0)
      (firstn (length (os_sources s0)) (map is_model (os_sources (last (s0 :: sls) s0)))) wpost post /\
    (forall before sl after j, s0 :: sls = before ++ sl :: after -> (j < slice_layers sl)%nat ->
       exists p, nth_error layers (total_layers before + j) = Some p /\
                 layer_ok W c out_cfg mdef def sl j (total_layers before + j) p) /\
    (forall sl s s', In sl (s0 :: sls) -> In s (os_sources sl) -> In s' (os_sources sl) ->
       (is_end s - is_start s = is_end s' - is_start s')%Z) /\
    (forall sl, In sl (s0 :: sls) -> os_sources sl <> []).

Lemma plan_module_ok c out_cfg name mdef def s0 sls ts cur :
  dget (w_arch W) name = Some mdef -> om_slices def = Some (s0 :: sls) ->
  plan_module W c out_cfg name def = Ok (ts, cur) ->
  module_plan c out_cfg mdef def s0 sls ts cur.
Proof.
  intros Hmd Hsl Hp. unfold plan_module in Hp. unfold dgetE in Hp. rewrite Hmd in Hp. cbn [rbind] in Hp.
  ibind Hp wpre Hwpre. rewrite Hsl in Hp. cbn [opt_list] in Hp. ibind Hp fs Hfs. injection Hfs as <-.
  ibind Hp pre Hpre. ibind Hp b Hb. ibind Hp wpost Hwpost. ibind Hp post Hpost. injection Hp as <- <-.
  change 0%Z with (Z.of_nat 0) in Hb. destruct b as [b cb].
  destruct (plan_slices_ok W _ _ _ _ _ _ _ _ Hb) as (Hlen & Hne & Hcb & layers & Hbl & Hll & Hall).
  exists wpre, wpost, pre, layers, post. cbn [fst snd].
  split; [exact Hwpre|]. split; [exact Hwpost|]. split; [rewrite Hbl; reflexivity|].
  split; [exact Hcb|]. split; [exact Hll|].
  split; [pose proof (plan_outer_ok W _ _ _ _ _ _ Hpre) as Ho;
          rewrite firstn_all2 in Ho by (rewrite map_length; lia); exact Ho|].
  split; [exact (plan_outer_ok W _ _ _ _ _ _ Hpost)|].
  split; [intros before sl after j He Hj; exact (Hall before sl after j He Hj)|]. split; assumption.
Qed.

(** every index below the total is at some offset of some slice *)
Lemma locate (sls : list (output_slice M)) : forall k, (k < total_layers sls)%nat ->
  exists before sl after j, sls = before ++ sl :: after /\ (j < slice_layers sl)%nat /\ k = (total_layers before + j)%nat.
Proof.
  induction sls as [|s sls IH]; intros k Hk; [unfold total_layers in Hk; simpl in Hk; lia|].
  destruct (Nat.ltb_spec k (slice_layers s)) as [Hlt|Hge].
  - exists [], s, sls, k. split; [reflexivity|]. split; [exact Hlt|reflexivity].
  - destruct (IH (k - slice_layers s)%nat) as (before & sl & after & j & He & Hj & Hkj).
    { unfold total_layers in *; simpl in *; lia. }
    exists (s :: before), sl, after, j. split; [rewrite He; reflexivity|]. split; [exact Hj|].
    unfold total_layers in *; simpl; lia.
Qed.

Lemma layers_drops : forall (layers : list (list (weight_info * merge_task M))) (f : nat -> result (list weight_info)),
  (forall k p, nth_error layers k = Some p -> exists wout, f k = Ok wout /\ drops opt_w wout (map fst p)) ->
  exists wl, length wl = length layers /\ (forall k ws, nth_error wl k = Some ws -> f k = Ok ws) /\
             drops opt_w (concat wl) (map fst (concat layers)).
Proof.
  induction layers as [|p layers IH]; intros f Hall.
  - exists []. split; [reflexivity|]. split; [intros k ws Hk; destruct k; discriminate|constructor].
  - destruct (Hall 0%nat p eq_refl) as (w0 & Hf0 & Hd0).
    destruct (IH (fun k => f (S k)) (fun k q Hk => Hall (S k) q Hk)) as (wl & Hl & Hw & Hd).
    exists (w0 :: wl). split; [simpl; congruence|]. split.
    + intros k ws Hk. destruct k as [|k]; simpl in Hk; [injection Hk as <-; exact Hf0|exact (Hw k ws Hk)].
    + simpl. rewrite map_app. apply drops_app; assumption.
Qed.

Lemma module_plan_drops c out_cfg mdef def s0 sls ts cur :
  module_plan c out_cfg mdef def s0 sls ts cur ->
  exists wpre wl wpost,
    c_pre mdef out_cfg = Ok wpre /\ c_post mdef out_cfg = Ok wpost /\
    length wl = total_layers (s0 :: sls) /\
    (forall k ws, nth_error wl k = Some ws -> c_layer mdef (Z.of_nat k) out_cfg = Ok ws) /\
    drops opt_w (wpre ++ concat wl ++ wpost) (map fst ts).
Proof.
  intros (wpre & wpost & pre & layers & post & H1 & H2 & -> & H3 & H4 & H5 & H6 & H7 & _).
  destruct (layers_drops layers (fun k => c_layer mdef (Z.of_nat k) out_cfg)) as (wl & Hwl & Hf & Hd).
  { intros k p Hk. assert (Hlt : (k < total_layers (s0 :: sls))%nat) by (rewrite <- H4; apply nth_error_Some; congruence).
    destruct (locate _ _ Hlt) as (before & sl & after & j & He & Hj & ->).
    destruct (H7 before sl after j He Hj) as (p' & Hp' & Hok). rewrite Hk in Hp'. injection Hp' as <-.
    exact (layer_ok_drops _ _ _ _ _ _ _ _ Hok). }
  exists wpre, wl, wpost. split; [exact H1|]. split; [exact H2|]. split; [congruence|]. split; [exact Hf|].
  rewrite !map_app. apply drops_app; [exact (outer_ok_drops _ _ _ _ _ _ H5)|].
  apply drops_app; [exact Hd|exact (outer_ok_drops _ _ _ _ _ _ H6)].
Qed.

(** * Success of planning *)
Lemma rmapM_succeeds {A B} (f : A -> result B) l : (forall a, In a l -> exists b, f a = Ok b) -> exists r, rmapM f l = Ok r.
Proof.
  induction l as [|a l IH]; intros Hall; [exists []; reflexivity|].
  destruct (Hall a (or_introl eq_refl)) as [b Hb]. destruct (IH (fun x Hx => Hall x (or_intror Hx))) as [r Hr].
  exists (b :: r). change (rmapM f (a :: l)) with (let! y := f a in let! ys := rmapM f l in Ok (y :: ys)).
  rewrite Hb, Hr. reflexivity.
Qed.

(** the readers used while planning module [def] with slices [sls] *)
Definition reader_in (c : merge_config M) (def : output_module M) (sls : list (output_slice M)) (r : reader M) : Prop :=
  r_config r = c /\ r_module r = Some def /\ (exists sl, r_slice r = Some sl /\ In sl sls) /\ 0 <= r_t r <= 1.

Definition params_resolve (c : merge_config M) (def : output_module M) (all : list (output_slice M)) : Prop :=
  forall r p m req, reader_in c def all r -> In p (w_params W) \/ In p (w_tparams W) ->
    exists v, parameter r (pd_name p) m (pd_default p) req = Ok v.

Lemma read_params_succeeds c def all r m fo ps : params_resolve c def all -> reader_in c def all r ->
  (forall p, In p ps -> In p (w_params W) \/ In p (w_tparams W)) -> exists d, read_params r m fo ps = Ok d.
Proof.
  intros Hpr Hr Hin. unfold read_params.
  destruct (rmapM_succeeds (fun p => let! v := parameter r (pd_name p) m (pd_default p) (pd_required p && negb fo) in
                                     Ok (pd_name p, v)) ps) as [kvs Hk].
  - intros p Hp. destruct (Hpr r p m (pd_required p && negb fo) Hr (Hin p Hp)) as [v Hv]. rewrite Hv. eexists; reflexivity.
  - rewrite Hk. eexists; reflexivity.
Qed.

Lemma any_present_succeeds l : (forall m w, In (m, w) l -> truthy (wi_aliases w) = false) -> exists b, any_present W l = Ok b.
Proof.
  induction l as [|[m w] l IH]; intros Hal; simpl; [eexists; reflexivity|].
  pose proof (Hal m w (or_introl eq_refl)) as Hw.
  destruct (wi_aliases w) as [[|]|]; [|discriminate|];
    (destruct (mem (wi_name w) (w_tensors W m)); [eexists; reflexivity|apply IH; intros m' w' Hin; exact (Hal m' w' (or_intror Hin))]).
Qed.

Lemma plan_tensor_succeeds c def all w win models r :
  params_resolve c def all -> reader_in c def all r -> (wi_optional w = true -> forall wi, In wi win -> truthy (wi_aliases wi) = false) ->
  exists o, plan_tensor W w win models r = Ok o.
Proof.
  intros Hpr Hr Hal. unfold plan_tensor.
  assert (Hb : exists b, (if wi_optional w then any_present W (combine models win) else Ok true) = Ok b).
  { destruct (wi_optional w); [|eexists; reflexivity]. apply any_present_succeeds.
    intros m wi Hin. apply (Hal eq_refl). exact (in_combine_r _ _ _ _ Hin). }
  destruct Hb as [b Hb]. rewrite Hb. cbn [rbind]. destruct b; cbn [negb]; [|eexists; reflexivity].
  destruct (read_params_succeeds c def all (for_tensor r (wi_name w)) None false (w_params W) Hpr Hr (fun p Hp => or_introl Hp)) as [gp Hgp].
  rewrite Hgp. cbn [rbind].
  set (F := fun mw : M * weight_info => let '(m, w0) := mw in
                        let! d := read_params (for_tensor r (wi_name w0)) (Some m)
                                    (match reader_base r with Some b => eqb m b | None => false end) (w_tparams W) in
                        Ok (m, d)).
  destruct (rmapM_succeeds F (combine models win)) as [tp Htp].
  - intros [m wi] _. unfold F.
    destruct (read_params_succeeds c def all (for_tensor r (wi_name wi)) (Some m)
               (match reader_base r with Some b => eqb m b | None => false end) (w_tparams W) Hpr Hr (fun p Hp => or_intror Hp)) as [d Hd].
    rewrite Hd. eexists; reflexivity.
  - fold F. rewrite Htp. eexists; reflexivity.
Qed.

(** every layer, for the output and every input configuration, has the same number of weights, optional in the same places, and optional
    weights have no aliases *)
Definition layers_uniform (out_cfg : cfgval) (mdef : module_def) : Prop :=
  exists flags : list bool, forall i cfg, cfg = out_cfg \/ (exists m, cfg = w_cfg W m) -> exists ws, c_layer mdef i cfg = Ok ws /\
    Forall2 (fun o w => wi_optional w = o /\ (o = true -> truthy (wi_aliases w) = false)) flags ws.

(** the hypotheses under which planning a module cannot fail *)
Definition plannable (c : merge_config M) (def : output_module M) (out_cfg : cfgval) (mdef : module_def) (s0 : output_slice M)
    (sls : list (output_slice M)) : Prop :=
  params_resolve c def (s0 :: sls) /\
  (exists wpre, c_pre mdef out_cfg = Ok wpre /\ forall w, In w wpre -> wi_optional w = true -> truthy (wi_aliases w) = false) /\
  (exists wpost, c_post mdef out_cfg = Ok wpost /\ forall w, In w wpost -> wi_optional w = true -> truthy (wi_aliases w) = false) /\
  layers_uniform out_cfg mdef /\
  (forall sl, In sl (s0 :: sls) -> os_sources sl <> [] /\
     forall s s', In s (os_sources sl) -> In s' (os_sources sl) -> (is_end s - is_start s = is_end s' - is_start s')%Z).

Lemma plan_layer_succeeds c def all out_cfg mdef sl j t r k :
  params_resolve c def all -> reader_in c def all (with_t r t) ->
  layers_uniform out_cfg mdef ->
  exists p, plan_layer W out_cfg mdef (os_sources sl) j t r k = Ok p.
Proof.
  intros Hpr Hr [flags Hn]. unfold plan_layer. destruct (Hn k out_cfg (or_introl eq_refl)) as (wo & Hwo & Hfo). rewrite Hwo. cbn [rbind].
  destruct (rmapM_succeeds (fun s => c_layer mdef (is_start s + j) (w_cfg W (is_model s))) (os_sources sl)) as [wi Hwi].
  { intros s _. destruct (Hn (is_start s + j)%Z (w_cfg W (is_model s)) (or_intror (ex_intro _ _ eq_refl))) as (ws & Hws & _). eauto. }
  rewrite Hwi. cbn [rbind].
  set (F := fun iw : nat * weight_info => let '(i, w) := iw in
                     let! ins := rmapM (fun ws => nthE ws i) wi in
                     let! o := plan_tensor W w ins (map is_model (os_sources sl)) (with_t r t) in
                     Ok (appended w o)).
  destruct (rmapM_succeeds F (enum wo)) as [ts Hts].
  - intros [i w] Hin. unfold F.
    assert (Hw : nth_error wo i = Some w).
    { destruct (In_nth_error _ _ Hin) as [q Hq]. destruct (enum_nth _ _ _ Hq) as [Hq1 Hq2]. simpl in *. congruence. }
    assert (Hfl : exists o, nth_error flags i = Some o /\ wi_optional w = o).
    { assert (Hl : length wo = length flags) by (exact (Forall2_len _ _ _ Hfo)).
      assert (Hi : (i < length wo)%nat) by (apply nth_error_Some; congruence).
      destruct (nth_error flags i) as [o|] eqn:Ho; [|apply nth_error_None in Ho; lia].
      exists o. split; [reflexivity|]. exact (proj1 (Forall2_nth _ _ _ Hfo i o w Ho Hw)). }
    destruct Hfl as (o & Ho & Hopt).
    assert (Hcase : exists ins, rmapM (fun ws => nthE ws i) wi = Ok ins /\
                      (o = true -> forall x, In x ins -> truthy (wi_aliases x) = false)).
    { apply rmapM_Ok_Forall2 in Hwi. clear - Hwi Hn Ho. induction Hwi as [|s ws l l' Hs _ IH].
      - exists []. split; [reflexivity|intros _ x []].
      - destruct IH as (ins & Hins & Hal). destruct (Hn (is_start s + j)%Z (w_cfg W (is_model s)) (or_intror (ex_intro _ _ eq_refl))) as (ws' & Hws' & Hfw).
        rewrite Hs in Hws'. injection Hws' as <-.
        assert (Hl : length ws = length flags) by (exact (Forall2_len _ _ _ Hfw)).
        assert (Hi : (i < length flags)%nat) by (apply nth_error_Some; congruence).
        destruct (nth_error ws i) as [x|] eqn:Hx; [|apply nth_error_None in Hx; lia].
        exists (x :: ins). split.
        + change (rmapM (fun ws0 => nthE ws0 i) (ws :: l')) with
            (let! y := nthE ws i in let! ys := rmapM (fun ws0 => nthE ws0 i) l' in Ok (y :: ys)).
          unfold nthE at 1. rewrite Hx, Hins. reflexivity.
        + intros Hot y [<-|Hy]; [exact (proj2 (Forall2_nth _ _ _ Hfw i o x Ho Hx) Hot)|exact (Hal Hot y Hy)]. }
    destruct Hcase as (ins & Hins & Hal). rewrite Hins. cbn [rbind].
    destruct (plan_tensor_succeeds c def all w ins (map is_model (os_sources sl)) (with_t r t) Hpr Hr) as [op Hop].
    { intros Hwo' . apply Hal. congruence. }
    rewrite Hop. eexists; reflexivity.
  - rewrite Hts. eexists; reflexivity.
Qed.

Lemma depth_range num i : (0 <= i < num)%Z -> 0 <= depth num i <= 1.
Proof.
  intros Hi. unfold depth. destruct (Z.ltb_spec 1 num); [|lra].
  assert (Hp : 0 < inject_Z (num - 1)) by (change 0 with (inject_Z 0); rewrite <- Zlt_Qlt; lia).
  split.
  - apply Qle_shift_div_l; [exact Hp|]. rewrite Qmult_0_l. change 0 with (inject_Z 0). rewrite <- Zle_Qle. lia.
  - apply Qle_shift_div_r; [exact Hp|]. rewrite Qmult_1_l. rewrite <- Zle_Qle. lia.
Qed.

Lemma plan_layers_succeeds c def all out_cfg mdef sl r num : params_resolve c def all -> reader_in c def all r ->
  layers_uniform out_cfg mdef ->
  forall idxs cur, (forall i, In i idxs -> (0 <= i < num)%Z) ->
  exists p, plan_layers W out_cfg mdef sl r num idxs cur = Ok p.
Proof.
  intros Hpr Hr Hn. induction idxs as [|i idxs IH]; intros cur Hidx; cbn [plan_layers]; [eexists; reflexivity|].
  destruct (plan_layer_succeeds c def all out_cfg mdef sl i (depth num i) r cur Hpr
    ltac:(destruct Hr as (R1 & R2 & R3 & _); split; [exact R1|split; [exact R2|split; [exact R3|exact (depth_range _ _ (Hidx i (or_introl eq_refl)))]]]) Hn) as [a Ha].
  rewrite Ha. cbn [rbind].
  destruct (IH (cur + 1)%Z (fun x Hx => Hidx x (or_intror Hx))) as [b Hb]. rewrite Hb. eexists; reflexivity.
Qed.

Lemma plan_slices_succeeds c def all out_cfg mdef : params_resolve c def all ->
  layers_uniform out_cfg mdef ->
  forall sls cur, incl sls all ->
  (forall sl, In sl sls -> os_sources sl <> [] /\
     forall s s', In s (os_sources sl) -> In s' (os_sources sl) -> (is_end s - is_start s = is_end s' - is_start s')%Z) ->
  exists p, plan_slices W c out_cfg mdef def sls cur = Ok p.
Proof.
  intros Hpr Hn. induction sls as [|sl sls IH]; intros cur Hincl Hs; cbn [plan_slices]; [eexists; reflexivity|].
  destruct (Hs sl (or_introl eq_refl)) as [Hne Hlen].
  assert (Ha : exists a, plan_slice W c out_cfg mdef def sl cur = Ok a).
  { unfold plan_slice. destruct (os_sources sl) as [|s0 ss] eqn:Hss; [congruence|]. cbn [map].
    replace (forallb (Z.eqb (slice_len s0)) (map slice_len ss)) with true.
    - apply (plan_layers_succeeds c def all); [exact Hpr|split; [reflexivity|split; [reflexivity|split; [exists sl; split; [reflexivity|exact (Hincl sl (or_introl eq_refl))]|simpl; lra]]]|exact Hn|].
      intros i Hi. unfold layer_range in Hi. apply in_map_iff in Hi. destruct Hi as (q & <- & Hq). apply in_seq in Hq. lia.
    - symmetry. apply forallb_forall. intros z Hz. apply in_map_iff in Hz. destruct Hz as (s & <- & Hin).
      apply Z.eqb_eq. apply Hlen; [left; reflexivity|right; exact Hin]. }
  destruct Ha as [a Ha]. rewrite Ha. cbn [rbind].
  destruct (IH (snd a) (fun x Hx => Hincl x (or_intror Hx)) (fun x Hx => Hs x (or_intror Hx))) as [b Hb]. rewrite Hb. eexists; reflexivity.
Qed.

Lemma plan_outer_succeeds c def all n sl ws : params_resolve c def all -> In sl all ->
  (forall w, In w ws -> wi_optional w = true -> truthy (wi_aliases w) = false) ->
  exists p, plan_outer W c def n sl ws = Ok p.
Proof.
  intros Hpr Hsl Hal. unfold plan_outer.
  set (F := fun w => let! o := plan_tensor W w (repeat w n) (map is_model (os_sources sl))
                               {| r_config := c; r_t := 0; r_tensor := Some (wi_name w); r_slice := Some sl;
                                  r_module := Some def |} in
                             Ok (appended w o)).
  destruct (rmapM_succeeds F ws) as [ts Hts].
  - intros w Hw. unfold F.
    destruct (plan_tensor_succeeds c def all w (repeat w n) (map is_model (os_sources sl))
               {| r_config := c; r_t := 0; r_tensor := Some (wi_name w); r_slice := Some sl; r_module := Some def |}
               Hpr) as [o Ho].
    { split; [reflexivity|split; [reflexivity|split; [exists sl; split; [reflexivity|exact Hsl]|simpl; lra]]]. }
    { intros Ho wi Hwi. apply repeat_spec in Hwi. subst wi. exact (Hal w Hw Ho). }
    rewrite Ho. eexists; reflexivity.
  - rewrite Hts. eexists; reflexivity.
Qed.

Lemma last_In {A} (l : list A) : forall x d, In (last (x :: l) d) (x :: l).
Proof.
  induction l as [|y l IH]; intros x d; [left; reflexivity|]. right. exact (IH y d).
Qed.

Lemma plan_module_succeeds c out_cfg name mdef def s0 sls :
  dget (w_arch W) name = Some mdef -> om_slices def = Some (s0 :: sls) ->
  plannable c def out_cfg mdef s0 sls -> exists p, plan_module W c out_cfg name def = Ok p.
Proof.
  intros Hmd Hsl (Hpr & (wpre & Hwpre & Halp) & (wpost & Hwpost & Halq) & Hn & Hs).
  unfold plan_module, dgetE. rewrite Hmd. cbn [rbind]. rewrite Hwpre, Hsl. cbn [rbind opt_list].
  destruct (plan_outer_succeeds c def (s0 :: sls) (length (os_sources s0)) s0 wpre Hpr (or_introl eq_refl) Halp) as [a Ha]. rewrite Ha. cbn [rbind].
  destruct (plan_slices_succeeds c def (s0 :: sls) out_cfg mdef Hpr Hn (s0 :: sls) 0 (incl_refl _) Hs) as [b Hb]. rewrite Hb. cbn [rbind].
  rewrite Hwpost. cbn [rbind].
  destruct (plan_outer_succeeds c def (s0 :: sls) (length (os_sources s0)) (last (s0 :: sls) s0) wpost Hpr
             (last_In sls s0 s0) Halq) as [d Hd].
  rewrite Hd. eexists; reflexivity.
Qed.

(** * Layer counts *)
Lemma rmapM_first_len (sls : list (output_slice M)) ls : rmapM first_len sls = Ok ls ->
  (forall sl s, In sl sls -> In s (os_sources sl) -> (is_start s <= is_end s)%Z) ->
  zsum ls = Z.of_nat (total_layers sls).
Proof.
  intros Hr Hpos. apply rmapM_Ok_Forall2 in Hr. induction Hr as [|s z sls ls Hs _ IH]; [reflexivity|].
  simpl. rewrite IH by (intros sl x Hsl Hx; exact (Hpos sl x (or_intror Hsl) Hx)).
  unfold first_len in Hs. destruct (os_sources s) as [|x xs] eqn:Hx; [discriminate|]. injection Hs as <-.
  specialize (Hpos s x (or_introl eq_refl)). rewrite Hx in Hpos. specialize (Hpos (or_introl eq_refl)).
  unfold total_layers; simpl. unfold slice_layers at 2. rewrite Hx. unfold slice_len. unfold zsum in *. lia.
Qed.
End P.
