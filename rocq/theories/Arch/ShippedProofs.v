(** A checker for JSON architectures, proved sound, to be run on the shipped definitions. *)
From Coq Require FinFun.
From Verif.Base Require Import Py PyFacts PyStr.
From Verif.Arch Require Import Model Spec Proofs.
Local Open Scope string_scope.
Local Open Scope list_scope.

Fixpoint omap {A B} (f : A -> option B) (l : list A) : option (list B) :=
  match l with
  | [] => Some []
  | x :: l => match f x, omap f l with Some y, Some ys => Some (y :: ys) | _, _ => None end
  end.
Fixpoint pairwise {A} (r : A -> A -> bool) (l : list A) : bool :=
  match l with [] => true | x :: l => forallb (r x) l && pairwise r l end.

(** an outer weight and a layer weight: apart, or the outer one is numbered [num_layers] *)
Definition outer_vs_layer (f g : form) : bool :=
  apart f g ||
  match f, g with FIdx p false _, FIdx q true _ => String.eqb p q | _, _ => false end.

Definition unambiguous (a : json_arch) : bool :=
  match omap (fun w => form_of_template (wi_name w)) (ja_pre a),
        omap (fun w => form_of_template (wi_name w)) (ja_layer a),
        omap (fun w => form_of_template (wi_name w)) (ja_post a) with
  | Some pre, Some lay, Some post =>
      forallb form_ok (pre ++ lay ++ post)
      && forallb is_layered lay
      && forallb (fun f => negb (is_layered f)) (pre ++ post)
      && pairwise apart (pre ++ post)
      && pairwise apart lay
      && forallb (fun f => forallb (outer_vs_layer f) lay) (pre ++ post)
  | _, _, _ => false
  end.

(** names and aliases of layer weights, for different layers *)
Definition layers_apart_forms (f g : form) : bool :=
  match f, g with
  | FIdx p true r, FIdx q true r' => stops r && stops r' && (String.eqb p q || apart f g)
  | _, _ => false
  end.
Definition loading_names (w : weight_info) : list string :=
  wi_name w :: match wi_aliases w with Some l => l | None => [] end.
Definition layers_apart (a : json_arch) : bool :=
  match omap form_of_template (flat_map loading_names (ja_layer a)) with
  | Some fs => forallb (fun f => forallb (layers_apart_forms f) fs) fs
  | None => false
  end.

(** ** Soundness *)
Lemma omap_Forall2 {A B} (f : A -> option B) l r : omap f l = Some r -> Forall2 (fun x y => f x = Some y) l r.
Proof.
  revert r; induction l as [|x l IH]; cbn; intros r; [intros [= <-]; constructor|].
  destruct (f x) eqn:E; [|discriminate]. destruct (omap f l); [|discriminate]. intros [= <-]. constructor; auto.
Qed.

Lemma pairwise_NoDup {A B} (r : A -> A -> bool) (g : A -> B) l :
  pairwise r l = true -> (forall x y, In x l -> In y l -> r x y = true -> g x <> g y) -> NoDup (map g l).
Proof.
  induction l as [|x l IH]; cbn; [constructor|]. intros Hp Hg. apply andb_true_iff in Hp as [H1 H2].
  rewrite forallb_forall in H1. constructor; [|apply IH; auto].
  rewrite in_map_iff. intros (y & E & Hy). symmetry in E. revert E. apply Hg; auto.
Qed.

Lemma NoDup_concat_map {A B} (g : A -> list B) l :
  NoDup l -> (forall x, In x l -> NoDup (g x)) ->
  (forall x y b, In x l -> In y l -> x <> y -> In b (g x) -> ~ In b (g y)) -> NoDup (concat (map g l)).
Proof.
  induction 1 as [|x l Hx _ IH]; cbn; [constructor|]. intros H1 H2. apply NoDup_app_intro; auto.
  - apply IH; auto. intros y z b Hy Hz. apply H2; auto.
  - intros b Hb Hc. apply in_concat in Hc as (lb & Hlb & Hb'). apply in_map_iff in Hlb as (y & <- & Hy).
    revert Hb'. apply (H2 x y); auto. intros ->. contradiction.
Qed.

Lemma substitute_name a c layer w w' : substitute a c layer w = Ok w' ->
  exists n, ja_num a c = Ok n /\ template_substitution (wi_name w) n layer = Ok (wi_name w') /\
            subst_names n layer (wi_aliases w) = Ok (wi_aliases w').
Proof.
  unfold substitute. destruct (ja_num a c) as [n|] eqn:En; [|discriminate]. cbn.
  destruct (template_substitution (wi_name w) n layer) as [s|] eqn:Es; [|discriminate]. cbn.
  destruct (subst_names n layer (wi_aliases w)) as [al|] eqn:Ea; [|discriminate]. cbn.
  destruct (subst_opt _ _ _); [|discriminate]. cbn. destruct (subst_names n layer (wi_tied w)); [|discriminate]. cbn.
  intros [= <-]. exists n. auto.
Qed.

Lemma names_of_forms a c n layer i ws ws' fs :
  ja_num a c = Ok n ->
  rmapM (substitute a c layer) ws = Ok ws' ->
  omap (fun w => form_of_template (wi_name w)) ws = Some fs ->
  (forall f, In f fs -> is_layered f = true -> layer = Some i) ->
  map wi_name ws' = map (form_string n i) fs.
Proof.
  intros En Hr Hf. apply rmapM_Ok_Forall2 in Hr. apply omap_Forall2 in Hf. revert fs Hf.
  induction Hr as [|w w' ws ws' Hw Hr IH]; intros fs Hf; inversion Hf as [|? f ? fs' Hf1 Hf2]; subst; cbn; [reflexivity|].
  intros Hl. apply substitute_name in Hw as (n' & En' & Es & _). rewrite En in En'. injection En' as <-.
  f_equal.
  - apply (form_of_template_subst n layer i (wi_name w)); auto. exact (Hl f (or_introl eq_refl)).
  - apply IH; auto. intros g Hg. apply Hl. now right.
Qed.

Lemma layer_range_In n i : In i (layer_range n) <-> (0 <= i < n)%Z.
Proof.
  unfold layer_range. rewrite in_map_iff. split.
  - intros (k & <- & Hk). apply in_seq in Hk. lia.
  - intros Hi. exists (Z.to_nat i). rewrite in_seq. lia.
Qed.
Lemma layer_range_NoDup n : NoDup (layer_range n).
Proof. unfold layer_range. apply FinFun.Injective_map_NoDup; [intros x y; lia|apply seq_NoDup]. Qed.

Lemma unambiguous_sound a c n ws :
  unambiguous a = true -> ja_num a c = Ok n -> (0 <= n)%Z ->
  all_weights (json_module a) c = Ok ws -> NoDup (map wi_name ws).
Proof.
  unfold unambiguous. intros Hu En Hn Hw.
  destruct (omap _ (ja_pre a)) as [pre|] eqn:Epre; [|discriminate].
  destruct (omap _ (ja_layer a)) as [lay|] eqn:Elay; [|discriminate].
  destruct (omap _ (ja_post a)) as [post|] eqn:Epost; [|discriminate].
  rewrite !andb_true_iff in Hu. destruct Hu as [[[[[Hok Hlay] Hnl] Hpo] Hpl] Hol].
  rewrite forallb_forall in Hok, Hlay, Hnl, Hol.
  unfold all_weights in Hw. cbn in Hw. rewrite En in Hw. cbn in Hw.
  destruct (rmapM _ (ja_pre a)) as [wpre|] eqn:Wpre; [|discriminate]. cbn in Hw.
  destruct (rmapM _ (layer_range n)) as [wl|] eqn:Wl; [|discriminate]. cbn in Hw.
  destruct (rmapM _ (ja_post a)) as [wpost|] eqn:Wpost; [|discriminate]. cbn in Hw. injection Hw as <-.
  assert (Npre : map wi_name wpre = map (form_string n 0) pre).
  { eapply names_of_forms; eauto. intros f Hf E. specialize (Hnl f (in_or_app _ _ _ (or_introl Hf))). rewrite E in Hnl. discriminate. }
  assert (Npost : map wi_name wpost = map (form_string n 0) post).
  { eapply names_of_forms; eauto. intros f Hf E. specialize (Hnl f (in_or_app _ _ _ (or_intror Hf))). rewrite E in Hnl. discriminate. }
  assert (Nl : map wi_name (concat wl) = concat (map (fun i => map (form_string n i) lay) (layer_range n))).
  { apply rmapM_Ok_Forall2 in Wl. induction Wl as [|i w is ws' Hw' _ IH]; cbn; [reflexivity|].
    rewrite map_app, IH. f_equal. eapply names_of_forms; eauto. }
  rewrite !map_app, Npre, Nl, Npost.
  assert (Hok1 : forall f, In f (pre ++ post) -> form_ok f = true).
  { intros f Hf. apply Hok. rewrite !in_app_iff in *. tauto. }
  assert (Hok2 : forall f, In f lay -> form_ok f = true).
  { intros f Hf. apply Hok. rewrite !in_app_iff. tauto. }
  assert (Nouter : NoDup (map (form_string n 0) (pre ++ post))).
  { apply (pairwise_NoDup _ _ _ Hpo). intros x y Hx Hy Ha. apply apart_neq; auto; lia. }
  assert (Ninner : NoDup (concat (map (fun i => map (form_string n i) lay) (layer_range n)))).
  { apply NoDup_concat_map; [apply layer_range_NoDup|..].
    - intros i Hi. apply layer_range_In in Hi. apply (pairwise_NoDup _ _ _ Hpl). intros x y Hx Hy Ha. apply apart_neq; auto; lia.
    - intros i j b Hi Hj Hne Hb Hb'. apply layer_range_In in Hi, Hj.
      apply in_map_iff in Hb as (f & <- & Hf). apply in_map_iff in Hb' as (g & E & Hg).
      assert (Hfg : f = g \/ apart f g = true \/ apart g f = true).
      { clear -Hpl Hf Hg. induction lay as [|x l IH]; [destruct Hf|]. cbn in Hpl. apply andb_true_iff in Hpl as [H1 H2].
        rewrite forallb_forall in H1. destruct Hf as [-> | Hf], Hg as [-> | Hg]; auto. }
      destruct Hfg as [<- | [Ha | Ha]].
      + revert E. apply layered_neq; auto; lia.
      + symmetry in E. revert E. apply apart_neq; auto; lia.
      + revert E. apply apart_neq; auto; lia. }
  assert (Hcross : forall b, In b (map (form_string n 0) (pre ++ post)) ->
                    ~ In b (concat (map (fun i => map (form_string n i) lay) (layer_range n)))).
  { intros b Hb Hb'. apply in_map_iff in Hb as (f & <- & Hf). apply in_concat in Hb' as (lb & Hlb & Hb').
    apply in_map_iff in Hlb as (i & <- & Hi). apply layer_range_In in Hi. apply in_map_iff in Hb' as (g & E & Hg).
    specialize (Hol f Hf). rewrite forallb_forall in Hol. specialize (Hol g Hg). unfold outer_vs_layer in Hol.
    apply orb_true_iff in Hol as [Ha|Ha].
    - symmetry in E. revert E. apply apart_neq; auto; lia.
    - specialize (Hok1 f Hf). specialize (Hok2 g Hg).
      destruct f as [|p [|] r]; try discriminate. destruct g as [|q [|] r']; try discriminate.
      apply String.eqb_eq in Ha as <-. cbn in E, Hok1, Hok2. apply app_str_inj_l in E.
      apply str_index_inj in E; [lia|lia|lia|now apply stops_spec|now apply stops_spec]. }
  rewrite map_app in Nouter, Hcross.
  apply NoDup_app_intro.
  - now apply NoDup_app_remove_r in Nouter.
  - apply NoDup_app_intro; auto.
    + now apply NoDup_app_remove_l in Nouter.
    + intros b Hb Hb'. apply (Hcross b); auto. apply in_or_app. now right.
  - intros b Hb Hb'. apply in_app_or in Hb' as [Hb'|Hb'].
    + apply (Hcross b); auto. apply in_or_app. now left.
    + destruct (NoDup_app_inv _ _ Nouter) as (_ & _ & Hd). apply (Hd b Hb Hb').
Qed.

Lemma layers_apart_forms_neq n n' i j f g : (0 <= i)%Z -> (0 <= j)%Z -> i <> j ->
  layers_apart_forms f g = true -> form_string n i f <> form_string n' j g.
Proof.
  intros Hi Hj Hne Ha. destruct f as [|p [|] r]; try discriminate. destruct g as [|q [|] r']; try discriminate. cbn in Ha.
  rewrite !andb_true_iff, !orb_true_iff in Ha. destruct Ha as [[H1 H2] [Hp|Ha]].
  - apply String.eqb_eq in Hp as <-. cbn. intros E. apply app_str_inj_l in E.
    apply str_index_inj in E; [tauto|lia|lia|now apply stops_spec|now apply stops_spec].
  - change (form_string 0 i (FIdx p true r) <> form_string 0 j (FIdx q true r')).
    apply apart_neq; auto; try lia. cbn. rewrite !orb_true_iff. tauto.
Qed.

Lemma loading_names_forms n i a c w w' :
  ja_num a c = Ok n -> substitute a c (Some i) w = Ok w' ->
  Forall2 (fun t s => template_substitution t n (Some i) = Ok s) (loading_names w) (loading_names w').
Proof.
  intros En Hw. apply substitute_name in Hw as (n' & En' & Es & Ea). rewrite En in En'. injection En' as <-.
  unfold loading_names. constructor; auto. unfold subst_names in Ea. destruct (wi_aliases w) as [l|].
  - destruct (rmapM _ l) as [l'|] eqn:E; [|discriminate]. injection Ea as <-. now apply rmapM_Ok_Forall2 in E.
  - injection Ea as <-. constructor.
Qed.

Lemma Forall2_In_r' {A B} (P : A -> B -> Prop) l l' y : Forall2 P l l' -> In y l' -> exists x, In x l /\ P x y.
Proof.
  induction 1; cbn; [tauto|]. intros [<- | Hy]; [eauto|]. destruct (IHForall2 Hy) as (z & ? & ?). eauto.
Qed.
Lemma Forall2_In_l' {A B} (P : A -> B -> Prop) l l' x : Forall2 P l l' -> In x l -> exists y, In y l' /\ P x y.
Proof.
  induction 1; cbn; [tauto|]. intros [<- | Hy]; [eauto|]. destruct (IHForall2 Hy) as (z & ? & ?). eauto.
Qed.

Lemma layers_apart_sound a c i j wi wj x y s :
  layers_apart a = true -> (0 <= i)%Z -> (0 <= j)%Z -> i <> j ->
  ma_layer (json_module a) i c = Ok wi -> ma_layer (json_module a) j c = Ok wj ->
  In x wi -> In y wj -> In s (loading_names x) -> ~ In s (loading_names y).
Proof.
  unfold layers_apart. intros Ha Hi Hj Hne Hwi Hwj Hx Hy Hs Hs'.
  destruct (omap _ _) as [fs|] eqn:Ef; [|discriminate]. apply omap_Forall2 in Ef.
  rewrite forallb_forall in Ha.
  cbn in Hwi, Hwj. apply rmapM_Ok_Forall2 in Hwi, Hwj.
  destruct (Forall2_In_r' _ _ _ _ Hwi Hx) as (tx & Htx & Ex).
  destruct (Forall2_In_r' _ _ _ _ Hwj Hy) as (ty & Hty & Ey).
  destruct (substitute_name _ _ _ _ _ Ex) as (n & En & _).
  pose proof (loading_names_forms n i a c tx x En Ex) as Fx. pose proof (loading_names_forms n j a c ty y En Ey) as Fy.
  destruct (Forall2_In_r' _ _ _ _ Fx Hs) as (t1 & Ht1 & E1). destruct (Forall2_In_r' _ _ _ _ Fy Hs') as (t2 & Ht2 & E2).
  assert (I1 : In t1 (flat_map loading_names (ja_layer a))) by (apply in_flat_map; eauto).
  assert (I2 : In t2 (flat_map loading_names (ja_layer a))) by (apply in_flat_map; eauto).
  destruct (Forall2_In_l' _ _ _ _ Ef I1) as (f1 & Hf1 & G1). destruct (Forall2_In_l' _ _ _ _ Ef I2) as (f2 & Hf2 & G2).
  specialize (Ha f1 Hf1). rewrite forallb_forall in Ha. specialize (Ha f2 Hf2).
  assert (S1 : s = form_string n i f1) by (eapply form_of_template_subst; eauto).
  assert (S2 : s = form_string n j f2) by (eapply form_of_template_subst; eauto).
  apply (layers_apart_forms_neq n n i j f1 f2); auto. congruence.
Qed.
