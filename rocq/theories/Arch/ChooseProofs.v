(** Proofs about the choice of an architecture definition and about whole models. *)
From Coq Require Import Permutation.
From Verif.Base Require Import Py PyFacts PyStr.
From Verif.Arch Require Import Model Spec Proofs Data ShippedProofs Choose Table.
Local Open Scope string_scope.
Local Open Scope list_scope.

(** ** The table *)
Definition declares (t : list architecture) (n : string) (a : architecture) : Prop := In a t /\ In n (ar_names a).
Definition candidates (t : list architecture) (n : string) : list architecture := filter (fun a => mem n (ar_names a)) t.
Definition nonempty {A} (l : list A) : option (list A) := match l with [] => None | _ => Some l end.

Lemma nonempty_app {A} (l : list A) x : nonempty (l ++ [x]) = Some (l ++ [x]).
Proof. now destruct l. Qed.
Lemma nonempty_list {A} (l : list A) : match nonempty l with Some l => l | None => [] end = l.
Proof. now destruct l. Qed.
Lemma add_names (a : architecture) n names : NoDup names -> forall d : dict string (list architecture),
  dget (fold_left (fun d n => dset d n (match dget d n with Some l => l | None => [] end ++ [a])) names d) n =
  if mem n names then Some (match dget d n with Some l => l | None => [] end ++ [a]) else dget d n.
Proof.
  induction 1 as [|x names Hx _ IH]; intros d; cbn [fold_left mem]; [reflexivity|]. rewrite IH. destruct (eqb_spec n x) as [E|E].
  - subst x. assert (Em : mem n names = false) by (destruct (mem n names) eqn:Em; [apply mem_In in Em; contradiction|reflexivity]).
    rewrite Em, dget_dset_eq. reflexivity.
  - now rewrite !dget_dset_neq by congruence.
Qed.
Lemma lookup_candidates t n : (forall a, In a t -> NoDup (ar_names a)) -> dget (name_to_arch t) n = nonempty (candidates t n).
Proof.
  intros Hn. unfold name_to_arch.
  assert (H : forall acc (d : dict string (list architecture)), dget d n = nonempty acc ->
    dget (fold_left (fun d a => fold_left (fun d n => dset d n (match dget d n with Some l => l | None => [] end ++ [a])) (ar_names a) d) t d) n =
    nonempty (acc ++ candidates t n)); [|now apply (H [] [])].
  induction t as [|a t IH]; intros acc d Hd; cbn [fold_left candidates filter]; [now rewrite app_nil_r|].
  destruct (mem n (ar_names a)) eqn:E.
  - replace (acc ++ a :: filter (fun a => mem n (ar_names a)) t) with ((acc ++ [a]) ++ candidates t n) by now rewrite <- app_assoc.
    apply IH; [intros; apply Hn; now right|]. rewrite add_names by (apply Hn; now left). rewrite E, Hd, nonempty_list. symmetry. apply nonempty_app.
  - apply IH; [intros; apply Hn; now right|]. rewrite add_names by (apply Hn; now left). now rewrite E.
Qed.
Lemma candidates_In t n a : In a (candidates t n) <-> declares t n a.
Proof. unfold candidates, declares. rewrite filter_In, mem_In. tauto. Qed.

Definition pick (l : list architecture) (mt : string) : option architecture :=
  match l with [] => None | [a] => Some a | _ => find (fun a => eqb (ar_type a) mt) l end.
Definition chosen (t : list architecture) (n mt : string) (a : architecture) : Prop :=
  declares t n a /\ ((forall b, declares t n b -> b = a) \/ ar_type a = mt).

Lemma pick_spec t n mt :
  NoDup t -> (forall a b, declares t n a -> declares t n b -> ar_type a = ar_type b -> a = b) ->
  match pick (candidates t n) mt with Some a => chosen t n mt a | None => forall a, ~ chosen t n mt a end.
Proof.
  intros Ht Hu. assert (Hc : NoDup (candidates t n)) by now apply NoDup_filter.
  assert (HI : forall a, In a (candidates t n) <-> declares t n a) by apply candidates_In.
  destruct (candidates t n) as [|a [|b l]] eqn:E; cbn [pick].
  - intros a [Ha _]. apply HI in Ha. destruct Ha.
  - split; [apply HI; now left|]. left. intros b Hb. apply HI in Hb as [<-|[]]. reflexivity.
  - destruct (find _ (a :: b :: l)) as [x|] eqn:F.
    + apply find_some in F as [F1 F2]. apply eqb_iff in F2. split; [now apply HI|now right].
    + intros x [Hx [Ho|Ho]].
      * inversion Hc as [|? ? H1 _]; subst. apply H1. left. rewrite (Ho a), (Ho b); [reflexivity|apply HI; cbn; auto..].
      * apply HI in Hx. pose proof (find_none _ _ F _ Hx) as H. cbn beta in H. rewrite Ho, eqb_refl in H. discriminate.
Qed.
Lemma chosen_unique t n mt a b : (forall a b, declares t n a -> declares t n b -> ar_type a = ar_type b -> a = b) ->
  chosen t n mt a -> chosen t n mt b -> a = b.
Proof.
  intros Hu [Ha [H|H]] [Hb [H'|H']]; [now apply H'|symmetry; now apply H|now apply H'|]. apply Hu; congruence.
Qed.

(** ** Agreement of the models *)
Lemma declared_Some l r : declared l = Some r <-> l = map Some r.
Proof.
  revert r. induction l as [|[a|] l IH]; intros r; cbn [declared].
  - split; [intros [= <-]; reflexivity|destruct r; [reflexivity|discriminate]].
  - destruct (declared l) as [r'|] eqn:E.
    + split; [intros [= <-]; cbn; f_equal; now apply IH|]. destruct r as [|b r]; cbn; [discriminate|]. intros [= -> H]. f_equal. f_equal.
      apply IH in H. congruence.
    + split; [discriminate|]. destruct r as [|b r]; cbn; [discriminate|]. intros [= -> H]. apply IH in H. discriminate.
  - split; [discriminate|]. destruct r; discriminate.
Qed.
Lemma declared_None l : declared l = None <-> In None l.
Proof.
  induction l as [|[a|] l IH]; cbn [declared In].
  - split; [discriminate|intros []].
  - destruct (declared l); split; [discriminate|intros [H|H]; [discriminate|apply IH in H; discriminate]|intros _; right; now apply IH|reflexivity].
  - split; auto.
Qed.
Lemma same_arch_true x y : same_arch x y = true <-> x = y.
Proof. unfold same_arch. destruct (architecture_dec x y); split; intros; congruence. Qed.

(** ** Layers *)
Definition layer_name (i : Z) (r : string) : string := ("model.layers." ++ str_of_Z i ++ r)%string.
Lemma layer_name_inj i j r r' : (0 <= i)%Z -> (0 <= j)%Z -> stops r = true -> stops r' = true -> layer_name i r = layer_name j r' -> i = j /\ r = r'.
Proof.
  unfold layer_name. intros Hi Hj Hr Hr' E. apply app_str_inj_l in E.
  apply str_index_inj in E; [exact E|exact Hi|exact Hj|now apply stops_spec|now apply stops_spec].
Qed.
Lemma layered_NoDup o1 o2 n (rests : Z -> list string) :
  NoDup (o1 ++ o2) -> (forall s, In s (o1 ++ o2) -> String.prefix "model.layers." s = false) ->
  (forall i, (0 <= i < n)%Z -> NoDup (rests i)) -> (forall i r, In r (rests i) -> stops r = true) ->
  NoDup (o1 ++ concat (map (fun i => map (layer_name i) (rests i)) (layer_range n)) ++ o2).
Proof.
  intros Ho Hp Hr Hs.
  assert (Hin : forall s, In s (concat (map (fun i => map (layer_name i) (rests i)) (layer_range n))) -> String.prefix "model.layers." s = true).
  { intros s Hx. apply in_concat in Hx as (l & Hl & Hx). apply in_map_iff in Hl as (i & <- & _). apply in_map_iff in Hx as (r & <- & _). unfold layer_name. clear.
    generalize (str_of_Z i ++ r)%string. intros x. now destruct x. }
  assert (HN : NoDup (concat (map (fun i => map (layer_name i) (rests i)) (layer_range n)))).
  { apply NoDup_concat_map; [apply layer_range_NoDup|..].
    - intros i Hi. apply layer_range_In in Hi. specialize (Hr i Hi). assert (Hsi := Hs i). clear -Hr Hi Hsi. induction Hr as [|x l Hx _ IH]; cbn [map]; constructor.
      + intros Hc. apply in_map_iff in Hc as (y & E & Hy). apply layer_name_inj in E as [_ <-]; [contradiction|lia|lia|apply Hsi; now right|apply Hsi; now left].
      + apply IH. intros r H. apply Hsi. now right.
    - intros i j b Hi Hj Hne Hb Hb'. apply layer_range_In in Hi, Hj. apply in_map_iff in Hb as (r & <- & H1). apply in_map_iff in Hb' as (r' & E & H2).
      apply layer_name_inj in E as [E _]; [congruence|lia|lia|eapply Hs; eauto..]. }
  destruct (NoDup_app_inv _ _ Ho) as (H1 & H2 & H3).
  apply NoDup_app_intro; [exact H1| |].
  - apply NoDup_app_intro; [exact HN|exact H2|]. intros b Hb Hb'. apply Hin in Hb. rewrite (Hp b) in Hb; [discriminate|]. apply in_app_iff. now right.
  - intros b Hb Hb'. apply in_app_iff in Hb' as [Hb'|Hb']; [|now apply (H3 b)]. apply Hin in Hb'. rewrite (Hp b) in Hb'; [discriminate|]. apply in_app_iff. now left.
Qed.

(** the letters around a layer number hide nothing *)
Lemma infix_digits d r : all_chars is_digit d = true -> infix ".mlp." (d ++ r)%string = infix ".mlp." r.
Proof.
  induction d as [|c d IH]; cbn [String.append all_chars]; [reflexivity|]. intros H. apply andb_true_iff in H as [H1 H2].
  rewrite <- (IH H2). cbn [infix String.prefix]. destruct (Ascii.ascii_dec "." c) as [E|_]; [subst c; discriminate|reflexivity].
Qed.
Lemma infix_mlp i r : (0 <= i)%Z -> infix ".mlp." (layer_name i r) = infix ".mlp." r.
Proof.
  intros Hi. unfold layer_name.
  assert (Hd : all_chars is_digit (str_of_Z i) = true) by now apply str_of_Z_digits.
  rewrite <- (infix_digits (str_of_Z i) r Hd).
  destruct (num_head_str i) as (c & s & E & Hc). rewrite E in *. cbn [String.append].
  assert (Hm : Ascii.eqb "m" c = false) by (destruct (Ascii.eqb_spec "m" c) as [<-|]; [discriminate|reflexivity]).
  do 13 (cbn [infix]; match goal with |- context [String.prefix ".mlp." (String ?a ?b)] => let x := fresh in
    assert (x : String.prefix ".mlp." (String a b) = false) by
      (cbn [String.prefix]; repeat match goal with |- context [Ascii.ascii_dec ?u ?v] => destruct (Ascii.ascii_dec u v) as [?|?]; try discriminate; try reflexivity end;
       subst; rewrite Ascii.eqb_refl in Hm; discriminate);
    rewrite x; clear x end; cbn [orb]).
  reflexivity.
Qed.

(** ** Whole models made of JSON modules *)
Definition put_prefix (p : option string) (s : string) : string := match p with None => s | Some p => (p ++ s)%string end.
Definition put_form (p : option string) (f : form) : form :=
  match f with FLit s => FLit (put_prefix p s) | FIdx q l r => FIdx (put_prefix p q) l r end.
Definition all_templates (a : json_arch) : list weight_info := ja_pre a ++ ja_layer a ++ ja_post a.
Definition forms_of (a : json_arch) (p : option string) : option (list form) :=
  match omap (fun w => form_of_template (wi_name w)) (all_templates a) with Some l => Some (map (put_form p) l) | None => None end.
Definition across (x y : json_arch * option string) : bool :=
  match forms_of (fst x) (snd x), forms_of (fst y) (snd y) with
  | Some fs, Some gs => forallb form_ok fs && forallb form_ok gs && forallb (fun f => forallb (apart f) gs) fs
  | _, _ => false
  end.
Definition whole (l : list (json_arch * option string)) : bool :=
  forallb (fun x => unambiguous (fst x)) l && pairwise across l.

Lemma put_form_string p n i f : form_string n i (put_form p f) = put_prefix p (form_string n i f).
Proof. destruct f as [s|q l r], p as [p|]; cbn; auto. now rewrite app_str_assoc. Qed.
Lemma put_name p w : wi_name (prefix_weight p w) = put_prefix p (wi_name w).
Proof. now destruct p. Qed.
Lemma put_prefix_inj p a b : put_prefix p a = put_prefix p b -> a = b.
Proof. destruct p as [p|]; cbn; [apply app_str_inj_l|auto]. Qed.

Lemma subst_form a c n layer w w' f : ja_num a c = Ok n -> substitute a c layer w = Ok w' -> form_of_template (wi_name w) = Some f ->
  (forall i, layer = Some i -> (0 <= i)%Z) -> (is_layered f = true -> layer <> None) ->
  exists i, (0 <= i)%Z /\ wi_name w' = form_string n i f.
Proof.
  intros En Hs Hf Hl Hn. apply substitute_name in Hs as (n' & En' & Es & _). rewrite En in En'. injection En' as <-.
  exists (match layer with Some i => i | None => 0%Z end). split; [destruct layer; [auto|lia]|].
  eapply (form_of_template_subst n layer); [exact Hf| |exact Es]. intros H. destruct layer; [reflexivity|now elim (Hn H)].
Qed.
Lemma names_have_forms a c n fs ws w p : unambiguous a = true -> forms_of a p = Some fs -> ja_num a c = Ok n ->
  all_weights (json_module a) c = Ok ws -> In w ws -> exists i f, (0 <= i)%Z /\ In f fs /\ wi_name (prefix_weight p w) = form_string n i f.
Proof.
  intros Hu Hf En Hw Hin. unfold forms_of in Hf. destruct (omap _ (all_templates a)) as [gs|] eqn:Eg; [|discriminate]. injection Hf as <-.
  enough (exists i f, (0 <= i)%Z /\ In f gs /\ wi_name w = form_string n i f) as (i & f & H1 & H2 & H3).
  { exists i, (put_form p f). split; [exact H1|]. split; [now apply in_map|]. now rewrite put_name, put_form_string, H3. }
  apply omap_Forall2 in Eg.
  unfold all_weights in Hw. cbn [json_module ma_num ma_pre ma_layer ma_post] in Hw. rewrite En in Hw. cbn [rbind] in Hw.
  destruct (rmapM _ (ja_pre a)) as [wpre|] eqn:Wpre; [|discriminate]. cbn [rbind] in Hw.
  destruct (rmapM _ (layer_range n)) as [wl|] eqn:Wl; [|discriminate]. cbn [rbind] in Hw.
  destruct (rmapM _ (ja_post a)) as [wpost|] eqn:Wpost; [|discriminate]. cbn [rbind] in Hw. injection Hw as <-.
  apply rmapM_Ok_Forall2 in Wpre, Wl, Wpost.
  assert (Hnl : forall t f, In t (ja_pre a ++ ja_post a) -> form_of_template (wi_name t) = Some f -> is_layered f = false).
  { intros t f Ht Ef. unfold unambiguous in Hu.
    destruct (omap _ (ja_pre a)) as [pre|] eqn:Epre; [|discriminate]. destruct (omap _ (ja_layer a)) as [lay|]; [|discriminate].
    destruct (omap _ (ja_post a)) as [post|] eqn:Epost; [|discriminate]. rewrite !andb_true_iff in Hu. destruct Hu as [[[[[_ _] H] _] _] _].
    rewrite forallb_forall in H. apply negb_true_iff, H. apply omap_Forall2 in Epre, Epost. apply in_app_iff. apply in_app_iff in Ht as [Ht|Ht].
    - left. destruct (Forall2_In_l' _ _ _ _ Epre Ht) as (y & Hy & E). congruence.
    - right. destruct (Forall2_In_l' _ _ _ _ Epost Ht) as (y & Hy & E). congruence. }
  assert (Hone : forall t layer, In t (all_templates a) -> substitute a c layer t = Ok w -> (forall i, layer = Some i -> (0 <= i)%Z) ->
            (layer = None -> In t (ja_pre a ++ ja_post a)) -> exists i f, (0 <= i)%Z /\ In f gs /\ wi_name w = form_string n i f).
  { intros t layer Ht Hs Hl Hnone. destruct (Forall2_In_l' _ _ _ _ Eg Ht) as (f & Hfg & Ef).
    destruct (subst_form a c n layer t w f En Hs Ef Hl) as (i & Hi & E); [|eauto]. intros Hlay Hno. rewrite (Hnl t f (Hnone Hno) Ef) in Hlay. discriminate. }
  unfold all_templates in Hone. rewrite !in_app_iff in Hin. destruct Hin as [Hin|[Hin|Hin]].
  - destruct (Forall2_In_r' _ _ _ _ Wpre Hin) as (t & Ht & Hs). apply (Hone t None); auto; [apply in_app_iff; auto|discriminate|intros _; apply in_app_iff; auto].
  - apply in_concat in Hin as (l & Hl & Hin). destruct (Forall2_In_r' _ _ _ _ Wl Hl) as (i & Hi & Hli). apply rmapM_Ok_Forall2 in Hli.
    destruct (Forall2_In_r' _ _ _ _ Hli Hin) as (t & Ht & Hs). apply layer_range_In in Hi. apply (Hone t (Some i)); auto; [rewrite !in_app_iff; auto|intros ? [= <-]; lia|discriminate].
  - destruct (Forall2_In_r' _ _ _ _ Wpost Hin) as (t & Ht & Hs). apply (Hone t None); auto; [rewrite !in_app_iff; auto|discriminate|intros _; apply in_app_iff; auto].
Qed.

Definition json_entries (a : architecture) : option (list (json_arch * option string)) :=
  omap (fun kv => match me_info (snd kv) with MJson d => Some (jd_arch d, me_prefix (snd kv)) | _ => None end) (ar_modules a).

Lemma whole_sound l c (wss : list (list weight_info)) :
  whole l = true -> (forall x n, In x l -> ja_num (fst x) c = Ok n -> (0 <= n)%Z) ->
  Forall2 (fun x ws => exists l, all_weights (json_module (fst x)) c = Ok l /\ ws = map (prefix_weight (snd x)) l) l wss ->
  NoDup (map wi_name (concat wss)).
Proof.
  intros Hw Hn H. unfold whole in Hw. apply andb_true_iff in Hw as [Hu Hp]. rewrite forallb_forall in Hu.
  induction H as [|x ws l wss (lx & Hx & ->) Hl IH]; cbn [concat map]; [constructor|].
  cbn [pairwise] in Hp. apply andb_true_iff in Hp as [Hp1 Hp2]. rewrite map_app.
  assert (Hnum : forall (y : json_arch * option string) ly, all_weights (json_module (fst y)) c = Ok ly -> exists n, ja_num (fst y) c = Ok n).
  { intros y ly Hy. unfold all_weights in Hy. cbn [json_module ma_num] in Hy. destruct (ja_num (fst y) c) as [n|]; [eauto|discriminate]. }
  apply NoDup_app_intro.
  - destruct (Hnum _ _ Hx) as (n & En). pose proof (unambiguous_sound _ _ _ _ (Hu x (or_introl eq_refl)) En (Hn x n (or_introl eq_refl) En) Hx) as Hd.
    rewrite map_map. rewrite (map_ext _ (fun w => put_prefix (snd x) (wi_name w))) by (intros; apply put_name). rewrite <- map_map.
    apply FinFun.Injective_map_NoDup; [intros u v; apply put_prefix_inj|exact Hd].
  - apply IH; auto.
    + intros y Hy. apply Hu. now right.
    + intros y n Hy. apply Hn. now right.
  - intros b Hb Hb'. apply in_map_iff in Hb as (w & <- & Hw). apply in_map_iff in Hw as (u & <- & Hu').
    apply in_map_iff in Hb' as (w' & E & Hw'). apply in_concat in Hw' as (ly & Hly & Hw').
    destruct (Forall2_In_r' _ _ _ _ Hl Hly) as (y & Hy & (ly' & Hy' & ->)). apply in_map_iff in Hw' as (v & <- & Hv).
    rewrite forallb_forall in Hp1. specialize (Hp1 y Hy). unfold across in Hp1.
    destruct (forms_of (fst x) (snd x)) as [fs|] eqn:Ef; [|discriminate]. destruct (forms_of (fst y) (snd y)) as [gs|] eqn:Eg; [|discriminate].
    rewrite !andb_true_iff, !forallb_forall in Hp1. destruct Hp1 as [[Hok1 Hok2] Ha].
    destruct (Hnum _ _ Hx) as (n & En). destruct (Hnum _ _ Hy') as (n' & En').
    destruct (names_have_forms _ _ _ _ _ _ _ (Hu x (or_introl eq_refl)) Ef En Hx Hu') as (i & f & Hi & Hf & E1).
    destruct (names_have_forms _ _ _ _ _ _ _ (Hu y (or_intror Hy)) Eg En' Hy' Hv) as (j & g & Hj & Hg & E2).
    rewrite E1, E2 in E. symmetry in E. revert E. specialize (Ha f Hf). rewrite forallb_forall in Ha.
    apply apart_neq; auto; [apply (Hn x); cbn; auto|apply (Hn y); cbn; auto].
Qed.

Lemma model_weights_NoDup a l c ws :
  json_entries a = Some l -> whole l = true ->
  (forall k m n, In (k, m) (ar_modules a) -> ma_num (module_of (me_info m)) c = Ok n -> (0 <= n)%Z) ->
  model_weights a c = Ok ws -> NoDup (map wi_name ws).
Proof.
  intros He Hw Hn Hm. unfold model_weights in Hm. destruct (rmapM _ (ar_modules a)) as [wss|] eqn:E; [|discriminate]. cbn [rbind] in Hm. injection Hm as <-.
  apply rmapM_Ok_Forall2 in E. apply omap_Forall2 in He. apply (whole_sound l c); auto.
  - intros x n Hx Hj. destruct (Forall2_In_r' _ _ _ _ He Hx) as ([k m] & Hk & Hmm). cbn [snd] in Hmm. apply (Hn k m n Hk).
    destruct (me_info m) as [d| |]; try discriminate. injection Hmm as <-. exact Hj.
  - clear -He E. revert l He. induction E as [|[k m] ws ms wss Hm _ IH]; intros l He; inversion He as [|? x ? l' Hx Hl']; subst; constructor; auto.
    cbn [snd] in *. destruct (me_info m) as [d| |]; try discriminate. injection Hx as <-. cbn [module_of] in Hm. cbn [fst snd].
    destruct (all_weights (json_module (jd_arch d)) c) as [lw|]; [|discriminate]. cbn [rbind] in Hm. injection Hm as <-. eauto.
Qed.

(** ** Where the weights of a model come from *)
Lemma json_entry_module a l x : json_entries a = Some l -> In x l -> exists k m d, In (k, m) (ar_modules a) /\ me_info m = MJson d /\ x = (jd_arch d, me_prefix m).
Proof.
  intros H Hx. apply omap_Forall2 in H. destruct (Forall2_In_r' _ _ _ _ H Hx) as ([k m] & Hk & E). cbn [snd] in E.
  destruct (me_info m) as [d| |] eqn:Ei; try discriminate. injection E as <-. eauto 10.
Qed.
Lemma module_entry_json a l k m : json_entries a = Some l -> In (k, m) (ar_modules a) -> exists d, me_info m = MJson d /\ In (jd_arch d, me_prefix m) l.
Proof.
  intros H Hk. apply omap_Forall2 in H. destruct (Forall2_In_l' _ _ _ _ H Hk) as (x & Hx & E). cbn [snd] in E.
  destruct (me_info m) as [d| |] eqn:Ei; try discriminate. injection E as <-. eauto.
Qed.
Lemma weights_by_module a l c ws : json_entries a = Some l -> model_weights a c = Ok ws ->
  (forall w, In w ws -> exists x lx w0, In x l /\ all_weights (json_module (fst x)) c = Ok lx /\ In w0 lx /\ w = prefix_weight (snd x) w0) /\
  (forall x, In x l -> exists lx, all_weights (json_module (fst x)) c = Ok lx /\ forall w0, In w0 lx -> In (prefix_weight (snd x) w0) ws).
Proof.
  intros He Hm. unfold model_weights in Hm. destruct (rmapM _ (ar_modules a)) as [wss|] eqn:E; [|discriminate]. cbn [rbind] in Hm. injection Hm as <-.
  apply rmapM_Ok_Forall2 in E. split.
  - intros w Hw. apply in_concat in Hw as (lw & Hlw & Hw). destruct (Forall2_In_r' _ _ _ _ E Hlw) as ([k m] & Hk & Em). cbn [snd] in Em.
    destruct (module_entry_json a l k m He Hk) as (d & Ed & Hd). rewrite Ed in Em. cbn [module_of] in Em.
    destruct (all_weights (json_module (jd_arch d)) c) as [lx|] eqn:El; [|discriminate]. cbn [rbind] in Em. injection Em as <-. apply in_map_iff in Hw as (w0 & <- & Hw0).
    exists (jd_arch d, me_prefix m), lx, w0. auto.
  - intros x Hx. destruct (json_entry_module a l x He Hx) as (k & m & d & Hk & Ed & ->). destruct (Forall2_In_l' _ _ _ _ E Hk) as (lw & Hlw & Em). cbn [snd] in Em.
    rewrite Ed in Em. cbn [module_of fst snd] in *. destruct (all_weights (json_module (jd_arch d)) c) as [lx|] eqn:El; [|discriminate]. cbn [rbind] in Em. injection Em as <-.
    exists lx. split; [reflexivity|]. intros w0 Hw0. apply in_concat. exists (map (prefix_weight (me_prefix m)) lx). split; [exact Hlw|]. now apply in_map.
Qed.
Lemma weights_by_template a c lx : all_weights (json_module a) c = Ok lx ->
  (forall w, In w lx -> (exists t, In t (ja_pre a ++ ja_post a) /\ substitute a c None t = Ok w) \/ (exists t i, In t (ja_layer a) /\ substitute a c (Some i) t = Ok w)) /\
  (forall t, In t (ja_pre a ++ ja_post a) -> exists w, substitute a c None t = Ok w /\ In w lx).
Proof.
  intros Hw. unfold all_weights in Hw. cbn [json_module ma_num ma_pre ma_layer ma_post] in Hw. destruct (ja_num a c) as [n|]; [|discriminate]. cbn [rbind] in Hw.
  destruct (rmapM _ (ja_pre a)) as [wpre|] eqn:Wpre; [|discriminate]. cbn [rbind] in Hw.
  destruct (rmapM _ (layer_range n)) as [wl|] eqn:Wl; [|discriminate]. cbn [rbind] in Hw.
  destruct (rmapM _ (ja_post a)) as [wpost|] eqn:Wpost; [|discriminate]. cbn [rbind] in Hw. injection Hw as <-.
  apply rmapM_Ok_Forall2 in Wpre, Wl, Wpost. split.
  - intros w Hin. rewrite !in_app_iff in Hin. destruct Hin as [Hin|[Hin|Hin]].
    + left. destruct (Forall2_In_r' _ _ _ _ Wpre Hin) as (t & Ht & Hs). exists t. rewrite in_app_iff. auto.
    + right. apply in_concat in Hin as (l & Hl & Hin). destruct (Forall2_In_r' _ _ _ _ Wl Hl) as (i & Hi & Hli). apply rmapM_Ok_Forall2 in Hli.
      destruct (Forall2_In_r' _ _ _ _ Hli Hin) as (t & Ht & Hs). eauto.
    + left. destruct (Forall2_In_r' _ _ _ _ Wpost Hin) as (t & Ht & Hs). exists t. rewrite in_app_iff. auto.
  - intros t Ht. apply in_app_iff in Ht as [Ht|Ht].
    + destruct (Forall2_In_l' _ _ _ _ Wpre Ht) as (w & Hw & Hs). exists w. rewrite !in_app_iff. auto.
    + destruct (Forall2_In_l' _ _ _ _ Wpost Ht) as (w & Hw & Hs). exists w. rewrite !in_app_iff. auto.
Qed.

(** no name of the model starts with [q] *)
Definition never (q : string) (f : form) : bool :=
  match f with FLit s => negb (String.prefix q s) | FIdx p _ _ => negb (String.prefix q p) && negb (String.prefix p q) end.
Definition never_all (q : string) (l : list (json_arch * option string)) : bool :=
  forallb (fun x => unambiguous (fst x) && match forms_of (fst x) (snd x) with Some fs => forallb (never q) fs | None => false end) l.
Lemma never_sound q n i f : never q f = true -> String.prefix q (form_string n i f) = false.
Proof.
  destruct f as [s|p b r]; cbn [never form_string]; [apply negb_true_iff|]. rewrite andb_true_iff, !negb_true_iff. intros [H1 H2].
  match goal with |- ?x = false => destruct x eqn:E end; [|reflexivity]. apply prefix_split in E as (x & E). apply prefix_app_l in E as [E|E]; congruence.
Qed.
Lemma never_all_sound q a l c ws w : json_entries a = Some l -> never_all q l = true -> model_weights a c = Ok ws -> In w ws -> String.prefix q (wi_name w) = false.
Proof.
  intros He Hq Hm Hw. destruct (proj1 (weights_by_module a l c ws He Hm) w Hw) as (x & lx & w0 & Hx & Hlx & Hw0 & ->).
  unfold never_all in Hq. rewrite forallb_forall in Hq. specialize (Hq x Hx). apply andb_true_iff in Hq as [Hu Hq].
  destruct (forms_of (fst x) (snd x)) as [fs|] eqn:Ef; [|discriminate]. rewrite forallb_forall in Hq.
  assert (Hn : exists n, ja_num (fst x) c = Ok n).
  { unfold all_weights in Hlx. cbn [json_module ma_num] in Hlx. destruct (ja_num (fst x) c) as [n|]; [eauto|discriminate]. }
  destruct Hn as (n & En). destruct (names_have_forms _ _ _ _ _ _ _ Hu Ef En Hlx Hw0) as (i & f & _ & Hf & ->). now apply never_sound, Hq.
Qed.

(** ** Shared weights *)
Definition no_brace (s : string) : bool := negb (infix "{" s).
Definition found (l : list (json_arch * option string)) (required : bool) (self s : string) : bool :=
  existsb (fun y => existsb (fun v =>
    forallb no_brace (loading_names v) && negb (eqb (put_prefix (snd y) (wi_name v)) self)
    && (negb required || negb (wi_optional v)) && mem s (map (put_prefix (snd y)) (loading_names v)))
    (ja_pre (fst y) ++ ja_post (fst y))) l.
Definition shared_ok (l : list (json_arch * option string)) : bool :=
  forallb (fun x =>
    forallb (fun w => match wi_tied w with None => true | Some _ => false end) (ja_layer (fst x)) &&
    forallb (fun w => match wi_tied w with
      | None => true
      | Some [] => false
      | Some (t0 :: ts) => no_brace (wi_name w) && wi_optional w && forallb no_brace (t0 :: ts)
          && forallb (fun t => found l false (put_prefix (snd x) (wi_name w)) (put_prefix (snd x) t)) (t0 :: ts)
          && found l true (put_prefix (snd x) (wi_name w)) (put_prefix (snd x) t0)
      end) (ja_pre (fst x) ++ ja_post (fst x))) l.

Lemma no_brace_subst s n layer : no_brace s = true -> template_substitution s n layer = Ok s.
Proof. unfold no_brace, template_substitution. intros H. apply negb_true_iff in H. now rewrite H. Qed.
Lemma no_brace_names l n layer : forallb no_brace l = true -> rmapM (fun s => template_substitution s n layer) l = Ok l.
Proof.
  induction l as [|s l IH]; cbn [forallb rmapM]; [reflexivity|]. intros H. apply andb_true_iff in H as [H1 H2]. rewrite no_brace_subst by exact H1. cbn [rbind]. now rewrite IH.
Qed.
Lemma substitute_fields a c layer w w' : substitute a c layer w = Ok w' ->
  exists n, template_substitution (wi_name w) n layer = Ok (wi_name w') /\ subst_names n layer (wi_aliases w) = Ok (wi_aliases w') /\
            subst_names n layer (wi_tied w) = Ok (wi_tied w') /\ wi_optional w' = wi_optional w.
Proof.
  unfold substitute. destruct (ja_num a c) as [n|] eqn:En; [|discriminate]. cbn.
  destruct (template_substitution (wi_name w) n layer) as [s|] eqn:Es; [|discriminate]. cbn.
  destruct (subst_names n layer (wi_aliases w)) as [al|] eqn:Ea; [|discriminate]. cbn.
  destruct (subst_opt _ _ _); [|discriminate]. cbn. destruct (subst_names n layer (wi_tied w)) as [td|] eqn:Et; [|discriminate]. cbn.
  intros [= <-]. exists n. auto.
Qed.
Lemma loading_prefix p w : loading_names (prefix_weight p w) = map (put_prefix p) (loading_names w).
Proof.
  unfold loading_names. destruct p as [p|]; cbn [prefix_weight wi_name wi_aliases map put_prefix].
  - f_equal. destruct (wi_aliases w) as [[|x l]|]; reflexivity.
  - f_equal. destruct (wi_aliases w) as [l|]; [symmetry; apply map_id|reflexivity].
Qed.
Lemma optional_prefix p w : wi_optional (prefix_weight p w) = wi_optional w.
Proof. now destruct p. Qed.
Lemma found_sound a l c ws req self s : json_entries a = Some l -> model_weights a c = Ok ws -> found l req self s = true ->
  exists v, In v ws /\ wi_name v <> self /\ In s (loading_names v) /\ (req = true -> wi_optional v = false).
Proof.
  intros He Hm Hf. unfold found in Hf. apply existsb_exists in Hf as (y & Hy & Hf). apply existsb_exists in Hf as (v & Hv & Hf).
  rewrite !andb_true_iff in Hf. destruct Hf as [[[Hb Hne] Hr] Hs]. apply mem_In in Hs.
  destruct (proj2 (weights_by_module a l c ws He Hm) y Hy) as (lx & Hlx & Hin).
  destruct (proj2 (weights_by_template _ _ _ Hlx) v Hv) as (w & Hsub & Hw).
  apply substitute_fields in Hsub as (n & E1 & E2 & _ & E4).
  assert (El : loading_names w = loading_names v).
  { unfold loading_names in *. cbn [forallb] in Hb. apply andb_true_iff in Hb as [Hb1 Hb2]. rewrite no_brace_subst in E1 by exact Hb1. injection E1 as <-. f_equal.
    unfold subst_names in E2. destruct (wi_aliases v) as [al|]; [|injection E2 as <-; reflexivity]. rewrite no_brace_names in E2 by exact Hb2. cbn in E2. injection E2 as <-. reflexivity. }
  exists (prefix_weight (snd y) w). split; [now apply Hin|]. split; [|split].
  - rewrite put_name. assert (En : wi_name w = wi_name v) by (unfold loading_names in El; congruence). rewrite En. intros E. rewrite E, eqb_refl in Hne. discriminate.
  - now rewrite loading_prefix, El.
  - intros ->. cbn [negb orb] in Hr. apply negb_true_iff in Hr. now rewrite optional_prefix, E4.
Qed.
Lemma shared_sound a l c ws w ts : json_entries a = Some l -> shared_ok l = true -> model_weights a c = Ok ws -> In w ws -> wi_tied w = Some ts ->
  wi_optional w = true /\
  (forall s, In s ts -> exists v, In v ws /\ wi_name v <> wi_name w /\ In s (loading_names v)) /\
  (exists s ts' v, ts = s :: ts' /\ In v ws /\ wi_name v <> wi_name w /\ In s (loading_names v) /\ wi_optional v = false).
Proof.
  intros He Ho Hm Hw Ht. destruct (proj1 (weights_by_module a l c ws He Hm) w Hw) as (x & lx & w0 & Hx & Hlx & Hw0 & ->).
  unfold shared_ok in Ho. rewrite forallb_forall in Ho. specialize (Ho x Hx). apply andb_true_iff in Ho as [Ho1 Ho2]. rewrite forallb_forall in Ho1, Ho2.
  assert (Ht0 : exists ts0, wi_tied w0 = Some ts0 /\ ts = map (put_prefix (snd x)) ts0).
  { destruct (snd x) as [p|]; cbn [prefix_weight wi_tied put_prefix] in Ht |- *.
    - unfold prefix_names in Ht. destruct (wi_tied w0) as [[|t r]|]; try discriminate. injection Ht as <-. eexists. split; reflexivity.
    - exists ts. split; [exact Ht|symmetry; apply map_id]. }
  destruct Ht0 as (ts0 & Ht0 & ->).
  destruct (proj1 (weights_by_template _ _ _ Hlx) w0 Hw0) as [(t & Hin & Hs)|(t & i & Hin & Hs)]; apply substitute_fields in Hs as (n & E1 & _ & E3 & E4); rewrite Ht0 in E3.
  2: { specialize (Ho1 t Hin). destruct (wi_tied t); [discriminate|discriminate]. }
  specialize (Ho2 t Hin). destruct (wi_tied t) as [[|t0 tt]|]; try discriminate. rewrite !andb_true_iff in Ho2. destruct Ho2 as [[[[Hn Hopt] Hb] Hall] Hreq].
  rewrite no_brace_subst in E1 by exact Hn. injection E1 as E1. unfold subst_names in E3. rewrite no_brace_names in E3 by exact Hb. cbn [rbind] in E3. injection E3 as <-.
  rewrite E1 in *. rewrite put_name, <- E1. rewrite E1. split; [now rewrite optional_prefix, E4|]. split.
  - intros s Hsin. apply in_map_iff in Hsin as (s0 & <- & Hs0). rewrite forallb_forall in Hall. destruct (found_sound _ _ _ _ _ _ _ He Hm (Hall s0 Hs0)) as (v & H1 & H2 & H3 & _). eauto.
  - destruct (found_sound _ _ _ _ _ _ _ He Hm Hreq) as (v & H1 & H2 & H3 & H4). exists (put_prefix (snd x) t0), (map (put_prefix (snd x)) tt), v. auto 10.
Qed.
