From Verif.Base Require Import Py PyFacts PyStr.
From Verif.Arch Require Import Model Spec.
Local Open Scope string_scope.
Local Open Scope list_scope.

(** ** The scanner on written templates *)
Definition shift_id (v : string) (d : shift) : string := (v ++ shift_syntax d)%string.
Fixpoint lits (s : string) : list piece := match s with "" => [] | String c s => Lit c :: lits s end.
Definition part_pieces (p : part) : list piece :=
  match p with Text s => lits s | LayerIndex d => [Var (shift_id "layer_index" d)] | NumLayers d => [Var (shift_id "num_layers" d)] end.

Lemma pieces_lits s rest : all_chars plain s = true ->
  forall f, (String.length (s ++ rest)%string <= f)%nat ->
  exists f', (String.length rest <= f')%nat /\ pieces f (s ++ rest)%string = lits s ++ pieces f' rest.
Proof.
  induction s as [|c s IH]; cbn [all_chars]; intros Hp f Hf.
  - exists f. auto.
  - apply andb_true_iff in Hp as [Hc Hp]. destruct f as [|f]; [cbn in Hf; lia|]. cbn in Hf.
    destruct (IH Hp f ltac:(lia)) as (f' & Hf' & E). exists f'. split; auto.
    cbn. unfold plain in Hc. rewrite negb_true_iff in Hc. rewrite Hc. now rewrite E.
Qed.

Lemma pieces_var v d rest f :
  v = "layer_index" \/ v = "num_layers" ->
  (String.length rest <= f)%nat ->
  pieces (S f) (String "$" (String "{" (v ++ shift_syntax d ++ String "}" rest)))%string = Var (shift_id v d) :: pieces f rest.
Proof. intros [-> | ->] Hf; destruct d, rest; reflexivity. Qed.

Lemma pieces_template ps : Forall part_ok ps ->
  forall f, (String.length (template ps) <= f)%nat ->
  pieces f (template ps) = concat (map part_pieces ps).
Proof.
  induction 1 as [|p ps Hp _ IH]; intros f Hf; unfold template in *; cbn [map cat fold_right concat] in *.
  - destruct f; reflexivity.
  - change (fold_right String.append "" (map written ps)) with (template ps) in *.
    destruct p as [s|d|d].
    + destruct (pieces_lits s (template ps) Hp f Hf) as (f' & Hf' & E).
      cbn [written part_pieces]. rewrite E. f_equal. now apply IH.
    + assert (E : (written (LayerIndex d) ++ template ps)%string =
                  String "$" (String "{" ("layer_index" ++ shift_syntax d ++ String "}" (template ps)))%string).
      { destruct d; reflexivity. }
      rewrite E in Hf |- *. destruct f as [|f]; [cbn in Hf; lia|]. cbn [String.length] in Hf. rewrite !len_app in Hf. cbn [String.length] in Hf.
      rewrite pieces_var by (auto || lia). cbn [part_pieces app]. f_equal. apply IH. change (String.length (template ps) <= f)%nat. lia.
    + assert (E : (written (NumLayers d) ++ template ps)%string =
                  String "$" (String "{" ("num_layers" ++ shift_syntax d ++ String "}" (template ps)))%string).
      { destruct d; reflexivity. }
      rewrite E in Hf |- *. destruct f as [|f]; [cbn in Hf; lia|]. cbn [String.length] in Hf. rewrite !len_app in Hf. cbn [String.length] in Hf.
      rewrite pieces_var by (auto || lia). cbn [part_pieces app]. f_equal. apply IH. change (String.length (template ps) <= f)%nat. lia.
Qed.

Lemma render_lits e s ps : render e (lits s ++ ps) = let! r := render e ps in Ok (s ++ r)%string.
Proof.
  induction s as [|c s IH]; cbn; [destruct (render e ps); reflexivity|]. rewrite IH. destruct (render e ps); reflexivity.
Qed.

Lemma dget_layer n i d : dget (subst_env n (Some i)) (shift_id "layer_index" d) = Some (shift_by d i).
Proof. destruct d; reflexivity. Qed.
Lemma dget_num n o d : dget (subst_env n o) (shift_id "num_layers" d) = Some (shift_by d n).
Proof. destruct d, o; reflexivity. Qed.

Lemma render_template n i ps : render (subst_env n (Some i)) (concat (map part_pieces ps)) = Ok (name_at n i ps).
Proof.
  induction ps as [|p ps IH]; [reflexivity|]. cbn [map concat]. unfold name_at in *. cbn [map cat fold_right].
  change (fold_right String.append "" (map (meaning n i) ps)) with (cat (map (meaning n i) ps)).
  destruct p as [s|d|d]; cbn [part_pieces app].
  - rewrite render_lits, IH. reflexivity.
  - cbn [render]. rewrite dget_layer, IH. reflexivity.
  - cbn [render]. rewrite dget_num, IH. reflexivity.
Qed.

Lemma infix_app_l (a b s : string) : infix s b = true -> infix s (a ++ b)%string = true.
Proof. intros Hi. induction a as [|c a IH]; [exact Hi|]. cbn [infix String.append]. rewrite IH. apply orb_true_r. Qed.

Lemma infix_brace_cons c s : infix "{" (String c s) = (Ascii.eqb c "{" || infix "{" s).
Proof.
  cbn [infix]. f_equal. cbn [String.prefix]. destruct (ascii_dec "{" c) as [<-|Hn].
  - destruct s; reflexivity.
  - symmetry. apply Ascii.eqb_neq. congruence.
Qed.
Lemma infix_brace_app a b : infix "{" (a ++ b)%string = infix "{" a || infix "{" b.
Proof. induction a as [|c a IH]; [reflexivity|]. cbn [String.append]. rewrite !infix_brace_cons, IH. apply orb_assoc. Qed.

Lemma written_brace p : infix "{" (written p) = match p with Text s => infix "{" s | _ => true end.
Proof. destruct p as [s|d|d]; [reflexivity|destruct d; reflexivity..]. Qed.

(** no brace at all: the template is returned unchanged; it then has no variable and means itself *)
Lemma template_no_brace ps n i : infix "{" (template ps) = false -> template ps = name_at n i ps.
Proof.
  induction ps as [|p ps IH]; [reflexivity|]. unfold template, name_at in *. cbn [map cat fold_right].
  change (fold_right String.append "" (map written ps)) with (cat (map written ps)).
  change (fold_right String.append "" (map (meaning n i) ps)) with (cat (map (meaning n i) ps)).
  rewrite infix_brace_app, written_brace. intros Hb. apply orb_false_iff in Hb as [H1 H2].
  rewrite (IH H2). destruct p; try discriminate. reflexivity.
Qed.

Lemma substitution_meaning ps n i : Forall part_ok ps ->
  template_substitution (template ps) n (Some i) = Ok (name_at n i ps).
Proof.
  intros Hps. unfold template_substitution. destruct (infix "{" (template ps)) eqn:Hb.
  - rewrite pieces_template by auto. apply render_template.
  - f_equal. now apply template_no_brace.
Qed.

(** ** Injectivity *)
Fixpoint dashes (s : string) : nat :=
  match s with "" => 0 | String c s => (if Ascii.eqb c "-" then 1 else 0) + dashes s end.
Lemma dashes_app a b : dashes (a ++ b)%string = (dashes a + dashes b)%nat.
Proof. induction a as [|c a IH]; cbn; [reflexivity|]. rewrite IH. lia. Qed.
Lemma dashes_digits s : all_chars is_digit s = true -> dashes s = 0.
Proof.
  induction s as [|c s IH]; cbn; [reflexivity|]. intros H. apply andb_true_iff in H as [Hc Hs].
  rewrite (IH Hs). destruct (Ascii.eqb_spec c "-") as [->|]; [discriminate|reflexivity].
Qed.

(** at layer 0 every [layer_index-1] prints "-1"; elsewhere nothing depending on the layer prints a dash *)
Lemma dashes_le n i ps : (0 < i)%Z -> (dashes (name_at n i ps) <= dashes (name_at n 0 ps))%nat /\
  (In (LayerIndex Minus1) ps -> (dashes (name_at n i ps) < dashes (name_at n 0 ps))%nat).
Proof.
  intros Hi. induction ps as [|p ps [IH1 IH2]]; [cbn; split; [lia|tauto]|].
  unfold name_at in *. cbn [map cat fold_right].
  change (fold_right String.append "" (map (meaning n i) ps)) with (cat (map (meaning n i) ps)).
  change (fold_right String.append "" (map (meaning n 0) ps)) with (cat (map (meaning n 0) ps)).
  rewrite !dashes_app.
  assert (Hp : (dashes (meaning n i p) <= dashes (meaning n 0 p))%nat /\
               (p = LayerIndex Minus1 -> (dashes (meaning n i p) < dashes (meaning n 0 p))%nat)).
  { destruct p as [s|d|d]; cbn [meaning]; try (split; [lia|discriminate]).
    rewrite (dashes_digits (str_of_Z (shift_by d i))) by (apply str_of_Z_digits; destruct d; cbn; lia).
    split; [lia|]. intros [= ->]. cbn. lia. }
  split; [lia|]. intros [-> | Hin]; [destruct Hp as [_ Hp]; specialize (Hp eq_refl); lia|]. specialize (IH2 Hin). lia.
Qed.

Lemma shift_by_eq d i j : shift_by d i = shift_by d j -> i = j.
Proof. destruct d; cbn; lia. Qed.

Lemma lengths_mono n i j ps : (0 <= i <= j)%Z ->
  (In (LayerIndex Minus1) ps -> (0 < i)%Z) ->
  (String.length (name_at n i ps) <= String.length (name_at n j ps))%nat.
Proof.
  intros Hij. induction ps as [|p ps IH]; [cbn; lia|]. intros Hm. unfold name_at in *. cbn [map cat fold_right].
  change (fold_right String.append "" (map (meaning n i) ps)) with (cat (map (meaning n i) ps)).
  change (fold_right String.append "" (map (meaning n j) ps)) with (cat (map (meaning n j) ps)).
  rewrite !len_app. assert (IH' := IH (fun H => Hm (or_intror H))).
  enough (String.length (meaning n i p) <= String.length (meaning n j p))%nat by lia.
  destruct p as [s|d|d]; cbn [meaning]; try lia. apply str_of_Z_mono.
  destruct d; cbn; try lia. specialize (Hm (or_introl eq_refl)). lia.
Qed.

Lemma aligned_inj n i j ps : (0 <= i <= j)%Z ->
  (In (LayerIndex Minus1) ps -> (0 < i)%Z) ->
  name_at n i ps = name_at n j ps -> has_layer_index ps -> i = j.
Proof.
  intros Hij Hm He [d Hd]. revert Hm He Hd. induction ps as [|p ps IH]; [cbn; tauto|]. intros Hm He Hd.
  unfold name_at in He. cbn [map cat fold_right] in He.
  change (fold_right String.append "" (map (meaning n i) ps)) with (name_at n i ps) in He.
  change (fold_right String.append "" (map (meaning n j) ps)) with (name_at n j ps) in He.
  pose proof (lengths_mono n i j ps Hij (fun H => Hm (or_intror H))) as Hl.
  pose proof (lengths_mono n i j [p] Hij ltac:(intros [E|[]]; apply Hm; left; exact E)) as Hl2.
  unfold name_at in Hl2. cbn [map cat fold_right] in Hl2. rewrite !app_str_nil_r in Hl2.
  assert (Hlen : String.length (meaning n i p) = String.length (meaning n j p)).
  { apply (f_equal String.length) in He. rewrite !len_app in He. lia. }
  destruct (app_str_inj_len _ _ _ _ Hlen He) as [E1 E2].
  destruct Hd as [-> | Hd].
  - cbn [meaning] in E1. apply str_of_Z_inj in E1. now apply shift_by_eq in E1.
  - apply IH; auto. intros H. apply Hm. now right.
Qed.

Lemma name_at_inj_lt n i j ps : (0 <= i < j)%Z -> has_layer_index ps -> name_at n i ps <> name_at n j ps.
Proof.
  intros Hij Hl He. destruct (Z.eq_dec i 0) as [-> | Hi].
  - destruct (dashes_le n j ps ltac:(lia)) as [_ Hd].
    assert (Hnm : ~ In (LayerIndex Minus1) ps). { intros H. specialize (Hd H). rewrite He in Hd. lia. }
    enough (0 = j)%Z by lia. apply (aligned_inj n 0 j ps); auto; [lia|tauto].
  - enough (i = j)%Z by lia. apply (aligned_inj n i j ps); auto; lia.
Qed.

Lemma name_at_inj n i j ps : (0 <= i)%Z -> (0 <= j)%Z -> i <> j -> has_layer_index ps -> name_at n i ps <> name_at n j ps.
Proof.
  intros Hi Hj Hne Hl. destruct (Z_lt_le_dec i j).
  - apply name_at_inj_lt; auto.
  - intros E. symmetry in E. revert E. apply name_at_inj_lt; auto. lia.
Qed.

(** ** Prefixes *)
Lemma plain_prefix p t n layer :
  all_chars plain p = true -> infix "{" p = false ->
  template_substitution (p ++ t)%string n layer = rmap (String.append p) (template_substitution t n layer).
Proof.
  intros Hp Hb. unfold template_substitution. rewrite infix_brace_app, Hb. cbn [orb].
  destruct (infix "{" t); [|reflexivity].
  destruct (pieces_lits p t Hp _ (le_n _)) as (f' & Hf' & E). rewrite E, render_lits.
  assert (Hfuel : forall f s g, (String.length s <= f)%nat -> (String.length s <= g)%nat -> pieces f s = pieces g s).
  { clear. induction f as [|f IH]; intros s g Hf Hg.
    - destruct s; [destruct g; reflexivity|cbn in Hf; lia].
    - destruct s as [|c s]; [destruct g; reflexivity|]. destruct g as [|g]; [cbn in Hg; lia|].
      cbn in Hf, Hg. cbn [pieces]. destruct (Ascii.eqb c "$").
      + destruct s as [|d s]; [reflexivity|]. destruct (Ascii.eqb d "$").
        * f_equal. cbn in Hf, Hg. apply IH; lia.
        * assert (Hspan : forall s a b, span_id s = (a, b) -> (String.length b <= String.length s)%nat).
          { clear. induction s as [|c s IH]; cbn; intros a b.
            - intros [= <- <-]. cbn. lia.
            - destruct (id_char c); [|intros [= <- <-]; cbn; lia].
              destruct (span_id s) as [a' b'] eqn:E. intros [= <- <-]. specialize (IH _ _ eq_refl). lia. }
          assert (Hmatch : forall s id r, match_id s = Some (id, r) -> (String.length r < String.length s)%nat).
          { clear -Hspan. intros [|c s] id r; cbn; [discriminate|]. destruct (id_start c); [|discriminate].
            destruct (span_id s) as [a b] eqn:E. apply Hspan in E.
            destruct b as [|o [|one b']]; try (intros [= <- <-]; cbn in *; lia).
            destruct ((_ || _) && _); intros [= <- <-]; cbn in *; lia. }
          destruct (Ascii.eqb d "{").
          -- destruct (match_id s) as [[id [|e rest]]|] eqn:E; try reflexivity.
             destruct (Ascii.eqb e "}"); [|reflexivity]. f_equal. apply Hmatch in E. cbn in E, Hf, Hg. apply IH; lia.
          -- destruct (match_id (String d s)) as [[id rest]|] eqn:E; [|reflexivity].
             f_equal. apply Hmatch in E. apply IH; lia.
      + f_equal. apply IH; lia. }
  rewrite (Hfuel f' t (String.length t)) by lia.
  destruct (render _ _); reflexivity.
Qed.

(** ** Forms: what the templates in the shipped files look like *)
Inductive form := FLit (s : string) | FIdx (pre : string) (layer : bool) (rest : string).

Fixpoint only_lits (ps : list piece) : option string :=
  match ps with
  | [] => Some ""
  | Lit c :: ps => option_map (String c) (only_lits ps)
  | _ => None
  end.
Fixpoint form_of (acc : string) (ps : list piece) : option form :=
  match ps with
  | [] => Some (FLit acc)
  | Lit c :: ps => form_of (acc ++ String c "")%string ps
  | Var id :: ps =>
      match only_lits ps with
      | Some r => if String.eqb id "layer_index" then Some (FIdx acc true r)
                  else if String.eqb id "num_layers" then Some (FIdx acc false r) else None
      | None => None
      end
  | Bad :: _ => None
  end.
Definition form_of_template (t : string) : option form :=
  if infix "{" t then form_of "" (pieces (String.length t) t) else Some (FLit t).

Definition form_string (n i : Z) (f : form) : string :=
  match f with FLit s => s | FIdx p l r => (p ++ str_of_Z (if l then i else n) ++ r)%string end.
Definition is_layered (f : form) : bool := match f with FIdx _ true _ => true | _ => false end.

Lemma only_lits_render e ps r : only_lits ps = Some r -> render e ps = Ok r.
Proof.
  revert r; induction ps as [|[c|id|] ps IH]; cbn; intros r; try discriminate.
  - intros [= <-]. reflexivity.
  - destruct (only_lits ps) as [r'|]; [|discriminate]. intros [= <-]. rewrite (IH _ eq_refl). reflexivity.
Qed.

Lemma form_of_render n layer i acc ps f :
  form_of acc ps = Some f -> (is_layered f = true -> layer = Some i) ->
  exists s, render (subst_env n layer) ps = Ok s /\ (acc ++ s)%string = form_string n i f.
Proof.
  revert acc; induction ps as [|[c|id|] ps IH]; cbn [form_of render]; intros acc Hf Hl; try discriminate.
  - injection Hf as <-. exists "". rewrite app_str_nil_r. auto.
  - destruct (IH _ Hf Hl) as (s & E1 & E2). exists (String c s). rewrite E1. split; [reflexivity|].
    rewrite <- E2, app_str_assoc. reflexivity.
  - destruct (only_lits ps) as [r|] eqn:Er; [|discriminate].
    destruct (String.eqb_spec id "layer_index") as [->|].
    + injection Hf as <-. rewrite (Hl eq_refl).
      pose proof (dget_layer n i Zero) as Hd. cbn [shift_id shift_syntax] in Hd.
      change (shift_id "layer_index" Zero) with "layer_index" in Hd. rewrite Hd.
      rewrite (only_lits_render _ _ _ Er). eexists. split; reflexivity.
    + destruct (String.eqb_spec id "num_layers") as [->|]; [|discriminate]. injection Hf as <-.
      pose proof (dget_num n layer Zero) as Hd. change (shift_id "num_layers" Zero) with "num_layers" in Hd. rewrite Hd.
      rewrite (only_lits_render _ _ _ Er). eexists. split; reflexivity.
Qed.

Lemma form_of_template_subst n layer i t f s :
  form_of_template t = Some f -> (is_layered f = true -> layer = Some i) ->
  template_substitution t n layer = Ok s -> s = form_string n i f.
Proof.
  unfold form_of_template, template_substitution. destruct (infix "{" t); intros Hf Hl Hs.
  - destruct (form_of_render n layer i _ _ _ Hf Hl) as (s' & E1 & E2). rewrite E1 in Hs. injection Hs as <-. exact E2.
  - injection Hf as <-. injection Hs as <-. reflexivity.
Qed.

(** ** Checking that forms never collide *)
Definition num_head (c : ascii) : bool := is_digit c || Ascii.eqb c "-".
(** [a] is [p] followed by something that could be a number *)
Fixpoint number_after (p a : string) : bool :=
  match p, a with
  | "", String c _ => num_head c
  | String x p, String y a => Ascii.eqb x y && number_after p a
  | _, _ => false
  end.
Fixpoint ends_with (r a : string) : bool :=
  String.eqb r a || match a with "" => false | String _ a => ends_with r a end.
Definition stops (r : string) : bool := match r with "" => true | String c _ => negb (is_digit c) end.

Definition form_ok (f : form) : bool := match f with FIdx _ _ r => stops r | _ => true end.

(** no matter which numbers are put in, the two never give the same string *)
Definition apart (f g : form) : bool :=
  match f, g with
  | FLit a, FLit b => negb (String.eqb a b)
  | FLit a, FIdx p _ r => negb (number_after p a) || negb (ends_with r a)
  | FIdx p _ r, FLit a => negb (number_after p a) || negb (ends_with r a)
  | FIdx p l r, FIdx q m r' =>
      (String.eqb p q && negb (String.eqb r r'))
      || (negb (String.prefix p q) && negb (String.prefix q p))
      || (negb (String.eqb p q) && negb (number_after p q) && negb (number_after q p))
  end.

Lemma num_head_str z : exists c s, str_of_Z z = String c s /\ num_head c = true.
Proof.
  unfold str_of_Z. destruct (Z.ltb_spec z 0).
  - eexists _, _. split; [reflexivity|reflexivity].
  - destruct (digits_head (S (Z.to_nat (Z.log2 z))) z) as (c & s & E & Hc); try lia. exists c, s. split; auto.
    unfold num_head. now rewrite Hc.
Qed.

Lemma number_after_app p z r : number_after p (p ++ str_of_Z z ++ r)%string = true.
Proof.
  induction p as [|c p IH]; cbn.
  - destruct (num_head_str z) as (c & s & E & Hc). rewrite E. cbn. auto.
  - rewrite Ascii.eqb_refl. exact IH.
Qed.

Lemma ends_with_app a r : ends_with r (a ++ r)%string = true.
Proof.
  induction a as [|c a IH]; cbn [String.append].
  - destruct r; cbn [ends_with]; now rewrite String.eqb_refl.
  - cbn [ends_with]. rewrite IH. apply orb_true_r.
Qed.

Lemma prefix_app_l p q x y : (p ++ x = q ++ y)%string -> String.prefix p q = true \/ String.prefix q p = true.
Proof.
  revert q; induction p as [|c p IH]; intros [|d q]; cbn; auto. intros [= -> E].
  destruct (ascii_dec d d); [|congruence]. apply IH. exact E.
Qed.

Lemma prefix_split p q : String.prefix p q = true -> exists x, q = (p ++ x)%string.
Proof.
  revert q; induction p as [|c p IH]; intros [|d q]; cbn; try discriminate; try (intros _; eexists; reflexivity).
  destruct (ascii_dec c d) as [->|]; [|discriminate]. intros Hp. destruct (IH _ Hp) as [x ->]. now exists x.
Qed.

Lemma number_after_cons p c x : number_after p (p ++ String c x)%string = num_head c.
Proof. induction p as [|d p IH]; cbn; [reflexivity|]. now rewrite Ascii.eqb_refl. Qed.

Lemma idx_prefix_conflict p x z r z' r' :
  (p ++ str_of_Z z ++ r)%string = ((p ++ x) ++ str_of_Z z' ++ r')%string ->
  x = "" \/ number_after p (p ++ x) = true.
Proof.
  rewrite app_str_assoc. intros E. apply app_str_inj_l in E. destruct x as [|c x]; [auto|]. right.
  destruct (num_head_str z) as (d & s & E' & Hd). rewrite E' in E. injection E as -> _.
  now rewrite number_after_cons.
Qed.

Lemma stops_spec r : stops r = true -> match r with "" => True | String c _ => is_digit c = false end.
Proof. destruct r; cbn; [auto|]. now rewrite negb_true_iff. Qed.

Lemma apart_neq n i n' j f g :
  (0 <= n)%Z -> (0 <= n')%Z -> (0 <= i)%Z -> (0 <= j)%Z -> form_ok f = true -> form_ok g = true -> apart f g = true ->
  form_string n i f <> form_string n' j g.
Proof.
  intros Hn Hn' Hi Hj Hf Hg Ha He. destruct f as [a|p l r], g as [b|q m r']; cbn [apart form_string form_ok] in *.
  - rewrite negb_true_iff, String.eqb_neq in Ha. auto.
  - rewrite He, number_after_app, <- app_str_assoc, ends_with_app in Ha. discriminate.
  - rewrite <- He, number_after_app, <- app_str_assoc, ends_with_app in Ha. discriminate.
  - assert (Hz : (0 <= (if l then i else n))%Z) by (destruct l; lia).
    assert (Hz' : (0 <= (if m then j else n'))%Z) by (destruct m; lia).
    set (z := if l then i else n) in *. set (z' := if m then j else n') in *. clearbody z z'.
    rewrite !orb_true_iff, !andb_true_iff, !negb_true_iff in Ha. destruct Ha as [[[Hp Hr]|[H1 H2]]|[[H1 H2] H3]].
    + apply String.eqb_eq in Hp as ->. apply String.eqb_neq in Hr. apply app_str_inj_l in He.
      apply str_index_inj in He; [tauto|assumption|assumption|now apply stops_spec|now apply stops_spec].
    + destruct (prefix_app_l _ _ _ _ He); congruence.
    + apply String.eqb_neq in H1.
      destruct (prefix_app_l _ _ _ _ He) as [Hp|Hp]; apply prefix_split in Hp as [x ->].
      * apply idx_prefix_conflict in He as [-> | He]; [|congruence]. now rewrite app_str_nil_r in H1.
      * symmetry in He. apply idx_prefix_conflict in He as [-> | He]; [|congruence]. now rewrite app_str_nil_r in H1.
Qed.

Lemma layered_neq n n' i j f : (0 <= i)%Z -> (0 <= j)%Z -> form_ok f = true -> is_layered f = true -> i <> j ->
  form_string n i f <> form_string n' j f.
Proof.
  intros Hi Hj Hf Hl Hne. destruct f as [a|p [|] r]; try discriminate. cbn in *. intros He.
  apply app_str_inj_l in He. apply str_index_inj in He; [tauto|assumption|assumption|now apply stops_spec|now apply stops_spec].
Qed.
