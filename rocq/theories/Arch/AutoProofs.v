From Coq Require Import Permutation.
From Verif.Base Require Import Py PyFacts PyStr.
From Verif.Arch Require Import Model Spec Proofs Auto AutoSpec.
From Verif.Methods Require Import LinearProofs.
From Verif.Plan Require Import Proofs.
Local Open Scope string_scope.
Local Open Scope list_scope.

(** ** Layer numbers *)
Definition stops (s : string) : Prop := match s with "" => True | String c _ => is_digit c = false end.

Lemma span_digits_spec s : forall a b, span_digits s = (a, b) -> s = (a ++ b)%string /\ all_chars is_digit a = true /\ stops b.
Proof.
  induction s as [|c s IH]; cbn; intros a b.
  - intros [= <- <-]. now repeat split.
  - destruct (is_digit c) eqn:Hc.
    + destruct (span_digits s) as [a' b'] eqn:E. intros [= <- <-]. destruct (IH _ _ eq_refl) as (-> & H1 & H2).
      cbn. rewrite Hc. now repeat split.
    + intros [= <- <-]. now repeat split.
Qed.
Lemma span_digits_app d s : all_chars is_digit d = true -> stops s -> span_digits (d ++ s)%string = (d, s).
Proof.
  intros Hd Hs. induction d as [|c d IH]; cbn in *.
  - destruct s as [|c s]; cbn in *; [reflexivity|]. now rewrite Hs.
  - apply andb_true_iff in Hd as [Hc Hd]. rewrite Hc, (IH Hd). reflexivity.
Qed.
Lemma span_digits_dot s x : span_digits (s ++ String "." x)%string = let (a, b) := span_digits s in (a, (b ++ String "." x)%string).
Proof.
  induction s as [|c s IH]; [reflexivity|]. cbn. destruct (is_digit c); [|reflexivity].
  rewrite IH. now destruct (span_digits s).
Qed.

Lemma number_in_cons c s p d r : number_in s p d r -> number_in (String c s) (String c p) d r.
Proof. intros (-> & H1 & H2). now repeat split. Qed.

(** a number at the very start *)
Lemma number_start c s d r : number_in (String c s) "" d r ->
  c = "."%char /\ exists x d', d = String x d' /\ span_digits s = (String x d', String "." r).
Proof.
  intros (E & H1 & H2). cbn in E. injection E as -> ->. split; [reflexivity|].
  destruct d as [|x d']; [easy|]. exists x, d'. split; [reflexivity|]. now apply (span_digits_app _ (String "." r)).
Qed.

Lemma find_layer_first s : match find_layer s with
  | Some (p, d, r) => first_number s p d r
  | None => no_number s
  end.
Proof.
  induction s as [|c s IH].
  { cbn. intros p d r (E & _). destruct p; discriminate. }
  set (later := match find_layer s with Some (p, d, r) => Some (String c p, d, r) | None => None end).
  assert (Hlater : (forall d r, ~ number_in (String c s) "" d r) ->
    match later with Some (p, d, r) => first_number (String c s) p d r | None => no_number (String c s) end).
  { intros Hno. subst later. destruct (find_layer s) as [[[p d] r]|].
    - destruct IH as [Hn Hf]. split; [now apply number_in_cons|]. intros [|c' p'] d' r' Hn'; [now apply Hno in Hn'|].
      destruct Hn' as (E & H1 & H2). injection E as <- E. cbn. apply le_n_S. apply (Hf p' d' r'). now repeat split.
    - intros [|c' p] d r Hn; [now apply Hno in Hn|]. destruct Hn as (E & H1 & H2). injection E as <- E.
      apply (IH p d r). now repeat split. }
  cbn [find_layer]. fold later. destruct (Ascii.eqb_spec c ".") as [->|Hc].
  - destruct (span_digits s) as [[|x d] [|y r]] eqn:E; try (apply Hlater; intros d0 r0 Hn; apply number_start in Hn as (_ & x0 & d' & _ & E');
      rewrite E in E'; discriminate).
    destruct (Ascii.eqb_spec y ".") as [->|Hy].
    + apply span_digits_spec in E as (-> & Hd & _). split; [now repeat split|]. intros. cbn. lia.
    + apply Hlater; intros d0 r0 Hn. apply number_start in Hn as (_ & x0 & d' & _ & E'). congruence.
  - apply Hlater. intros d r Hn. apply number_start in Hn as (-> & _). congruence.
Qed.

Lemma find_layer_some s p d r : find_layer s = Some (p, d, r) -> first_number s p d r.
Proof. intros E. pose proof (find_layer_first s) as H. now rewrite E in H. Qed.
Lemma find_layer_none s : find_layer s = None <-> no_number s.
Proof.
  pose proof (find_layer_first s) as H. destruct (find_layer s) as [[[p d] r]|]; split; try easy.
  intros Hn. destruct H as [H _]. now apply Hn in H.
Qed.
Lemma digits_cut d d' r r' : all_chars is_digit d = true -> all_chars is_digit d' = true ->
  (d ++ String "." r = d' ++ String "." r')%string -> d = d' /\ r = r'.
Proof.
  intros Hd Hd' E. assert (E2 : span_digits (d ++ String "." r)%string = span_digits (d' ++ String "." r')%string) by now rewrite E.
  rewrite !span_digits_app in E2 by easy. injection E2 as -> ->. now split.
Qed.
Lemma find_layer_iff s p d r : find_layer s = Some (p, d, r) <-> first_number s p d r.
Proof.
  split; [apply find_layer_some|]. intros [Hn Hf]. pose proof (find_layer_first s) as H.
  destruct (find_layer s) as [[[p' d'] r']|]; [|now apply H in Hn]. destruct H as [Hn' Hf'].
  assert (Hl : String.length p' = String.length p) by (apply Nat.le_antisymm; eauto).
  destruct Hn as (E & H1 & H2), Hn' as (E' & H1' & H2'). rewrite E' in E.
  apply app_str_inj_len in E as [-> E]; [|exact Hl]. cbn in E. injection E as E.
  apply digits_cut in E as [-> ->]; auto.
Qed.

Lemma find_layer_change p : forall d r d', find_layer (p ++ "." ++ d ++ "." ++ r)%string = Some (p, d, r) ->
  d' <> "" -> all_chars is_digit d' = true -> find_layer (p ++ "." ++ d' ++ "." ++ r)%string = Some (p, d', r).
Proof.
  induction p as [|c p IH]; intros d r d' E Hne Hd'.
  - cbn. rewrite (span_digits_app d' (String "." r)) by easy. destruct d'; [easy|]. reflexivity.
  - cbn [String.append find_layer] in *.
    assert (Hlater : find_layer (p ++ String "." (d ++ String "." r))%string = Some (p, d, r) ->
      find_layer (p ++ String "." (d' ++ String "." r))%string = Some (p, d', r)) by (intros E1; exact (IH _ _ _ E1 Hne Hd')).
    destruct (Ascii.eqb c ".") eqn:Hc.
    + rewrite !span_digits_dot in *. destruct (span_digits p) as [[|x a] [|y b]] eqn:Es; cbn [String.append] in *.
      * destruct (find_layer (p ++ _)%string) as [[[p0 d0] r0]|] eqn:E1 in E; [|discriminate].
        injection E as -> -> ->. now rewrite (Hlater E1).
      * destruct (find_layer (p ++ _)%string) as [[[p0 d0] r0]|] eqn:E1 in E; [|discriminate].
        injection E as -> -> ->. now rewrite (Hlater E1).
      * cbn in E. discriminate.
      * destruct (Ascii.eqb y "."); [discriminate|].
        destruct (find_layer (p ++ _)%string) as [[[p0 d0] r0]|] eqn:E1 in E; [|discriminate].
        injection E as -> -> ->. now rewrite (Hlater E1).
    + destruct (find_layer (p ++ _)%string) as [[[p0 d0] r0]|] eqn:E1 in E; [|discriminate].
      injection E as -> -> ->. now rewrite (Hlater E1).
Qed.

Lemma find_layer_parts s p d r : find_layer s = Some (p, d, r) -> s = (p ++ "." ++ d ++ "." ++ r)%string.
Proof. intros E. now apply find_layer_some in E as [(E & _) _]. Qed.
Lemma find_layer_at s p d r i : find_layer s = Some (p, d, r) ->
  find_layer (layer_name p i r) = Some (p, str_of_Z (Z.of_nat i), r).
Proof.
  intros E. pose proof (find_layer_parts _ _ _ _ E) as Es. rewrite Es in E. unfold layer_name.
  eapply find_layer_change; [exact E|apply str_of_Z_nonempty|apply str_of_Z_digits; lia].
Qed.

(** ** Templates *)
Lemma plain_app a b : all_chars plain (a ++ b)%string = true -> all_chars plain a = true /\ all_chars plain b = true.
Proof. rewrite all_chars_app. intros H. now apply andb_true_iff in H. Qed.

Lemma layer_subst p r n i : all_chars plain p = true -> all_chars plain r = true ->
  template_substitution (template_name p r) n (Some (Z.of_nat i)) = Ok (layer_name p i r).
Proof.
  intros Hp Hr.
  assert (E : template_name p r = template [Text (p ++ "."); LayerIndex Zero; Text ("." ++ r)]%string).
  { unfold template, template_name. cbn. rewrite app_str_nil_r, app_str_assoc. reflexivity. }
  rewrite E, substitution_meaning.
  - unfold name_at, layer_name. cbn. rewrite app_str_nil_r, app_str_assoc. reflexivity.
  - repeat constructor; cbn; rewrite ?all_chars_app, ?Hp, ?Hr; reflexivity.
Qed.
Lemma loose_subst t n o : all_chars plain t = true -> template_substitution t n o = Ok t.
Proof.
  intros Ht. unfold template_substitution. destruct (infix "{" t); [|reflexivity].
  destruct (pieces_lits t "" Ht _ (le_n _)) as (f' & Hf' & E). rewrite app_str_nil_r in E. rewrite E, render_lits.
  replace (pieces f' "") with (@nil piece) by now destruct f'. cbn. now rewrite app_str_nil_r.
Qed.

Lemma infix_plain x s : all_chars plain s = true -> infix (String "$" x) s = false.
Proof.
  induction s as [|c s IH]; [reflexivity|]. cbn [all_chars infix]. intros H. apply andb_true_iff in H as [Hc Hs].
  rewrite (IH Hs), orb_false_r. cbn [String.prefix]. destruct (ascii_dec "$" c) as [<-|]; [discriminate|reflexivity].
Qed.
Lemma prefix_self p s : String.prefix p (p ++ s)%string = true.
Proof. induction p as [|c p IH]; cbn; [now destruct s|]. now destruct (ascii_dec c c). Qed.
Lemma infix_template p r : infix "${layer_index}" (template_name p r) = true.
Proof.
  unfold template_name. apply infix_app_l. change (infix "${layer_index}" (String "." ("${layer_index}" ++ ("." ++ r)))%string = true).
  cbn [infix]. apply orb_true_iff. right.
  destruct ("${layer_index}" ++ ("." ++ r))%string as [|c s] eqn:E; [discriminate|]. cbn [infix]. apply orb_true_iff. left. rewrite <- E.
  apply prefix_self.
Qed.

Lemma replace_plain new x s : forall f rest, all_chars plain s = true ->
  replace (String.length s + f) (String "$" x) new (s ++ rest)%string = (s ++ replace f (String "$" x) new rest)%string.
Proof.
  induction s as [|c s IH]; intros f rest Hs; [reflexivity|]. cbn [all_chars] in Hs. apply andb_true_iff in Hs as [Hc Hs].
  cbn [String.length Nat.add String.append replace]. cbn [String.prefix]. destruct (ascii_dec "$" c) as [<-|]; [discriminate|].
  f_equal. now apply IH.
Qed.
Lemma replace_plain_all new x s f : all_chars plain s = true -> (String.length s < f)%nat -> replace f (String "$" x) new s = s.
Proof.
  intros Hs Hf. replace f with (String.length s + (f - String.length s))%nat by lia.
  rewrite <- (app_str_nil_r s) at 3. rewrite replace_plain by easy. destruct (f - String.length s) eqn:E; [lia|]. cbn. apply app_str_nil_r.
Qed.
Lemma substring_drop a b : forall k, (String.length b <= k)%nat -> substring (String.length a) k (a ++ b)%string = b.
Proof.
  induction a as [|c a IH]; intros k Hk; cbn [String.length String.append substring]; [|now apply IH].
  revert k Hk. induction b as [|c b IH]; intros [|k] Hk; cbn in *; try reflexivity; [lia|]. f_equal. apply IH. lia.
Qed.
Lemma substring_0 b k : (String.length b <= k)%nat -> substring 0 k b = b.
Proof. exact (substring_drop "" b k). Qed.

Lemma replace_template p r v : all_chars plain p = true -> all_chars plain r = true ->
  replace_all "${layer_index}" v (template_name p r) = (p ++ "." ++ v ++ "." ++ r)%string.
Proof.
  intros Hp Hr. unfold replace_all, template_name.
  assert (E : exists f, S (String.length (p ++ ".${layer_index}." ++ r)%string) = (String.length p + S (S f))%nat /\ (S (String.length r) < f)%nat).
  { exists (String.length r + 15)%nat. rewrite len_app. cbn [String.length String.append]. lia. }
  destruct E as (f & -> & Hf). rewrite replace_plain by easy. f_equal.
  change (".${layer_index}." ++ r)%string with (String "." ("${layer_index}" ++ String "." r)).
  set (t := ("${layer_index}" ++ String "." r)%string). cbn [replace]. 
  change (String.prefix "${layer_index}" (String "." t)) with false. cbv iota.
  cbn [String.append]. f_equal. subst t. rewrite prefix_self.
  rewrite substring_drop by (rewrite len_app; lia). f_equal. apply (replace_plain_all v "{layer_index}" (String "." r)); [exact Hr|cbn; lia].
Qed.

(** ** Inference *)
Lemma NoDup_flat_map {A B} (f : A -> list B) l : NoDup l -> (forall x, In x l -> NoDup (f x)) ->
  (forall x y b, In x l -> In y l -> In b (f x) -> In b (f y) -> x = y) -> NoDup (flat_map f l).
Proof.
  induction 1 as [|x l Hx HN IH]; intros H1 H2; cbn; [constructor|]. apply NoDup_app_intro.
  - apply H1. now left.
  - apply IH; [intros; apply H1; now right|]. intros; eapply H2; eauto; now right.
  - intros b Hb Hb'. apply in_flat_map in Hb' as (y & Hy & Hb'). assert (x = y) by (eapply H2; eauto; [now left|now right]). now subst.
Qed.

Lemma layered_none n : layered n = false <-> no_number n.
Proof. unfold layered. rewrite <- find_layer_none. now destruct (find_layer n). Qed.

Section InferProofs.
Context {M : Type}.
Variable iter : list string -> list string.
Hypothesis Hiter : forall l, Permutation (iter l) l.
Variable can_convert : M -> string -> bool.
Variable stored : list (M * list string).
Variable I : info.

(** the names the layout comes from *)
Definition named (n : string) : Prop :=
  match i_names I with
  | Some (x :: l) => In n (x :: l)
  | _ => exists m ns, In (m, ns) stored /\ In n ns
  end.
Definition is_ignored (n : string) : Prop := match i_ignore I with Some l => In n l | None => False end.
Definition available (n : string) : Prop :=
  forall m ns, In (m, ns) stored ->
  match i_names I with Some (_ :: _) => can_convert m n = true | _ => In n ns end.

Lemma iter_In l x : In x (iter l) <-> In x l.
Proof. split; apply Permutation_in; [apply Hiter|symmetry; apply Hiter]. Qed.
Lemma iter_NoDup l : NoDup l -> NoDup (iter l).
Proof. apply Permutation_NoDup. symmetry. apply Hiter. Qed.

Lemma all_names_In n : In n (all_names stored I) <-> named n.
Proof.
  unfold all_names, use_layout, named. destruct (i_names I) as [[|x l]|]; rewrite dedup_In; [|tauto|].
  all: rewrite in_concat; split.
  1,3: intros (ns & Hns & Hn); apply in_map_iff in Hns as ([m ns'] & <- & Hm); eauto.
  all: intros (m & ns & Hm & Hn); exists ns; split; [apply in_map_iff; now exists (m, ns)|easy].
Qed.
Lemma ignored_spec n : ignored I n = true <-> is_ignored n.
Proof. unfold ignored, is_ignored. destruct (i_ignore I); [apply mem_In|easy]. Qed.
Lemma ignored_nspec n : ignored I n = false <-> ~ is_ignored n.
Proof. rewrite <- ignored_spec. now destruct (ignored I n). Qed.
Lemma target_spec n : target_present can_convert stored I n = true <-> available n.
Proof.
  unfold target_present, available, use_layout. destruct (i_names I) as [[|x l]|]; rewrite forallb_forall; split.
  1,5: intros H m ns Hm; specialize (H _ Hm); now apply mem_In in H.
  1,4: intros H [m ns] Hm; apply mem_In; eapply H; eauto.
  - intros H m ns Hm. exact (H _ Hm).
  - intros H [m ns] Hm. eapply H; eauto.
Qed.

Notation has_layer' := (has_layer named is_ignored).
Notation has_weight' := (has_weight named is_ignored).
Notation stack' := (stack named is_ignored).

Lemma layer_parts_In p d r : In (p, d, r) (layer_parts iter stored I) <->
  exists m, named m /\ ~ is_ignored m /\ first_number m p d r.
Proof.
  unfold layer_parts. rewrite in_flat_map. split.
  - intros (m & Hm & Hin). apply iter_In, all_names_In in Hm. destruct (ignored I m) eqn:Hi; [easy|].
    destruct (find_layer m) as [x|] eqn:E; [|easy]. destruct Hin as [->|[]]. exists m. apply find_layer_iff in E.
    now rewrite <- ignored_nspec.
  - intros (m & Hm & Hi & Hf). exists m. rewrite iter_In, all_names_In. split; [easy|]. apply ignored_nspec in Hi.
    apply find_layer_iff in Hf. rewrite Hi, Hf. now left.
Qed.
Lemma of_prefix_In p d r : In (d, r) (of_prefix iter stored I p) <-> In (p, d, r) (layer_parts iter stored I).
Proof.
  unfold of_prefix. rewrite in_flat_map. split.
  - intros ([[q d'] r'] & Hin & H). destruct (eqb_spec q p) as [->|]; [|easy]. now destruct H as [[= <- <-]|[]].
  - intros H. exists (p, d, r). split; [easy|]. rewrite eqb_refl. now left.
Qed.
Lemma found_In p : In p (found_prefixes iter stored I) <-> stack' p.
Proof.
  unfold found_prefixes. rewrite dedup_In, in_map_iff. split.
  - intros ([[q d] r] & <- & H). apply layer_parts_In in H as (m & Hm & Hi & Hf). eexists; exists m, r. split; [easy|].
    split; [easy|]. exists d. split; [exact Hf|reflexivity].
  - intros (k & m & r & Hm & Hi & d & Hf & Hk). exists (p, d, r). split; [reflexivity|]. apply layer_parts_In. eauto.
Qed.
Lemma max_fold l : forall a i, (i < fold_left Nat.max l a)%nat <-> (i < a)%nat \/ exists k, In k l /\ (i < k)%nat.
Proof.
  induction l as [|x l IH]; intros a i; cbn; [firstorder lia|]. rewrite IH. split.
  - intros [H|(k & Hk & H)]; [|eauto]. destruct (Nat.max_spec a x) as [[_ E]|[_ E]]; rewrite E in H; [right; exists x; auto|auto].
  - intros [H|(k & [->|Hk] & H)]; [left; lia|left; lia|eauto].
Qed.
Lemma count_spec p i : (i < prefix_count iter stored I p)%nat <-> exists k, has_layer' p k /\ (i <= k)%nat.
Proof.
  unfold prefix_count. rewrite max_fold. split.
  - intros [H|(k & Hk & H)]; [lia|]. apply in_map_iff in Hk as ([d r] & <- & Hin). apply of_prefix_In, layer_parts_In in Hin as (m & Hm & Hi & Hf).
    cbn in H. eexists; split; [|apply Nat.lt_succ_r; exact H]. exists m, r. split; [easy|]. split; [easy|]. exists d. now split.
  - intros (k & (m & r & Hm & Hi & d & Hf & Hk) & H). right. exists (S k). split; [|lia]. apply in_map_iff. exists (d, r). cbn. rewrite Hk.
    split; [reflexivity|]. apply of_prefix_In, layer_parts_In. eauto.
Qed.
Lemma templates_In p t : In t (prefix_templates iter stored I p) <-> exists r, has_weight' p r /\ t = template_name p r.
Proof.
  unfold prefix_templates. rewrite dedup_In, in_map_iff. split.
  - intros ([d r] & <- & Hin). apply of_prefix_In, layer_parts_In in Hin as (m & Hm & Hi & Hf). exists r. split; [|reflexivity].
    exists m. eexists. split; [easy|]. split; [easy|]. exists d. split; [easy|reflexivity].
  - intros (r & (m & k & Hm & Hi & d & Hf & Hk) & ->). exists (d, r). split; [reflexivity|]. apply of_prefix_In, layer_parts_In. eauto.
Qed.
Lemma templates_nil p : ~ stack' p -> prefix_templates iter stored I p = [].
Proof.
  intros Hn. destruct (prefix_templates iter stored I p) as [|t l] eqn:E; [reflexivity|]. exfalso. apply Hn.
  assert (Ht : In t (prefix_templates iter stored I p)) by (rewrite E; now left). apply templates_In in Ht as (r & (m & k & H) & _).
  exists k, m, r. exact H.
Qed.

(** modules: their key and the stack of layers they hold *)
Definition stacks : list (string * string) :=
  match found_prefixes iter stored I with
  | [p] => [("", p)]
  | ps => map (fun p => (p, p)) (iter (set_add "" ps))
  end.
Lemma modules_stacks : modules iter stored I =
  map (fun kq => (fst kq, (prefix_count iter stored I (snd kq), prefix_templates iter stored I (snd kq)))) stacks.
Proof. unfold modules, stacks. destruct (found_prefixes iter stored I) as [|p [|q l]]; rewrite ?map_map; reflexivity. Qed.
Lemma stacks_keys : NoDup (map fst stacks) /\ NoDup (map snd stacks) /\ In "" (map fst stacks).
Proof.
  unfold stacks. destruct (found_prefixes iter stored I) as [|p [|q l]] eqn:E; cbn [map fst snd]; rewrite ?map_map; cbn [fst snd].
  2: { repeat split; [repeat constructor; intros []..|now left]. }
  all: rewrite map_id; assert (HN : NoDup (iter (set_add "" (found_prefixes iter stored I))))
       by (apply iter_NoDup, set_add_NoDup, dedup_NoDup); rewrite E in HN; repeat split; auto;
       apply iter_In, set_add_In; now left.
Qed.
Lemma stacks_In k q : In (k, q) stacks -> (k = "" \/ k = q) /\ (stack' q \/ q = "").
Proof.
  unfold stacks. destruct (found_prefixes iter stored I) as [|p [|q' l]] eqn:E.
  2: { intros [[= <- <-]|[]]. split; [now left|left]. apply found_In. rewrite E. now left. }
  all: rewrite in_map_iff; intros (x & [= <- <-] & Hx); split; [now right|]; apply iter_In, set_add_In in Hx as [->|Hx]; [now right|left];
    apply found_In; now rewrite E.
Qed.
Lemma stacks_all p : stack' p -> exists k, In (k, p) stacks.
Proof.
  intros Hp. apply found_In in Hp. unfold stacks. destruct (found_prefixes iter stored I) as [|p0 [|q' l]] eqn:E; [easy| |].
  - destruct Hp as [->|[]]. exists "". now left.
  - exists p. apply in_map_iff. exists p. split; [reflexivity|]. apply iter_In, set_add_In. now right.
Qed.
Lemma stacks_two k q : In (k, q) stacks -> k <> "" -> exists p', stack' p' /\ p' <> k.
Proof.
  unfold stacks. destruct (found_prefixes iter stored I) as [|p0 [|q' l]] eqn:E.
  - rewrite in_map_iff. intros (x & [= <- <-] & Hx) Hk. apply iter_In, set_add_In in Hx as [->|[]]. easy.
  - intros [[= <- <-]|[]] Hk. easy.
  - intros _ _. assert (HN : NoDup (found_prefixes iter stored I)) by apply dedup_NoDup. rewrite E in HN. inversion HN as [|? ? Hn]; subst.
    destruct (string_dec p0 k) as [->|Hd].
    + exists q'. split; [apply found_In; rewrite E; cbn; auto|]. intros ->. apply Hn. now left.
    + exists p0. split; [apply found_In; rewrite E; cbn; auto|easy].
Qed.

(** ** The inferred definition *)
Variable re_search : string -> string -> bool.
Variables E T : list string.
Hypothesis HE : i_embed I = Some E.
Hypothesis HT : i_tied I = Some T.
Hypothesis Hplain : forall n, named n -> all_chars plain n = true.
Hypothesis Hloose : forall n p p', named n -> no_number n -> stack' p -> stack' p' -> p' <> p -> p <> "" -> String.prefix p n = false.
Hypothesis Hdef : ~ stack' "default".

Definition tied (t : string) : bool := existsb (fun p => re_search p t) T.
Definition wi_of (num : option nat) (t : string) : weight_info :=
  {| wi_name := t; wi_embed := mem t E || tied t; wi_optional := negb (template_present can_convert stored I t num) || tied t;
     wi_aliases := None; wi_dtype := None; wi_tied := None |}.
Lemma wi_ok t num : wi re_search can_convert stored I t num = Ok (wi_of num t).
Proof. unfold wi, wi_of. rewrite HE, HT. cbn. now destruct (mem t E). Qed.

Notation keys := (map fst stacks).
Definition loose (k : string) : list string := loose_of iter stored I keys k.

Lemma loose_home n : named n -> no_number n -> find (fun q => String.prefix q n) keys = Some "".
Proof.
  intros Hn Hno. destruct (find (fun q => String.prefix q n) keys) as [k|] eqn:F.
  - apply find_some in F as [Hk Hp]. f_equal. destruct (string_dec k "") as [->|Hne]; [reflexivity|].
    apply in_map_iff in Hk as ([k' q] & <- & Hk). cbn [fst] in *. destruct (stacks_two _ _ Hk Hne) as (p' & Hp' & Hd).
    destruct (stacks_In _ _ Hk) as [[?| ->] [Hs|?]]; try congruence. now rewrite (Hloose n q p') in Hp.
  - exfalso. destruct stacks_keys as (_ & _ & H0). pose proof (find_none _ _ F _ H0) as Hf. cbn in Hf. now destruct n.
Qed.
Lemma loose_In k t : In t (loose k) <-> k = "" /\ named t /\ no_number t.
Proof.
  unfold loose, loose_of. rewrite in_flat_map. split.
  - intros (n & Hn & Hin). apply iter_In, all_names_In in Hn. destruct (layered n) eqn:Hl; [easy|]. apply layered_none in Hl.
    rewrite (loose_home n Hn Hl) in Hin. destruct (eqb_spec "" k) as [<-|]; [|easy]. destruct Hin as [<-|[]].
    cbn [String.length]. rewrite substring_0 by lia. auto.
  - intros (-> & Ht & Hno). exists t. rewrite iter_In, all_names_In. split; [easy|]. pose proof (proj2 (layered_none t) Hno) as Hl.
    rewrite Hl, (loose_home t Ht Hno), eqb_refl. left. cbn [String.length]. now apply substring_0.
Qed.

Definition keep (kq : string * string) : bool :=
  negb (eqb (fst kq) "") || negb (match loose "", prefix_templates iter stored I (snd kq) with [], [] => true | _, _ => false end).
Definition kept : list (string * string) := filter keep stacks.
Definition key_of (k : string) : string := if eqb k "" then "default" else k.
Definition arch_of (kq : string * string) : json_arch :=
  {| ja_pre := map (wi_of None) (iter (dedup (loose (fst kq))));
     ja_layer := map (wi_of (Some (prefix_count iter stored I (snd kq)))) (iter (prefix_templates iter stored I (snd kq)));
     ja_post := []; ja_key := None; ja_override := Some (Z.of_nat (prefix_count iter stored I (snd kq))) |}.

Lemma key_of_inj k q k' q' : In (k, q) stacks -> In (k', q') stacks -> key_of k = key_of k' -> k = k'.
Proof.
  intros H1 H2. unfold key_of.
  assert (Hd : forall k q, In (k, q) stacks -> k <> "default").
  { clear H1 H2 k q k' q'. intros k q H ->. destruct (stacks_In _ _ H) as [[?| <-] [Hs|?]]; try discriminate. contradiction. }
  destruct (eqb_spec k ""), (eqb_spec k' ""); intros Ek; subst; auto.
  - now apply Hd in H2.
  - now apply Hd in H1.
Qed.

Lemma filter_map {A B} (f : A -> B) (p : B -> bool) l : filter p (map f l) = map f (filter (fun x => p (f x)) l).
Proof. induction l as [|x l IH]; cbn; [reflexivity|]. rewrite IH. now destruct (p (f x)). Qed.

Lemma NoDup_map_in {A B} (f : A -> B) l : (forall x y, In x l -> In y l -> f x = f y -> x = y) -> NoDup l -> NoDup (map f l).
Proof.
  induction l as [|x l IH]; intros Hf HN; cbn; [constructor|]. inversion HN as [|? ? Hx HN']; subst. constructor.
  - intros Hin. apply in_map_iff in Hin as (y & Ey & Hy). assert (y = x) by (apply Hf; [now right|now left|easy]). now subst.
  - apply IH; auto. intros; apply Hf; auto; now right.
Qed.
Lemma kept_NoDup : NoDup (map (fun kq => key_of (fst kq)) kept).
Proof.
  destruct stacks_keys as (HN & _ & _).
  assert (HN' : NoDup kept) by (apply NoDup_filter; now apply NoDup_map_inv in HN).
  assert (Hinj : forall x y, In x stacks -> In y stacks -> fst x = fst y -> x = y).
  { clear -HN. induction stacks as [|z l IH]; [easy|]. cbn in HN. inversion HN as [|? ? Hz HN']; subst.
    intros x y [->|Hx] [->|Hy] Exy; auto; exfalso; apply Hz; [rewrite Exy|rewrite <- Exy]; now apply in_map. }
  apply NoDup_map_in; [|exact HN']. intros [k q] [k' q'] Hx Hy. apply filter_In in Hx as [Hx _]. apply filter_In in Hy as [Hy _].
  cbn. intros Ek. apply Hinj; auto. eapply key_of_inj; eauto.
Qed.

Definition some_weight : Prop := exists n, named n /\ (no_number n \/ ~ is_ignored n).
Lemma kept_some : some_weight -> kept <> [].
Proof.
  intros (n & Hn & Hor) Hnil. destruct (find_layer n) as [[[p d] r]|] eqn:F.
  - apply find_layer_iff in F. assert (Hi : ~ is_ignored n) by (destruct Hor as [Hno|]; auto; destruct F as [F _]; now apply Hno in F).
    assert (Hs : has_layer' p (Z.to_nat (digits_value 0 d))) by (exists n, r; repeat split; auto; exists d; now split).
    destruct (stacks_all p) as (k & Hk); [eexists; eauto|].
    assert (In (k, p) kept); [|now rewrite Hnil in *].
    apply filter_In. split; [easy|]. unfold keep. cbn [fst snd]. apply orb_true_iff. right. apply negb_true_iff.
    destruct (loose ""); [|reflexivity]. destruct (prefix_templates iter stored I p) eqn:Et; [|reflexivity]. exfalso.
    assert (Ht : In (template_name p r) (prefix_templates iter stored I p)).
    { apply templates_In. exists r. split; [|reflexivity]. exists n. eexists. repeat split; eauto. exists d. now split. }
    now rewrite Et in Ht.
  - apply find_layer_none in F. destruct stacks_keys as (_ & _ & H0). apply in_map_iff in H0 as ([k q] & Ek & Hk). cbn in Ek. subst k.
    assert (In ("", q) kept); [|now rewrite Hnil in *].
    apply filter_In. split; [easy|]. unfold keep. cbn [fst snd]. apply orb_true_iff. right. apply negb_true_iff.
    assert (Hl : In n (loose "")) by (apply loose_In; auto). now destruct (loose "").
Qed.

Lemma infer_eq : infer iter re_search can_convert stored I =
  match kept with [] => Err ValueError | _ => Ok (map (fun kq => (key_of (fst kq), arch_of kq)) kept) end.
Proof.
  unfold infer. rewrite modules_stacks, map_map. cbn [fst]. rewrite filter_map.
  change (map (fun x : string * string => fst x) stacks) with keys. cbn [fst snd]. fold (loose "").
  change (filter _ stacks) with kept. 
  set (F := fun kq : string * string => (fst kq, (prefix_count iter stored I (snd kq), prefix_templates iter stored I (snd kq)))).
  assert (Hm : rmapM (fun m : string * (nat * list string) => let '(p, (n, ts)) := m in
                  let! pre := rmapM (fun t => wi re_search can_convert stored I t None) (iter (dedup (loose_of iter stored I keys p))) in
                  let! layer := rmapM (fun t => wi re_search can_convert stored I t (Some n)) (iter ts) in
                  Ok (if eqb p "" then "default" else p,
                      {| ja_pre := pre; ja_layer := layer; ja_post := []; ja_key := None;
                         ja_override := Some (Z.of_nat n) |})) (map F kept) = Ok (map (fun kq => (key_of (fst kq), arch_of kq)) kept)).
  { generalize kept. intros l. induction l as [|[k q] l IH]; [reflexivity|]. cbn [map]. rewrite rmapM_cons. unfold F at 1. cbn [fst snd].
    rewrite (rmapM_map _ (wi_of None)) by (intros; apply wi_ok). cbn [rbind].
    rewrite (rmapM_map _ (wi_of (Some (prefix_count iter stored I q)))) by (intros; apply wi_ok). cbn [rbind]. rewrite IH. reflexivity. }
  destruct (map F kept) as [|x l] eqn:Ek.
  - destruct kept; [reflexivity|discriminate].
  - rewrite Hm. cbn [rbind]. rewrite dict_of_nodup.
    + now destruct kept.
    + unfold dkeys. rewrite map_map. cbn [fst]. apply kept_NoDup.
Qed.

Lemma infer_ok : some_weight -> infer iter re_search can_convert stored I = Ok (map (fun kq => (key_of (fst kq), arch_of kq)) kept).
Proof. intros Hs. rewrite infer_eq. apply kept_some in Hs. now destruct kept. Qed.

(** ** The weights *)
Definition at_layer (t : string) (i : nat) : string := replace_all "${layer_index}" (str_of_Z (Z.of_nat i)) t.
Definition renamed (w : weight_info) (s : string) : weight_info :=
  {| wi_name := s; wi_embed := wi_embed w; wi_optional := wi_optional w; wi_aliases := None; wi_dtype := None; wi_tied := None |}.
Definition weights_of (kq : string * string) : list weight_info :=
  map (wi_of None) (iter (dedup (loose (fst kq)))) ++
  flat_map (fun i => map (fun t => renamed (wi_of (Some (prefix_count iter stored I (snd kq))) t) (at_layer t i))
                         (iter (prefix_templates iter stored I (snd kq)))) (seq 0 (prefix_count iter stored I (snd kq))).

Lemma has_weight_plain p r : has_weight' p r -> all_chars plain p = true /\ all_chars plain r = true.
Proof.
  intros (m & k & Hm & _ & d & [(Es & _ & _) _] & _). apply Hplain in Hm. rewrite Es in Hm. apply plain_app in Hm as [Hp Hm].
  apply plain_app in Hm as [_ Hm]. apply plain_app in Hm as [_ Hm]. apply plain_app in Hm as [_ Hm]. easy.
Qed.
Lemma at_layer_spec p r i : has_weight' p r -> at_layer (template_name p r) i = layer_name p i r.
Proof. intros Hw. apply has_weight_plain in Hw as [Hp Hr]. unfold at_layer. now rewrite replace_template. Qed.

Lemma arch_weights kq c : all_weights (json_module (arch_of kq)) c = Ok (weights_of kq).
Proof.
  destruct kq as [k q]. unfold all_weights, weights_of. cbn [json_module ma_num ja_num arch_of ja_override rbind ma_pre ma_post ma_layer ja_pre ja_post ja_layer fst snd].
  set (n := prefix_count iter stored I q). set (a := arch_of (k, q)).
  rewrite (rmapM_map _ (fun w => w)).
  2: { intros w Hw. apply in_map_iff in Hw as (t & <- & Ht). apply iter_In, dedup_In, loose_In in Ht as (_ & Ht & _).
       unfold substitute. cbn [ja_num a arch_of ja_override rbind wi_of wi_name wi_aliases wi_dtype wi_tied subst_names subst_opt].
       rewrite loose_subst by now apply Hplain. reflexivity. }
  cbn [rbind]. rewrite (rmapM_map _ (fun z => map (fun t => renamed (wi_of (Some n) t) (at_layer t (Z.to_nat z))) (iter (prefix_templates iter stored I q)))).
  2: { intros z Hz. apply in_map_iff in Hz as (i & <- & Hi). rewrite Nat2Z.id.
       rewrite (rmapM_map _ (fun w => renamed w (at_layer (wi_name w) i))); [now rewrite map_map|].
       intros w Hw. apply in_map_iff in Hw as (t & <- & Ht). apply iter_In, templates_In in Ht as (r & Hr & ->).
       unfold substitute. cbn [ja_num a arch_of ja_override rbind wi_of wi_name wi_aliases wi_dtype wi_tied subst_names subst_opt].
       destruct (has_weight_plain _ _ Hr) as [Hp Hr']. rewrite layer_subst, at_layer_spec by auto. reflexivity. }
  cbn [rbind rmapM]. rewrite map_id. f_equal. f_equal. rewrite app_nil_r. unfold layer_range. rewrite Nat2Z.id, map_map, <- flat_map_concat_map.
  apply flat_map_ext. intros i. now rewrite Nat2Z.id.
Qed.

Lemma inferred_eq c : inferred_weights (map (fun kq => (key_of (fst kq), arch_of kq)) kept) c = Ok (flat_map weights_of kept).
Proof.
  unfold inferred_weights.
  assert (Hm : rmapM (fun kv : string * json_arch => all_weights (json_module (snd kv)) c) (map (fun kq => (key_of (fst kq), arch_of kq)) kept)
    = Ok (map weights_of kept)).
  { generalize kept. intros l. induction l as [|kq l IH]; [reflexivity|]. cbn [map]. rewrite rmapM_cons. cbn [snd]. rewrite arch_weights.
    cbn [rbind]. now rewrite IH. }
  rewrite Hm. cbn. now rewrite <- flat_map_concat_map.
Qed.

(** membership, over all modules: the dropped one holds nothing *)
Lemma weights_In w : In w (flat_map weights_of kept) <->
  (exists t, named t /\ no_number t /\ w = wi_of None t) \/
  (exists p r i, has_weight' p r /\ (i < prefix_count iter stored I p)%nat /\
     w = renamed (wi_of (Some (prefix_count iter stored I p)) (template_name p r)) (layer_name p i r)).
Proof.
  rewrite in_flat_map. split.
  - intros ([k q] & _ & Hw). apply in_app_iff in Hw as [Hw|Hw]; cbn [fst snd] in Hw.
    + left. apply in_map_iff in Hw as (t & <- & Ht). apply iter_In, dedup_In, loose_In in Ht as (_ & H1 & H2). eauto.
    + right. apply in_flat_map in Hw as (i & Hi & Hw). apply in_seq in Hi. apply in_map_iff in Hw as (t & <- & Ht).
      apply iter_In, templates_In in Ht as (r & Hr & ->). exists q, r, i. rewrite at_layer_spec by easy. repeat split; auto; lia.
  - intros [(t & Ht & Hno & ->)|(p & r & i & Hr & Hi & ->)].
    + destruct stacks_keys as (_ & _ & H0). apply in_map_iff in H0 as ([k q] & Ek & Hk). cbn in Ek. subst k.
      assert (Hl : In t (loose "")) by (apply loose_In; auto).
      exists ("", q). split.
      * apply filter_In. split; [easy|]. unfold keep. cbn [fst snd]. apply orb_true_iff. right. now destruct (loose "").
      * apply in_app_iff. left. apply in_map. now apply iter_In, dedup_In.
    + assert (Hs : stack' p) by (destruct Hr as (m & k & Hm); exists k, m, r; exact Hm).
      destruct (stacks_all p Hs) as (k & Hk).
      assert (Ht : In (template_name p r) (prefix_templates iter stored I p)) by (apply templates_In; eauto).
      exists (k, p). split.
      * apply filter_In. split; [easy|]. unfold keep. cbn [fst snd]. apply orb_true_iff. right.
        destruct (loose ""); [|reflexivity]. now destruct (prefix_templates iter stored I p).
      * apply in_app_iff. right. cbn [fst snd]. apply in_flat_map. exists i. split; [apply in_seq; lia|].
        apply in_map_iff. exists (template_name p r). rewrite at_layer_spec by easy. split; [reflexivity|]. now apply iter_In.
Qed.

Lemma weight_layer p r i : has_weight' p r -> find_layer (layer_name p i r) = Some (p, str_of_Z (Z.of_nat i), r).
Proof. intros (m & k & _ & _ & d & Hf & _). apply find_layer_iff in Hf. now apply find_layer_at with (i := i) in Hf. Qed.
Lemma layer_name_inj p r i p' r' i' : has_weight' p r -> has_weight' p' r' -> layer_name p i r = layer_name p' i' r' ->
  p = p' /\ r = r' /\ i = i'.
Proof.
  intros H1 H2 En. pose proof (weight_layer p r i H1) as F1. rewrite En, (weight_layer p' r' i' H2) in F1.
  injection F1 as -> Ei ->. apply str_of_Z_inj in Ei. repeat split; lia.
Qed.
Lemma template_inj p r r' : template_name p r = template_name p r' -> r = r'.
Proof. unfold template_name. intros Et. apply app_str_inj_l in Et. now apply app_str_inj_l in Et. Qed.

Lemma weights_NoDup : NoDup (map wi_name (flat_map weights_of kept)).
Proof.
  assert (Em : map wi_name (flat_map weights_of kept) = flat_map (fun kq => iter (dedup (loose (fst kq))) ++
    flat_map (fun i => map (fun t => at_layer t i) (iter (prefix_templates iter stored I (snd kq)))) (seq 0 (prefix_count iter stored I (snd kq)))) kept).
  { generalize kept. intros l. induction l as [|kq l IH]; [reflexivity|]. cbn [flat_map]. rewrite map_app, IH. f_equal.
    unfold weights_of. rewrite map_app, map_map. cbn [wi_name wi_of]. rewrite map_id. f_equal.
    generalize (seq 0 (prefix_count iter stored I (snd kq))). intros l'. induction l' as [|i l' IH']; [reflexivity|].
    cbn [flat_map]. rewrite map_app, IH', map_map. reflexivity. }
  rewrite Em. destruct stacks_keys as (HN & HN2 & _).
  assert (Hinj : forall x y, In x stacks -> In y stacks -> snd x = snd y -> x = y).
  { clear -HN2. induction stacks as [|z l IH]; [easy|]. cbn in HN2. inversion HN2 as [|? ? Hz HN']; subst.
    intros x y [->|Hx] [->|Hy] Exy; auto; exfalso; apply Hz; [rewrite Exy|rewrite <- Exy]; now apply in_map. }
  assert (Hinj1 : forall x y, In x stacks -> In y stacks -> fst x = fst y -> x = y).
  { clear -HN. induction stacks as [|z l IH]; [easy|]. cbn in HN. inversion HN as [|? ? Hz HN']; subst.
    intros x y [->|Hx] [->|Hy] Exy; auto; exfalso; apply Hz; [rewrite Exy|rewrite <- Exy]; now apply in_map. }
  assert (Hlayer : forall q i n, In n (map (fun t => at_layer t i) (iter (prefix_templates iter stored I q))) ->
            exists r, has_weight' q r /\ n = layer_name q i r).
  { intros q i n Hin. apply in_map_iff in Hin as (t & <- & Ht). apply iter_In, templates_In in Ht as (r & Hr & ->).
    exists r. now rewrite at_layer_spec. }
  assert (Hno : forall q r i, has_weight' q r -> ~ no_number (layer_name q i r)).
  { intros q r i Hr Hn. apply find_layer_none in Hn. rewrite weight_layer in Hn by easy. discriminate. }
  apply NoDup_flat_map.
  - apply NoDup_filter. now apply NoDup_map_inv in HN.
  - intros [k q] _. cbn [fst snd]. apply NoDup_app_intro.
    + apply iter_NoDup, dedup_NoDup.
    + apply NoDup_flat_map; [apply seq_NoDup| |].
      * intros i _. apply NoDup_map_in; [|apply iter_NoDup, dedup_NoDup].
        intros t t' Ht Ht'. apply iter_In, templates_In in Ht as (r & Hr & ->). apply iter_In, templates_In in Ht' as (r' & Hr' & ->).
        rewrite !at_layer_spec by easy. intros En. apply layer_name_inj in En as (_ & -> & _); auto.
      * intros i j n _ _ Hi Hj. apply Hlayer in Hi as (r & Hr & ->). apply Hlayer in Hj as (r' & Hr' & En).
        now apply layer_name_inj in En.
    + intros n Hl Hin. apply iter_In, dedup_In, loose_In in Hl as (_ & _ & Hn). apply in_flat_map in Hin as (i & _ & Hin).
      apply Hlayer in Hin as (r & Hr & ->). now apply Hno in Hn.
  - intros [k q] [k' q'] n Hx Hy. apply filter_In in Hx as [Hx _]. apply filter_In in Hy as [Hy _]. cbn [fst snd].
    intros H1 H2. apply in_app_iff in H1 as [H1|H1]; apply in_app_iff in H2 as [H2|H2].
    + apply iter_In, dedup_In, loose_In in H1 as (-> & _). apply iter_In, dedup_In, loose_In in H2 as (-> & _). now apply Hinj1.
    + apply iter_In, dedup_In, loose_In in H1 as (_ & _ & Hn). apply in_flat_map in H2 as (i & _ & Hin).
      apply Hlayer in Hin as (r & Hr & ->). now apply Hno in Hn.
    + apply iter_In, dedup_In, loose_In in H2 as (_ & _ & Hn). apply in_flat_map in H1 as (i & _ & Hin).
      apply Hlayer in Hin as (r & Hr & ->). now apply Hno in Hn.
    + apply in_flat_map in H1 as (i & _ & Hi). apply in_flat_map in H2 as (j & _ & Hj).
      apply Hlayer in Hi as (r & Hr & ->). apply Hlayer in Hj as (r' & Hr' & En). apply layer_name_inj in En as (-> & _ & _); auto.
Qed.

Lemma present_loose t : named t -> template_present can_convert stored I t None = true <-> available t.
Proof. intros Ht. unfold template_present. rewrite infix_plain by now apply Hplain. apply target_spec. Qed.
Lemma present_layer p r : has_weight' p r ->
  template_present can_convert stored I (template_name p r) (Some (prefix_count iter stored I p)) = true <->
  (forall i k, has_layer' p k -> (i <= k)%nat -> available (layer_name p i r)).
Proof.
  intros Hr. unfold template_present. rewrite infix_template, forallb_forall. split.
  - intros H i k Hk Hi. assert (Hc : (i < prefix_count iter stored I p)%nat) by (apply count_spec; eauto).
    rewrite <- at_layer_spec by easy. apply target_spec, H. apply in_seq. lia.
  - intros H i Hi. apply in_seq in Hi. destruct (proj1 (count_spec p i)) as (k & Hk & Hik); [lia|].
    apply target_spec. change (available (at_layer (template_name p r) i)). rewrite at_layer_spec by easy. eauto.
Qed.
End InferProofs.
