(** C67: the files that go with the weights. *)
From Coq Require Import Permutation.
From Verif.Base Require Import Py PyFacts PyStr.
From Verif.Common Require Import Model.
From Verif.Finish Require Import Model Spec Proofs.
Local Open Scope string_scope.
Local Open Scope list_scope.

Section C67.
Context {M C Tok : Type}.
Variable load_tokenizer : bool -> M -> result Tok.
Variable template_of : Tok -> template_value.
Variable set_template : Tok -> string -> Tok.
Variable saved_files : Tok -> result (dict string C).
Variable shipped : dict string string.
Variable name_max path_max : nat.
Variable on_disk : M -> option (dict string C).
Variable repository : M -> result (dict string C).
Variable merged : M -> result M.
Notation set_chat_template := (set_chat_template load_tokenizer template_of set_template shipped name_max path_max).
Notation finish := (finish load_tokenizer template_of set_template saved_files shipped name_max path_max on_disk repository merged).
Notation ballot := (ballot load_tokenizer template_of).
Notation donor_dir := (donor_dir on_disk repository merged).
Notation donor_files := (donor_files on_disk repository merged).

(** ** The chat template *)
(** [auto]: the template that most models have, the one seen first among equals; the tokenizer's own if no model has one. *)
Theorem C67_auto refs tok :
  exists l, ballot refs l /\
    ((l = [] /\ set_chat_template (Some "auto") refs tok = Ok tok) \/
     (exists t, wins t l /\ set_chat_template (Some "auto") refs tok = Ok (set_template tok t))).
Proof.
  exists (flat_map (vote load_tokenizer template_of) refs). split; [now apply ballot_votes|].
  cbn [Model.set_chat_template]. change (eqb "auto" "auto") with true. cbv iota. destruct (flat_map _ refs) as [|v l]; [now left|right].
  eexists. split; [apply most_common_wins|reflexivity].
Qed.
(** A template with more votes than every other one is chosen whatever the order of the models. *)
Theorem C67_auto_order refs refs' tok l t : Permutation refs refs' -> ballot refs l -> In t l ->
  (forall t', t' <> t -> (votes t' l < votes t l)%nat) ->
  set_chat_template (Some "auto") refs' tok = Ok (set_template tok t).
Proof.
  intros Hp Hb Ht Hs. destruct (ballot_perm _ _ _ _ _ Hp Hb) as (l' & Hb' & Hl). destruct (C67_auto refs' tok) as (l'' & Hb'' & H).
  apply ballot_votes in Hb'. apply ballot_votes in Hb''. subst l''. rewrite <- Hb' in H. destruct H as [[-> _]|(t' & (_ & Hm & _) & E)].
  - apply Permutation_sym, Permutation_nil in Hl. subst. easy.
  - destruct (string_dec t' t) as [->|Hn]; [exact E|]. specialize (Hs t' Hn). specialize (Hm t). rewrite !(votes_perm _ _ _ Hl) in Hs. lia.
Qed.
(** Otherwise: a shipped template by its name, or a text of at least twenty characters with a brace. *)
Definition within_limits (ct : string) : Prop :=
  (String.length (first_component (ct ++ ".jinja")) <= name_max /\ String.length (ct ++ ".jinja")%string <= path_max)%nat.
Theorem C67_named ct refs tok tok' : ct <> "auto" -> ct <> "" -> within_limits ct ->
  (set_chat_template (Some ct) refs tok = Ok tok' <->
   exists text, tok' = set_template tok text /\
     (dget shipped (ct ++ ".jinja")%string = Some text \/
      dget shipped (ct ++ ".jinja")%string = None /\ text = ct /\ (20 <= String.length ct)%nat /\ infix "{" ct = true)).
Proof.
  intros Ha He [H1 H2]. destruct ct as [|c ct]; [congruence|]. set (s := String c ct) in *. cbn [Model.set_chat_template]. fold s.
  destruct (eqb_spec s "auto"); [contradiction|]. unfold lookup.
  rewrite (proj2 (Nat.ltb_ge _ _) H1), (proj2 (Nat.ltb_ge _ _) H2). cbn [orb rbind].
  destruct (dget shipped (s ++ ".jinja")%string) as [text|] eqn:D.
  - split; [intros [= <-]; eauto|]. intros (x & -> & [[= ->]|(H & _)]); [reflexivity|discriminate].
  - destruct (Nat.ltb_spec (String.length s) 20) as [Hl|Hl]; cbn [orb].
    + split; [discriminate|]. intros (x & -> & [H|(_ & _ & H & _)]); [discriminate|lia].
    + destruct (infix "{" s) eqn:Hb; cbn [negb].
      * split; [intros [= <-]; eauto 10|]. intros (x & -> & [H|(_ & -> & _)]); [discriminate|reflexivity].
      * split; [discriminate|]. intros (x & -> & [H|(_ & _ & _ & H)]); discriminate.
Qed.

(** ** The directory *)
Lemma ends_in_iff suffix : forall s, ends_in suffix s = true <-> exists p, s = (p ++ suffix)%string.
Proof.
  intros s. induction s as [|c s IH]; cbn [ends_in]; rewrite orb_true_iff, eqb_iff.
  - split; [intros [->|]; [exists ""; reflexivity|discriminate]|]. intros ([|] & H); [left; now rewrite H|discriminate].
  - rewrite IH. split.
    + intros [<-|(p & ->)]; [now exists ""|now exists (String c p)].
    + intros ([|d p] & H); [left; now rewrite H|]. injection H as -> H. right. eauto.
Qed.
Lemma downloaded_iff names name : downloaded names name = true <-> fetched names name.
Proof.
  unfold downloaded, fetched. rewrite !orb_true_iff, eqb_iff, ends_in_iff. destruct (existsb _ names); rewrite ends_in_iff; tauto.
Qed.
Lemma dget_filter (f : string -> bool) (d : dict string C) name : dget (filter (fun kv => f (fst kv)) d) name = if f name then dget d name else None.
Proof.
  induction d as [|[k c] d IH]; [now destruct (f name)|]. cbn [filter fst]. destruct (f k) eqn:Hk; cbn [dget]; destruct (eqb_spec name k) as [->|Hn]; rewrite ?IH, ?Hk; reflexivity.
Qed.
Lemma donor_ok s m d : donor_files (s_base s) (s_refs s) = Ok (m, d) -> donor_dir s m d.
Proof.
  unfold Model.donor_files, donor, local_files, Spec.donor_dir. intros H.
  assert (Hm : exists m0, (s_base s = Some m0 \/ s_base s = None /\ exists l, s_refs s = m0 :: l) /\
    (let! m' := merged m0 in let! d := (match on_disk m' with Some d => Ok d | None => let! d := repository m' in Ok (filter (fun kv => downloaded (dkeys d) (fst kv)) d) end) in Ok (m0, d)) = Ok (m, d)).
  { destruct (s_base s) as [m0|]; [exists m0; auto|]. destruct (s_refs s) as [|m0 l]; [discriminate|]. exists m0. split; [right; eauto|exact H]. }
  destruct Hm as (m0 & Hm & H'). destruct (merged m0) as [m'|] eqn:E; [|discriminate]. cbn [rbind] in H'.
  destruct (on_disk m') as [d0|] eqn:O.
  - cbn [rbind] in H'. injection H' as -> ->. split; [exact Hm|]. exists m'. split; [exact E|]. now left.
  - destruct (repository m') as [r|] eqn:R; [|discriminate]. cbn [rbind] in H'. injection H' as -> <-. split; [exact Hm|]. exists m'. split; [exact E|]. right.
    split; [exact O|]. exists r. split; [exact R|]. intros name c. rewrite (dget_filter (downloaded (dkeys r))).
    rewrite <- downloaded_iff. destruct (downloaded (dkeys r) name); split; try (intros []; discriminate || assumption); intuition discriminate.
Qed.
Lemma donor_err s e : donor_files (s_base s) (s_refs s) = Err e -> ~ exists m d, donor_dir s m d.
Proof.
  unfold Model.donor_files, donor, local_files, Spec.donor_dir. intros H (m & d & Hm & m' & E & Hd).
  assert (H' : (let! m' := merged m in let! d := (match on_disk m' with Some d => Ok d | None => let! d := repository m' in Ok (filter (fun kv => downloaded (dkeys d) (fst kv)) d) end) in Ok (m, d)) = Err e).
  { destruct Hm as [->|[-> (l & ->)]] in H; exact H. }
  rewrite E in H'. cbn [rbind] in H'. destruct Hd as [->|[-> (r & R & _)]] in H'; [discriminate|]. rewrite R in H'. discriminate.
Qed.

Hypothesis saved_once : forall tok fs, saved_files tok = Ok fs -> NoDup (dkeys fs).
Notation with_template s := (set_chat_template (s_chat s) (s_refs s)).
Notation tokenizer_part s := (tokenizer_part load_tokenizer saved_files (with_template s) on_disk repository merged s).
Notation rewritten s := (rewritten load_tokenizer saved_files (with_template s) s).

Definition after_config (s : settings M) (config card source : C) (out : dict string C) : dict string C :=
  let out := dset out "config.json" config in
  if s_card s then dset (dset out "README.md" card) "mergekit_config.yml" source else out.
Definition card_files (s : settings M) (card source : C) : dict string C :=
  if s_card s then [("README.md", card); ("mergekit_config.yml", source)] else [].
Lemma first_with_app (a b : list (dict string C)) name : first_with (a ++ b) name = match first_with a name with Some c => Some c | None => first_with b name end.
Proof. induction a as [|d a IH]; [reflexivity|]. cbn. destruct (dget d name); auto. Qed.
Lemma after_config_get s config card source out name :
  dget (after_config s config card source out) name = first_with [card_files s card source; [("config.json", config)]; out] name.
Proof.
  unfold after_config, card_files. cbn [first_with].
  assert (H : dget (dset out "config.json" config) name = first_with [[("config.json", config)]; out] name).
  { cbn [first_with dget]. destruct (eqb_spec name "config.json") as [->|Hn]; [now rewrite dget_dset_eq|]. rewrite dget_dset_neq by congruence. now destruct (dget out name). }
  destruct (s_card s); [|rewrite H; reflexivity]. cbn [dget]. destruct (eqb_spec name "README.md") as [->|Hr].
  - rewrite dget_dset_neq by discriminate. now rewrite dget_dset_eq.
  - destruct (eqb_spec name "mergekit_config.yml") as [->|Hm]; [now rewrite dget_dset_eq|]. rewrite !dget_dset_neq by congruence. rewrite H. reflexivity.
Qed.
Lemma copiable_iff (s : settings M) (d : dict string C) :
  negb (set_to (s_chat s)) && dmem d "tokenizer_config.json" && (dmem d "tokenizer.json" || dmem d "tokenizer.model") = true <-> copiable s d.
Proof.
  unfold copiable. rewrite !andb_true_iff, orb_true_iff, !dmem_In. assert (H : negb (set_to (s_chat s)) = true <-> s_chat s = None \/ s_chat s = Some "").
  { destruct (s_chat s) as [[|]|]; cbn; intuition congruence. }
  rewrite H. tauto.
Qed.

(** After a run that does not raise, every file is: the donor's, if it is to be taken along; or else the tokenizer's; the
    card's; the configuration; or what was there before (the weights). *)
Theorem C67_files s built config card source out out' :
  finish s built config card source out = (out', Ok tt) ->
  exists m d td, donor_dir s m d /\ tokenizer_part s built td /\
    forall name, dget out' name = first_with [only (s_tagalong s) d; td; card_files s card source; [("config.json", config)]; out] name.
Proof.
  unfold Model.finish. fold (after_config s config card source out). unfold copy_tagalong, copy_tokenizer.
  destruct (donor_files (s_base s) (s_refs s)) as [[m d]|e] eqn:D.
  2: { destruct built; [|destruct (s_copy_tokenizer s); discriminate]. destruct (rbind _ _); discriminate. }
  apply donor_ok in D. intros H. exists m, d.
  assert (Hcase : exists td mid, tokenizer_part s built td /\ (forall name, dget mid name = first_with [td; after_config s config card source out] name) /\
                    out' = copy_existing d (s_tagalong s) mid).
  { destruct built as [tok|].
    - destruct (set_chat_template (s_chat s) (s_refs s) tok) as [tok'|] eqn:E1; cbn [rbind] in H; [|discriminate].
      destruct (saved_files tok') as [fs|] eqn:E2; [|discriminate]. exists fs, (write_all fs (after_config s config card source out)).
      split; [eapply part_built; eauto|]. split; [intros; apply write_all_get; eauto|congruence].
    - destruct (s_copy_tokenizer s) eqn:Hc.
      + destruct (negb (set_to (s_chat s)) && dmem d "tokenizer_config.json" && (dmem d "tokenizer.json" || dmem d "tokenizer.model")) eqn:Hcp.
        * apply copiable_iff in Hcp. eexists; eexists. split; [eapply part_copied; eauto|]. split; [intros; apply copy_existing_get|]. cbn [fst] in H. congruence.
        * assert (Hn : ~ copiable s d) by (rewrite <- copiable_iff; congruence).
          destruct (load_tokenizer (s_trust s) m) as [tok|] eqn:E0; cbn [rbind] in H.
          2: { exists [], (after_config s config card source out). split; [eapply part_given_up; eauto; intros fs (t & t' & F & _); congruence|]. split; [intros n; cbn [first_with dget]; now destruct (dget _ n)|]. cbn [fst] in H. congruence. }
          destruct (set_chat_template (s_chat s) (s_refs s) tok) as [tok'|] eqn:E1; cbn [rbind] in H.
          2: { exists [], (after_config s config card source out). split; [eapply part_given_up; eauto; intros fs (t & t' & F & G & _); congruence|]. split; [intros n; cbn [first_with dget]; now destruct (dget _ n)|]. cbn [fst] in H. congruence. }
          destruct (saved_files tok') as [fs|] eqn:E2; cbn [fst] in H.
          2: { exists [], (after_config s config card source out). split; [eapply part_given_up; eauto; intros fs (t & t' & F & G & K); congruence|]. split; [intros n; cbn [first_with dget]; now destruct (dget _ n)|]. congruence. }
          exists fs, (write_all fs (after_config s config card source out)). split; [eapply part_rewritten; eauto; exists tok, tok'; auto|]. split; [intros; apply write_all_get; eauto|congruence].
      + exists [], (after_config s config card source out). split; [now apply part_none|]. split; [intros n; cbn [first_with dget]; now destruct (dget _ n)|congruence]. }
  destruct Hcase as (td & mid & Htd & Hmid & ->). exists td. split; [exact D|]. split; [exact Htd|]. intros name. rewrite copy_existing_get.
  cbn [first_with]. rewrite Hmid. cbn [first_with]. rewrite after_config_get. cbn [first_with].
  destruct (dget (only (s_tagalong s) d) name), (dget td name), (dget (card_files s card source) name), (dget [("config.json", config)] name), (dget out name); reflexivity.
Qed.

(** Every way to fail after the weights are written: the tokenizer that was built cannot be given its template or saved, or
    the donor cannot be had. Failing to copy the tokenizer is none of them. *)
Theorem C67_raises s built config card source out :
  (exists e, snd (finish s built config card source out) = Err e) <->
  (exists tok, built = Some tok /\ forall tok' fs, set_chat_template (s_chat s) (s_refs s) tok = Ok tok' -> saved_files tok' <> Ok fs) \/
  ~ (exists m d, donor_dir s m d).
Proof.
  unfold Model.finish. fold (after_config s config card source out). unfold copy_tagalong.
  destruct (donor_files (s_base s) (s_refs s)) as [[m d]|e] eqn:D.
  - apply donor_ok in D. destruct built as [tok|].
    + destruct (set_chat_template (s_chat s) (s_refs s) tok) as [tok'|e] eqn:E1; cbn [rbind].
      * destruct (saved_files tok') as [fs|e] eqn:E2; cbn [snd].
        -- split; [intros (e & H); discriminate|]. intros [(t & [= <-] & H)|H]; [exfalso; eapply H; eauto|exfalso; eauto].
        -- split; [intros _; left|eauto]. exists tok. split; [reflexivity|]. intros t fs Ht. congruence.
      * cbn [snd]. split; [intros _; left|eauto]. exists tok. split; [reflexivity|]. intros t fs Ht. congruence.
    + cbn [snd]. split; [intros (e & H); discriminate|]. intros [(t & H & _)|H]; [discriminate|exfalso; eauto].
  - apply donor_err in D. split; [auto|intros _]. destruct built as [tok|]; [|cbn; eauto]. destruct (let! t := _ in saved_files t); cbn; eauto.
Qed.

(** Whatever happens, no other file is touched: the weights are what they were. *)
Theorem C67_untouched s built config card source out name :
  ~ In name ["config.json"; "README.md"; "mergekit_config.yml"] -> ~ In name (s_tagalong s) -> ~ In name tokenizer_files ->
  (forall tok fs, saved_files tok = Ok fs -> ~ In name (dkeys fs)) ->
  dget (fst (finish s built config card source out)) name = dget out name.
Proof.
  intros Hn Ht Hf Hs. unfold Model.finish. fold (after_config s config card source out).
  assert (Ha : dget (after_config s config card source out) name = dget out name).
  { rewrite after_config_get. cbn [first_with]. assert (Hc : dget (card_files s card source) name = None).
    { apply dget_None. unfold card_files. intros H. apply Hn. destruct (s_card s); cbn in H; [|easy]. cbn. tauto. }
    rewrite Hc. assert (Hg : dget [("config.json", config)] name = None) by (apply dget_None; cbn; intros [H|[]]; apply Hn; now left).
    rewrite Hg. now destruct (dget out name). }
  assert (Ho : forall names d, ~ In name names -> dget (only names d) name = (None : option C)).
  { intros names d H. apply dget_None. unfold only, dkeys. intros Hi. apply in_map_iff in Hi as ((k & c) & <- & Hi). apply filter_In in Hi as [_ Hi]. apply mem_In in Hi. contradiction. }
  assert (Hg : forall mid, dget mid name = dget out name -> dget (fst (copy_tagalong on_disk repository merged s mid)) name = dget out name).
  { intros mid Hm. unfold copy_tagalong. destruct (donor_files _ _) as [[m d]|]; cbn [fst]; [|exact Hm]. rewrite copy_existing_get. cbn [first_with]. rewrite Ho, Hm by exact Ht. now destruct (dget out name). }
  assert (Hw : forall tok fs, saved_files tok = Ok fs -> dget (write_all fs (after_config s config card source out)) name = dget out name).
  { intros tok fs E. rewrite write_all_get by eauto. cbn [first_with]. apply Hs in E. apply dget_None in E. rewrite E, Ha. now destruct (dget out name). }
  destruct built as [tok|].
  - destruct (set_chat_template (s_chat s) (s_refs s) tok) as [tok'|e]; cbn [rbind fst]; [|exact Ha]. destruct (saved_files tok') eqn:E; cbn [fst]; [|exact Ha]. apply Hg. eauto.
  - apply Hg. destruct (s_copy_tokenizer s); [|exact Ha]. unfold copy_tokenizer. destruct (donor_files _ _) as [[m d]|]; cbn [fst]; [|exact Ha].
    destruct (_ && _); cbn [fst]; [rewrite copy_existing_get; cbn [first_with]; rewrite Ho, Ha by exact Hf; now destruct (dget out name)|].
    destruct (load_tokenizer (s_trust s) m) as [tok|]; cbn [rbind fst]; [|exact Ha]. destruct (set_chat_template (s_chat s) (s_refs s) tok) as [tok'|]; cbn [rbind fst]; [|exact Ha].
    destruct (saved_files tok') eqn:E; cbn [fst]; [eauto|exact Ha].
Qed.

(** ** What is wrong *)
(** A template given as text is first looked up as a file name, and a long one makes that fail. *)
Theorem C67_long_template_refuted ct refs tok : ct <> "auto" -> infix "/" ct = false -> (name_max < String.length ct)%nat ->
  set_chat_template (Some ct) refs tok = Err OSError_.
Proof.
  intros Ha Hs Hl. destruct ct as [|c ct]; [cbn in Hl; lia|]. set (s := String c ct) in *. cbn [Model.set_chat_template]. fold s.
  destruct (eqb_spec s "auto"); [contradiction|]. unfold lookup.
  assert (Hf : forall s, infix "/" s = false -> first_component (s ++ ".jinja")%string = (s ++ ".jinja")%string).
  { clear. induction s as [|c s IH]; [reflexivity|]. intros H. cbn [infix] in H. apply orb_false_iff in H as [Hp H]. cbn [String.append first_component].
    destruct (Ascii.eqb_spec c "/") as [->|Hn]; [destruct s; discriminate|]. now rewrite IH. }
  rewrite Hf by exact Hs. rewrite len_app. assert (Hlt : (name_max <? String.length s + String.length ".jinja")%nat = true) by (apply Nat.ltb_lt; lia).
  rewrite Hlt. reflexivity.
Qed.

(** A template that cannot be used ends the run after the weights are written if a tokenizer was built, and is ignored
    (with the whole tokenizer) if it was to be copied. *)
Theorem C67_bad_template_refuted s tok config card source out e d m :
  (forall t, set_chat_template (s_chat s) (s_refs s) t = Err e) -> s_copy_tokenizer s = true -> s_tagalong s = [] ->
  donor_files (s_base s) (s_refs s) = Ok (m, d) -> set_to (s_chat s) = true ->
  finish s (Some tok) config card source out = (after_config s config card source out, Err e) /\
  finish s None config card source out = (after_config s config card source out, Ok tt).
Proof.
  intros He Hc Ht D Hs. unfold Model.finish. fold (after_config s config card source out). rewrite He. split; [reflexivity|].
  unfold copy_tagalong, copy_tokenizer. rewrite Hc, D, Ht, Hs. cbn [negb andb]. destruct (load_tokenizer (s_trust s) m) as [t|]; cbn [rbind fst]; [rewrite He|]; reflexivity.
Qed.

(** Of a donor on the hub, [merges.txt] and [chat_template.jinja] are not downloaded, so they are never copied. *)
Theorem C67_hub_refuted s config card source out m m' r name :
  s_copy_tokenizer s = true -> donor (s_base s) (s_refs s) = Ok m -> merged m = Ok m' -> on_disk m' = None -> repository m' = Ok r ->
  copiable s r -> name = "merges.txt" \/ name = "chat_template.jinja" ->
  dget (fst (finish s None config card source out)) name = dget out name.
Proof.
  intros Hc Hd Hm Ho Hr Hcp Hn. unfold Model.finish. fold (after_config s config card source out). unfold copy_tagalong, copy_tokenizer.
  set (d := filter (fun kv : string * C => downloaded (dkeys r) (fst kv)) r).
  assert (D : donor_files (s_base s) (s_refs s) = Ok (m, d)) by (unfold Model.donor_files, local_files; rewrite Hd; cbn [rbind]; rewrite Hm; cbn [rbind]; rewrite Ho, Hr; reflexivity).
  rewrite D, Hc. assert (Hk : forall n, In n (dkeys r) -> downloaded (dkeys r) n = true -> dmem d n = true).
  { intros n Hi Hdl. apply dmem_In. apply dget_Some_key. unfold d. rewrite (dget_filter (downloaded (dkeys r))), Hdl. now apply dget_Some_key. }
  assert (Hcp' : negb (set_to (s_chat s)) && dmem d "tokenizer_config.json" && (dmem d "tokenizer.json" || dmem d "tokenizer.model") = true).
  { destruct Hcp as (H1 & H2 & H3). rewrite (Hk _ H2) by reflexivity. destruct H1 as [-> | ->]; cbn [set_to negb andb];
      (destruct H3 as [H3|H3]; [rewrite (Hk _ H3) by reflexivity; reflexivity|rewrite (Hk _ H3) by reflexivity; apply orb_true_r]). }
  rewrite Hcp'. cbn [fst]. rewrite !copy_existing_get. cbn [first_with].
  assert (Hnd : forall names, dget (only names d) name = (None : option C)).
  { intros names. apply dget_None. intros Hi. unfold only, dkeys in Hi. apply in_map_iff in Hi as ((k & c) & E & Hi). apply filter_In in Hi as [Hi _].
    cbn [fst] in E. subst k. unfold d in Hi. apply filter_In in Hi as [_ Hi]. cbn [fst] in Hi. apply downloaded_iff in Hi.
    assert (Hno : forall (suf : string), (exists p, name = (p ++ suf)%string) -> In suf [".json"; ".safetensors"; ".bin"] -> False).
    { intros suf Hp Hsuf. apply ends_in_iff in Hp. destruct Hn as [-> | ->], Hsuf as [<-|[<-|[<-|[]]]]; discriminate. }
    destruct Hi as [Hi|[Hi|Hi]]; [destruct Hn; congruence|eapply Hno; [exact Hi|cbn; auto]|].
    eapply Hno; [exact Hi|]. destruct (existsb _ _); cbn; auto. }
  rewrite !Hnd, copy_existing_get. cbn [first_with]. rewrite Hnd, after_config_get. cbn [first_with].
  assert (H1 : dget (card_files s card source) name = None) by (apply dget_None; unfold card_files; destruct (s_card s), Hn as [-> | ->]; unfold dkeys; cbn; intuition discriminate).
  assert (H2 : dget [("config.json", config)] name = None) by (apply dget_None; destruct Hn as [-> | ->]; unfold dkeys; cbn; intuition discriminate).
  rewrite H1, H2. now destruct (dget out name).
Qed.
End C67.

(** ** A small world: models are numbers, a tokenizer is its template, files hold text *)
Definition w_load (trust : bool) (m : nat) : result (option string) :=
  match m with
  | 0 => Ok (Some " A{{x}} ") | 1 => Ok (Some "B{{x}}") | 2 => Ok (Some "A{{x}}") | 3 => Ok None
  | 4 => if trust then Ok (Some "A{{x}}") else Err ValueError | 5 => Ok (Some "  ") | _ => Err OSError_
  end.
Definition w_template (t : option string) : template_value := match t with Some s => TString s | None => TNone end.
Definition w_files (t : option string) : result (dict string string) :=
  Ok [("tokenizer_config.json", match t with Some s => s | None => "" end); ("tokenizer.json", "t")].
Definition w_disk (m : nat) : option (dict string string) :=
  if (m =? 1)%nat then Some [("config.json", "c1"); ("tokenizer.json", "t1"); ("tokenizer_config.json", "tc1"); ("merges.txt", "m1"); ("preprocessor_config.json", "p1")]
  else None.
Definition w_repo (m : nat) : result (dict string string) :=
  Ok [("tokenizer.json", "t"); ("tokenizer_config.json", "tc"); ("merges.txt", "m"); ("chat_template.jinja", "j"); ("model.safetensors", "w")].
Definition w_settings (base : option nat) (chat : option string) : settings nat :=
  {| s_base := base; s_refs := [0; 1; 2]; s_chat := chat; s_trust := true; s_copy_tokenizer := true; s_card := true; s_tagalong := ["preprocessor_config.json"] |}.
Notation w_set := (set_chat_template w_load w_template (fun _ s => Some s) [("chatml.jinja", "im_start{{x}}")] 255 4000).
Notation w_finish := (finish w_load w_template (fun _ s => Some s) w_files [("chatml.jinja", "im_start{{x}}")] 255 4000 w_disk w_repo (fun m => Ok m)).

Example C67_auto_nonvacuous : ballot w_load w_template [1; 3; 0; 2; 4] ["B{{x}}"; "A{{x}}"; "A{{x}}"] /\
  w_set (Some "auto") [1; 3; 0; 2; 4] None = Ok (Some "A{{x}}") /\ votes "B{{x}}" ["B{{x}}"; "A{{x}}"; "A{{x}}"] = 1%nat.
Proof. split; [now apply ballot_votes|]. split; reflexivity. Qed.
Example C67_named_nonvacuous : within_limits 255 4000 "chatml" /\ w_set (Some "chatml") [] None = Ok (Some "im_start{{x}}") /\
  w_set (Some "{{ my own template }}") [] None = Ok (Some "{{ my own template }}") /\ w_set (Some "chatlm") [] None = Err RuntimeError.
Proof. split; [split; vm_compute; lia|]. repeat split; reflexivity. Qed.
Example C67_files_nonvacuous :
  w_finish (w_settings (Some 1) None) None "cfg" "card" "yml" [("model.safetensors", "w")] =
  ([("model.safetensors", "w"); ("config.json", "cfg"); ("README.md", "card"); ("mergekit_config.yml", "yml"); ("tokenizer_config.json", "tc1");
    ("tokenizer.json", "t1"); ("merges.txt", "m1"); ("preprocessor_config.json", "p1")], Ok tt) /\
  w_finish (w_settings (Some 1) (Some "auto")) (Some None) "cfg" "card" "yml" [] =
  ([("config.json", "cfg"); ("README.md", "card"); ("mergekit_config.yml", "yml"); ("tokenizer_config.json", "A{{x}}"); ("tokenizer.json", "t");
    ("preprocessor_config.json", "p1")], Ok tt).
Proof. split; reflexivity. Qed.
Example C67_raises_nonvacuous : snd (w_finish (w_settings (Some 1) (Some "no such template")) (Some None) "cfg" "card" "yml" []) = Err RuntimeError.
Proof. reflexivity. Qed.
Example C67_hub_nonvacuous : copiable (w_settings (Some 7) None) [("tokenizer.json", "t"); ("tokenizer_config.json", "tc"); ("merges.txt", "m"); ("chat_template.jinja", "j"); ("model.safetensors", "w")] /\
  dkeys (fst (w_finish (w_settings (Some 7) None) None "cfg" "card" "yml" [])) =
  ["config.json"; "README.md"; "mergekit_config.yml"; "tokenizer_config.json"; "tokenizer.json"].
Proof. split; [|reflexivity]. split; [now left|]. unfold dkeys. cbn. auto. Qed.

Fixpoint times (n : nat) (s : string) : string := match n with 0 => "" | S n => (s ++ times n s)%string end.
Example C67_long_template_nonvacuous : let ct := ("{{ " ++ times 300 "x" ++ " }}")%string in
  ct <> "auto" /\ infix "/" ct = false /\ (255 < String.length ct)%nat /\ w_set (Some ct) [0; 1] None = Err OSError_.
Proof. cbv zeta. split; [discriminate|]. split; [vm_compute; reflexivity|]. split; [vm_compute; lia|vm_compute; reflexivity]. Qed.
Example C67_bad_template_nonvacuous :
  let s := {| s_base := Some 1; s_refs := [0; 1; 2]; s_chat := Some "chatlm"; s_trust := false; s_copy_tokenizer := true; s_card := false; s_tagalong := [] |} in
  (forall t, w_set (s_chat s) (s_refs s) t = Err RuntimeError) /\ w_finish s (Some None) "cfg" "card" "yml" [] = ([("config.json", "cfg")], Err RuntimeError) /\
  w_finish s None "cfg" "card" "yml" [] = ([("config.json", "cfg")], Ok tt).
Proof. cbv zeta. repeat split; reflexivity. Qed.

(** With equal votes the order of the models decides, and that order comes from a set. *)
Theorem C67_tie_refuted : exists refs refs', Permutation refs refs' /\ w_set (Some "auto") refs None <> w_set (Some "auto") refs' None.
Proof. exists [0; 1], [1; 0]. split; [constructor|]. vm_compute. congruence. Qed.
(** A template of blanks counts, and if it wins the tokenizer's own template is replaced by the empty one. *)
Theorem C67_blank_refuted : w_set (Some "auto") [5; 3] (Some "mine") = Ok (Some "").
Proof. reflexivity. Qed.
(** The tokenizers are loaded without their own code even if the user allows it. *)
Theorem C67_trust_refuted : s_trust (w_settings (Some 4) (Some "auto")) = true /\ w_load true 4 = Ok (Some "A{{x}}") /\
  w_set (s_chat (w_settings (Some 4) (Some "auto"))) [1; 4; 4] None = Ok (Some "B{{x}}").
Proof. repeat split; reflexivity. Qed.

Print Assumptions C67_auto.
Print Assumptions C67_auto_order.
Print Assumptions C67_named.
Print Assumptions C67_files.
Print Assumptions C67_raises.
Print Assumptions C67_untouched.
Print Assumptions C67_long_template_refuted.
Print Assumptions C67_bad_template_refuted.
Print Assumptions C67_hub_refuted.
Print Assumptions C67_tie_refuted.
Print Assumptions C67_blank_refuted.
Print Assumptions C67_trust_refuted.
