(** C23 and C24. *)
From Coq Require Import Ascii.
From Verif.Base Require Import Py PyFacts PyStr.
From Verif.Common Require Import Model Spec Proofs.
Local Open Scope string_scope.
Local Open Scope list_scope.

(** *** C23 *)
(** Printing a reference and parsing it back gives the same reference exactly
    when no part contains a separator, no revision is the empty string and
    there is no architecture override. *)
Theorem C23_print_then_parse (r : model_ref) : parse_ref (str_ref r) = Ok r <-> plain_ref r.
Proof.
  destruct r as [m lo ar]. unfold plain_ref, plain_path. cbn [mr_model mr_lora mr_arch]. rewrite parse_ref_Ok.
  unfold str_ref. cbn [mr_model mr_lora]. destruct lo as [l|].
  - split.
    + intros [(m' & _ & _ & [=])|(a & b & m' & l' & E & Ha & Hb & Em & El & [= -> -> ->])].
      pose proof Em as Em'. pose proof El as El'.
      assert (Hpa : forall s p, parse_path s = Ok p -> free "+" s -> free "+" (mp_path p) /\ match mp_revision p with Some r => free "+" r | None => True end).
      { intros s p Hp Hf. apply parse_path_Ok in Hp as [[_ ->]|(x & y & -> & _ & _ & ->)]; cbn [mp_path mp_revision]; [auto|].
        apply free_app in Hf as [Hx Hy]. apply free_cons in Hy. tauto. }
      pose proof (proj2 (str_path_free m') (Hpa a m' Em Ha)) as Fm. pose proof (proj2 (str_path_free l') (Hpa b l' El Hb)) as Fl.
      assert (Es : [str_path m'; str_path l'] = [a; b]).
      { rewrite <- (proj2 (split_two "+" (a ++ String "+" b)%string a b)) by auto. symmetry. apply split_two. change (a ++ String "+" b)%string with (a ++ "+" ++ b)%string.
        rewrite <- E. auto. }
      injection Es as Ea Eb. rewrite <- Ea in *. rewrite <- Eb in *. apply parse_str_path in Em', El'. apply str_path_free in Fm, Fl.
      destruct (mp_revision m'), (mp_revision l'); intuition.
    + intros [(Hm1 & Hm2 & Hm3) [(Hl1 & Hl2 & Hl3) ->]]. right. exists (str_path m), (str_path l), m, l.
      assert (free "+" (str_path m)) by (apply str_path_free; destruct (mp_revision m); tauto).
      assert (free "+" (str_path l)) by (apply str_path_free; destruct (mp_revision l); tauto).
      assert (parse_path (str_path m) = Ok m) by (apply parse_str_path; destruct (mp_revision m); tauto).
      assert (parse_path (str_path l) = Ok l) by (apply parse_str_path; destruct (mp_revision l); tauto).
      repeat split; auto.
  - split.
    + intros [(m' & Hf & Em & [= -> ->])|(a & b & m' & l' & _ & _ & _ & _ & _ & [=])].
      apply parse_str_path in Em. apply str_path_free in Hf. destruct (mp_revision m'); intuition.
    + intros [(Hm1 & Hm2 & Hm3) [_ ->]]. left. exists m.
      split; [apply str_path_free; destruct (mp_revision m); tauto|]. split; [|reflexivity].
      apply parse_str_path; destruct (mp_revision m); tauto.
Qed.

(** Parsing a string and printing the result gives the string back exactly
    when neither part of the reference ends in an empty revision. *)
Lemma str_parse_path s p : parse_path s = Ok p ->
  s = (str_path p ++ match mp_revision p with Some "" => "@" | _ => "" end)%string.
Proof.
  intros Hp. apply parse_path_Ok in Hp as [[_ ->]|(a & r & -> & _ & _ & ->)]; unfold str_path; cbn [mp_path mp_revision].
  - now rewrite app_str_nil_r.
  - destruct (eqb_spec r "") as [-> | Hr]; [reflexivity|]. destruct r; [congruence|]. now rewrite app_str_nil_r.
Qed.
Lemma app_same_len (a b c d : string) : (a ++ b)%string = (c ++ d)%string -> String.length a = String.length c -> a = c /\ b = d.
Proof.
  revert c. induction a as [|x a IH]; intros [|y c]; cbn; intros E L; try discriminate; [auto|].
  injection E as -> E. injection L as L. destruct (IH c E L) as [-> ->]. auto.
Qed.
Lemma len_app (a b : string) : String.length (a ++ b)%string = String.length a + String.length b.
Proof. induction a; cbn; auto. Qed.

Theorem C23_parse_then_print (s : string) (r : model_ref) : parse_ref s = Ok r ->
  (str_ref r = s <-> ~ empty_revision (mr_model r) /\ forall l, mr_lora r = Some l -> ~ empty_revision l).
Proof.
  unfold empty_revision. intros Hp. apply parse_ref_Ok in Hp as [(m & _ & Em & ->)|(a & b & m & l & -> & _ & _ & Em & El & ->)]; cbn [mr_model mr_lora]; unfold str_ref; cbn [mr_model mr_lora].
  - apply str_parse_path in Em. split.
    + intros <-. split; [|discriminate]. intros E. rewrite E in Em. apply (f_equal String.length) in Em. rewrite len_app in Em. cbn in Em. lia.
    + intros [Hm _]. rewrite Em. destruct (mp_revision m) as [[|]|]; [congruence| |]; now rewrite app_str_nil_r.
  - apply str_parse_path in Em, El. split.
    + intros E. apply (f_equal String.length) in E as EL. rewrite !len_app in EL.
      pose proof (f_equal String.length Em) as Lm. pose proof (f_equal String.length El) as Ll. rewrite len_app in Lm, Ll.
      split; [|intros l0 [= <-]]; intros Hr; rewrite Hr in *; cbn [String.length] in *; lia.
    + intros [Hm Hl]. specialize (Hl l eq_refl). rewrite Em, El.
      destruct (mp_revision m) as [[|]|], (mp_revision l) as [[|]|]; try congruence; now rewrite !app_str_nil_r.
Qed.

(** The strings that parse: at most one '+', at most one '@' on each side. *)
Theorem C23_which_strings_parse (s : string) : (exists r, parse_ref s = Ok r) <->
  (free "+" s /\ count "@" s <= 1) \/
  (exists a b, s = (a ++ "+" ++ b)%string /\ free "+" a /\ free "+" b /\ count "@" a <= 1 /\ count "@" b <= 1).
Proof.
  assert (Hp : forall t, (exists p, parse_path t = Ok p) <-> count "@" t <= 1).
  { intros t. unfold parse_path. destruct (Nat.ltb_spec 1 (count "@" t)) as [H|H]; [split; [intros [? ?]; discriminate|lia]|].
    split; [auto|intros _]. destruct (Nat.eqb_spec (count "@" t) 1) as [E|E]; [|eauto].
    destruct (split_join "@" t) as (_ & _ & L). destruct (split "@" t) as [|x [|y [|? ?]]]; cbn in L; try lia; eauto. }
  split.
  - intros [r Hr]. apply parse_ref_Ok in Hr as [(m & Hf & Em & _)|(a & b & m & l & -> & Ha & Hb & Em & El & _)].
    + left. split; [auto|]. apply Hp. eauto.
    + right. exists a, b. repeat split; auto; apply Hp; eauto.
  - intros [[Hf Hc]|(a & b & -> & Ha & Hb & Ca & Cb)].
    + apply Hp in Hc as [p Ep]. eexists. apply parse_ref_Ok. left. eauto.
    + apply Hp in Ca as [m Em]. apply Hp in Cb as [l El]. eexists. apply parse_ref_Ok. right. eauto 10.
Qed.

(** Dumping a reference into a configuration and validating it again: a
    reference with an architecture override, or whose text has a quote or a
    blank, always survives; any other survives exactly when its parts are
    plain. *)
Theorem C23_dump_then_validate (r : model_ref) :
  revalidate (serialize r) = Ok r <->
  plain_ref r \/ mr_arch r <> None \/ ~ free """" (str_ref r) \/ ~ free " " (str_ref r).
Proof.
  assert (Hc : forall c s, has_char c s = true <-> ~ free c s).
  { intros c s. induction s as [|x s IH]; [cbn; split; [discriminate|intros H; exfalso; apply H; reflexivity]|].
    rewrite free_cons. cbn. destruct (Ascii.eqb_spec x c); cbn; [tauto|]. rewrite IH. tauto. }
  unfold serialize. destruct (mr_arch r) as [x|] eqn:Ea; cbn [revalidate].
  - split; [|reflexivity]. intros _. right. left. discriminate.
  - destruct (has_char """" (str_ref r)) eqn:E1; cbn [orb revalidate].
    { split; [|reflexivity]. intros _. apply Hc in E1. auto. }
    destruct (has_char " " (str_ref r)) eqn:E2; cbn [revalidate].
    { split; [|reflexivity]. intros _. apply Hc in E2. auto. }
    rewrite C23_print_then_parse. split; [auto|]. intros [H|[H|[H|H]]]; [exact H|congruence|..]; apply Hc in H; congruence.
Qed.

Definition mk_ref a r : model_ref := {| mr_model := {| mp_path := a; mp_revision := r |}; mr_lora := None; mr_arch := None |}.

(** Two different references can print alike: an explicitly empty revision, an
    architecture override and a separator inside a path are all lost. *)
Theorem C23_distinct_refs_print_alike_refuted :
  (exists r, parse_ref "org/model@" = Ok r /\ str_ref r = "org/model") /\
  (exists r, mr_arch r <> None /\ parse_ref (str_ref r) <> Ok r) /\
  (exists r, mp_path (mr_model r) = "a+b" /\ parse_ref (str_ref r) <> Ok r /\ exists r', parse_ref (str_ref r) = Ok r').
Proof.
  split; [exists (mk_ref "org/model" (Some "")); split; reflexivity|]. split.
  - exists {| mr_model := {| mp_path := "m"; mp_revision := None |}; mr_lora := None; mr_arch := Some "LlamaForCausalLM" |}.
    cbn. split; discriminate.
  - exists (mk_ref "a+b" None). cbn. split; [reflexivity|]. split; [discriminate|]. eexists; reflexivity.
Qed.

Example C23_nonvacuous :
  parse_ref "mistralai/Mistral-7B-v0.1@main+org/lora@v2" =
    Ok {| mr_model := {| mp_path := "mistralai/Mistral-7B-v0.1"; mp_revision := Some "main" |};
          mr_lora := Some {| mp_path := "org/lora"; mp_revision := Some "v2" |}; mr_arch := None |} /\
  plain_ref {| mr_model := {| mp_path := "mistralai/Mistral-7B-v0.1"; mp_revision := Some "main" |};
          mr_lora := Some {| mp_path := "org/lora"; mp_revision := Some "v2" |}; mr_arch := None |} /\
  parse_ref "a+b+c" = Err RuntimeError.
Proof. repeat split; discriminate. Qed.

(** *** C24 *)
(** Every string, exactly: nonempty digits give their decimal value; anything
    [int] accepts followed by a suffix letter gives the value times the
    multiplier; the empty string raises IndexError; everything else raises
    ValueError. *)
Theorem C24_parse_kmb_exact (s : string) :
  match parse_kmb s with
  | Ok n => (s <> "" /\ all_chars is_digit s = true /\ n = digits_value 0 s) \/
            (exists t c m z, s = (t ++ String c "")%string /\ suffix c m /\ int_literal t z /\ n = (z * m)%Z)
  | Err e => e = (if eqb s "" then IndexError else ValueError) /\
            ~ (s <> "" /\ all_chars is_digit s = true) /\
            (forall t c m z, s = (t ++ String c "")%string -> suffix c m -> ~ int_literal t z)
  end.
Proof.
  unfold parse_kmb. destruct (isnumeric s) eqn:En.
  - apply isnumeric_spec in En as [Hs Ha]. rewrite (proj2 (py_int_spec s _) (digits_literal s Hs Ha)). left. auto.
  - assert (Hnd : ~ (s <> "" /\ all_chars is_digit s = true)) by (rewrite <- isnumeric_spec; congruence).
    pose proof (split_last_spec s) as Hl. destruct (split_last s) as [[i l]|] eqn:El.
    + assert (Hne : eqb s "" = false) by (apply eqb_neq; subst s; destruct i; discriminate).
      assert (Huniq : forall t c, s = (t ++ String c "")%string -> t = i /\ c = l).
      { intros t c ->. rewrite split_last_app in El. now injection El as -> ->. }
      assert (Hgo : forall m k, (forall m', suffix l m' <-> m' = m) -> (forall z, k z = (z * m)%Z) ->
        match (let! z := py_int i in Ok (k z)) with
        | Ok n => (s <> "" /\ all_chars is_digit s = true /\ n = digits_value 0 s) \/
            (exists t c m z, s = (t ++ String c "")%string /\ suffix c m /\ int_literal t z /\ n = (z * m)%Z)
        | Err e => e = (if eqb s "" then IndexError else ValueError) /\
            ~ (s <> "" /\ all_chars is_digit s = true) /\
            (forall t c m z, s = (t ++ String c "")%string -> suffix c m -> ~ int_literal t z)
        end).
      { intros m k Hm Hk. destruct (py_int i) as [z|e] eqn:Ei; cbn [rbind].
        - right. exists i, l, m, z. apply py_int_spec in Ei. split; [exact Hl|]. split; [now apply Hm|auto].
        - rewrite Hne. split; [eapply py_int_err; eauto|]. split; [exact Hnd|].
          intros t c m' z Et _ Hz. destruct (Huniq t c Et) as [-> ->]. apply py_int_spec in Hz. congruence. }
      pose proof (suffix_lower l) as Hs.
      destruct (Ascii.eqb (lower l) "k"); [apply (Hgo _ _ Hs); intros; lia|].
      destruct (Ascii.eqb (lower l) "m"); [apply (Hgo _ _ Hs); intros; lia|].
      destruct (Ascii.eqb (lower l) "b"); [apply (Hgo _ _ Hs); intros; lia|].
      rewrite Hne. split; [reflexivity|]. split; [exact Hnd|]. intros t c m' z Et Hm _. destruct (Huniq t c Et) as [_ ->]. now apply (Hs m').
    + subst s. split; [reflexivity|]. split; [exact Hnd|]. intros [|? ?]; discriminate.
Qed.

(** The documented reading: digits, and digits followed by k, m or b in either case. *)
Theorem C24_documented (s : string) : s <> "" -> all_chars is_digit s = true ->
  parse_kmb s = Ok (digits_value 0 s) /\
  forall c m, suffix c m -> parse_kmb (s ++ String c "")%string = Ok (digits_value 0 s * m)%Z.
Proof.
  intros Hs Ha. split.
  - unfold parse_kmb. rewrite (proj2 (isnumeric_spec s) (conj Hs Ha)). apply py_int_spec. now apply digits_literal.
  - intros c m Hm. pose proof (C24_parse_kmb_exact (s ++ String c "")%string) as H.
    pose proof (digits_literal s Hs Ha) as Hlit. destruct (parse_kmb (s ++ String c "")%string) as [n|e].
    + destruct H as [(_ & Hd & _)|(t & c' & m' & z & E & Hm' & Hz & ->)].
      * rewrite all_chars_app in Hd. cbn in Hd. rewrite (suffix_not_digit c m Hm) in Hd. rewrite andb_false_r in Hd. discriminate.
      * pose proof (split_last_app s c) as E1. rewrite E, split_last_app in E1. injection E1 as -> ->.
        apply py_int_spec in Hz, Hlit. rewrite Hz in Hlit. injection Hlit as ->.
        assert (m' = m) by (pose proof (suffix_lower c) as Hu; destruct (if Ascii.eqb (lower c) "k" then _ else _); [apply Hu in Hm, Hm'; congruence|now apply Hu in Hm]).
        now subst.
    + destruct H as (_ & _ & H). exfalso. now apply (H s c m (digits_value 0 s) eq_refl Hm).
Qed.

(** "Everything else is rejected" fails: signs, blanks and underscores are
    accepted before a suffix (and only there), so a negative size is possible,
    and the empty string is reported as an index error. *)
Theorem C24_only_documented_forms_refuted :
  parse_kmb "-5k" = Ok (-5000)%Z /\ parse_kmb "-5" = Err ValueError /\
  parse_kmb " 5 k" = Ok 5000%Z /\ parse_kmb " 5" = Err ValueError /\
  parse_kmb "1_0k" = Ok 10000%Z /\ parse_kmb "1_0" = Err ValueError /\ parse_kmb "" = Err IndexError.
Proof. repeat split. Qed.

Example C24_nonvacuous : parse_kmb "13B" = Ok 13000000000%Z /\ parse_kmb "250k" = Ok 250000%Z /\ parse_kmb "5g" = Err ValueError /\ parse_kmb "007" = Ok 7%Z.
Proof. repeat split. Qed.

Print Assumptions C23_print_then_parse.
Print Assumptions C23_parse_then_print.
Print Assumptions C23_which_strings_parse.
Print Assumptions C23_dump_then_validate.
Print Assumptions C23_distinct_refs_print_alike_refuted.
Print Assumptions C24_parse_kmb_exact.
Print Assumptions C24_documented.
Print Assumptions C24_only_documented_forms_refuted.
