(** Proofs about model reference strings and size strings. *)
From Coq Require Import Ascii.
From Verif.Base Require Import Py PyFacts PyStr.
From Verif.Common Require Import Model Spec.
Local Open Scope string_scope.
Local Open Scope list_scope.

(** ** split *)
Lemma free_cons c x s : free c (String x s) <-> x <> c /\ free c s.
Proof.
  unfold free. cbn. rewrite andb_true_iff, negb_true_iff. destruct (Ascii.eqb_spec x c); intuition congruence.
Qed.
Lemma free_app c a b : free c (a ++ b)%string <-> free c a /\ free c b.
Proof. unfold free. rewrite all_chars_app, andb_true_iff. reflexivity. Qed.
Lemma count_free c s : free c s <-> count c s = 0.
Proof.
  induction s as [|x s IH]; [split; reflexivity|]. rewrite free_cons, IH. cbn. destruct (Ascii.eqb_spec x c); [|intuition].
  split; [intros [? _]; contradiction|discriminate].
Qed.
Lemma split_nonempty c s : split c s <> [].
Proof. destruct s as [|x s]; cbn; [discriminate|]. destruct (Ascii.eqb x c); [discriminate|]. destruct (split c s); discriminate. Qed.
Lemma split_free c s : free c s -> split c s = [s].
Proof.
  induction s as [|x s IH]; [reflexivity|]. rewrite free_cons. intros [Hx Hs]. cbn. rewrite (IH Hs).
  destruct (Ascii.eqb_spec x c); [contradiction|reflexivity].
Qed.
Lemma split_app c a b : free c a -> split c (a ++ String c b)%string = a :: split c b.
Proof.
  induction a as [|x a IH]; cbn.
  - intros _. now rewrite Ascii.eqb_refl.
  - rewrite free_cons. intros [Hx Ha]. rewrite (IH Ha). destruct (Ascii.eqb_spec x c); [contradiction|reflexivity].
Qed.
Fixpoint join (c : ascii) (l : list string) : string :=
  match l with [] => "" | [s] => s | s :: l => (s ++ String c (join c l))%string end.
Lemma split_join c s : s = join c (split c s) /\ Forall (free c) (split c s) /\ length (split c s) = S (count c s).
Proof.
  induction s as [|x s (E & F & L)]; [cbn; repeat split; repeat constructor|]. cbn.
  destruct (Ascii.eqb_spec x c) as [-> | Hx].
  - split; [|split; [constructor; [reflexivity|exact F]|cbn; lia]].
    destruct (split c s) eqn:Es; [now apply split_nonempty in Es|]. cbn in *. now rewrite E at 1.
  - destruct (split c s) as [|p ps] eqn:Es; [now apply split_nonempty in Es|]. pose proof (Forall_inv F). pose proof (Forall_inv_tail F). clear Es.
    split; [|split; [constructor; auto; now apply free_cons|cbn in *; lia]].
    destruct ps; cbn in *; now rewrite <- E.
Qed.
Lemma split_one c s p : split c s = [p] <-> p = s /\ free c s.
Proof.
  split.
  - intros E. destruct (split_join c s) as (J & F & _). rewrite E in *. cbn in J. inversion F; subst. auto.
  - intros [-> Hf]. now apply split_free.
Qed.
Lemma split_two c s p q : split c s = [p; q] <-> s = (p ++ String c q)%string /\ free c p /\ free c q.
Proof.
  split.
  - intros E. destruct (split_join c s) as (J & F & _). rewrite E in *. cbn in J. inversion F as [|? ? F1 F2]; subst. inversion F2; subst. auto.
  - intros (-> & Hp & Hq). rewrite split_app by auto. now rewrite split_free.
Qed.
Lemma count_app c a b : count c (a ++ b)%string = count c a + count c b.
Proof. induction a as [|x a IH]; cbn; [reflexivity|]. lia. Qed.

(** ** paths *)
Lemma parse_path_Ok s p : parse_path s = Ok p <->
  (free "@" s /\ p = {| mp_path := s; mp_revision := None |}) \/
  (exists a r, s = (a ++ "@" ++ r)%string /\ free "@" a /\ free "@" r /\ p = {| mp_path := a; mp_revision := Some r |}).
Proof.
  unfold parse_path. destruct (Nat.ltb_spec 1 (count "@" s)) as [Hc|Hc].
  - split; [discriminate|]. intros [[Hf _]|(a & r & -> & Ha & Hr & _)].
    + apply count_free in Hf. lia.
    + apply count_free in Ha, Hr. rewrite count_app in Hc. cbn in Hc. lia.
  - destruct (Nat.eqb_spec (count "@" s) 1) as [E1|E1].
    + destruct (split_join "@" s) as (_ & _ & L). rewrite E1 in L.
      destruct (split "@" s) as [|a [|r [|? ?]]] eqn:Es; try discriminate L. apply split_two in Es as (-> & Ha & Hr). split.
      * intros [= <-]. right. exists a, r. auto.
      * intros [[Hf _]|(a' & r' & E & Ha' & Hr' & ->)].
        -- apply count_free in Hf. lia.
        -- assert (Et : split "@" (a' ++ "@" ++ r')%string = [a'; r']) by (apply split_two; auto).
           rewrite <- E in Et. assert (Et' : split "@" (a ++ String "@" r)%string = [a; r]) by (apply split_two; auto).
           rewrite Et in Et'. injection Et' as -> ->. reflexivity.
    + assert (E0 : count "@" s = 0) by lia. split.
      * intros [= <-]. left. split; [now apply count_free|reflexivity].
      * intros [[_ ->]|(a & r & -> & _)]; [reflexivity|]. rewrite count_app in E0. cbn in E0. lia.
Qed.

Lemma parse_str_path p : parse_path (str_path p) = Ok p <->
  free "@" (mp_path p) /\ match mp_revision p with Some r => r <> "" /\ free "@" r | None => True end.
Proof.
  rewrite parse_path_Ok. destruct p as [a [r|]]; cbn [str_path mp_revision mp_path].
  - unfold str_path. cbn [mp_revision mp_path]. destruct (eqb_spec r "") as [-> | Hr].
    + split; [|intros (_ & E & _); congruence]. intros [[_ [= ]]|(x & y & E & Hx & Hy & [= <- <-])].
      exfalso. pose proof (count_app "@" a ("@" ++ "")%string) as Hc. rewrite <- E in Hc. apply count_free in Hx. cbn in Hc. lia.
    + split.
      * intros [[_ [=]]|(x & y & E & Hx & Hy & [= <- <-])]. auto.
      * intros (Ha & _ & Hr'). right. exists a, r. auto.
  - unfold str_path. cbn [mp_revision mp_path]. split.
    + intros [[Hf _]|(x & y & _ & _ & _ & [=])]. auto.
    + intros [Ha _]. left. auto.
Qed.

Lemma str_path_free p : free "+" (str_path p) <->
  free "+" (mp_path p) /\ match mp_revision p with Some r => free "+" r | None => True end.
Proof.
  unfold str_path. destruct (mp_revision p) as [r|]; [|tauto].
  destruct (eqb_spec r "") as [-> | Hr].
  - split; [intros Hf; split; [exact Hf|reflexivity]|tauto].
  - rewrite free_app. change ("@" ++ r)%string with (String "@" r). rewrite free_cons. intuition discriminate.
Qed.

Lemma parse_ref_Ok s r : parse_ref s = Ok r <->
  (exists m, free "+" s /\ parse_path s = Ok m /\ r = {| mr_model := m; mr_lora := None; mr_arch := None |}) \/
  (exists a b m l, s = (a ++ "+" ++ b)%string /\ free "+" a /\ free "+" b /\ parse_path a = Ok m /\ parse_path b = Ok l /\
     r = {| mr_model := m; mr_lora := Some l; mr_arch := None |}).
Proof.
  unfold parse_ref. destruct (split "+" s) as [|a [|b [|x y]]] eqn:Es.
  - now apply split_nonempty in Es.
  - apply split_one in Es as [-> Hf]. destruct (parse_path s) as [m|e] eqn:Em; cbn.
    + split; [intros [= <-]; left; exists m; auto|].
      intros [(m' & _ & [= <-] & ->)|(a' & b' & m' & l' & -> & Ha & Hb & _)]; [reflexivity|].
      apply free_app in Hf as [_ Hf]. change ("+" ++ b')%string with (String "+" b') in Hf. apply free_cons in Hf as [? _]. congruence.
    + split; [discriminate|]. intros [(m' & _ & [=] & _)|(a' & b' & m' & l' & -> & Ha & Hb & _)].
      apply free_app in Hf as [_ Hf]. change ("+" ++ b')%string with (String "+" b') in Hf. apply free_cons in Hf as [? _]. congruence.
  - apply split_two in Es as (-> & Ha & Hb). split.
    + intros E. destruct (parse_path a) as [m|] eqn:Em; [|discriminate]. destruct (parse_path b) as [l|] eqn:El; [|discriminate].
      injection E as <-. right. exists a, b, m, l. auto 10.
    + intros [(m & Hf & _)|(a' & b' & m & l & E & Ha' & Hb' & Em & El & ->)].
      * apply free_app in Hf as [_ Hf]. apply free_cons in Hf as [? _]. congruence.
      * assert (Et : split "+" (a' ++ "+" ++ b')%string = [a'; b']) by (apply split_two; auto).
        rewrite <- E in Et. assert (Et' : split "+" (a ++ String "+" b)%string = [a; b]) by (apply split_two; auto).
        rewrite Et in Et'. injection Et' as -> ->. now rewrite Em, El.
  - split; [discriminate|]. intros [(m & Hf & _)|(a' & b' & m & l & -> & Ha & Hb & _)].
    + rewrite split_free in Es by auto. discriminate.
    + change ("+" ++ b')%string with (String "+" b') in Es. rewrite split_app, split_free in Es by auto. discriminate.
Qed.

(** ** int *)
Ltac all_ascii c := destruct c as [[] [] [] [] [] [] [] []]; vm_compute.
Lemma digit_not_under c : is_digit c = true -> Ascii.eqb c "_" = false.
Proof. all_ascii c; congruence. Qed.
Lemma digit_not_space c : is_digit c = true -> is_space c = false.
Proof. all_ascii c; congruence. Qed.

Lemma int_tail_spec n : forall s acc v c, String.length s <= n -> is_digit c = true ->
  (int_tail acc s = Some v <-> grouped (String c s) /\ v = digits_value acc (no_underscore s)).
Proof.
  induction n as [|n IH]; intros s acc v c Hn Hc.
  - destruct s; [|cbn in Hn; lia]. cbn. split; [intros [= <-]; split; [now constructor|reflexivity]|intros [_ ->]; reflexivity].
  - destruct s as [|x r]; cbn.
    { split; [intros [= <-]; split; [now constructor|reflexivity]|intros [_ ->]; reflexivity]. }
    cbn in Hn. destruct (is_digit x) eqn:Ex.
    + rewrite (digit_not_under x Ex). cbn. rewrite (IH r _ v x) by (auto; lia). split.
      * intros [Hg ->]. split; [now apply gr_digit|reflexivity].
      * intros [Hg ->]. split; [|reflexivity]. inversion Hg as [|? ? ? Hg'|? ? ? Hg']; subst; [exact Hg'|discriminate].
    + destruct (Ascii.eqb_spec x "_") as [-> | Hx].
      * destruct r as [|y r2].
        { split; [discriminate|]. intros [Hg _]. inversion Hg as [|? ? ? Hg'|? ? ? Hg']; subst; inversion Hg'; discriminate. }
        destruct (is_digit y) eqn:Ey.
        -- cbn [no_underscore]. rewrite (digit_not_under y Ey). cbn [digits_value]. rewrite (IH r2 _ v y) by (cbn in Hn; auto; lia). split.
           ++ intros [Hg ->]. split; [now apply gr_under|reflexivity].
           ++ intros [Hg ->]. split; [|reflexivity]. inversion Hg as [|? ? ? Hg'|? ? ? Hg']; subst; [inversion Hg'; discriminate|exact Hg'].
        -- split; [discriminate|]. intros [Hg _].
           inversion Hg as [|? ? ? Hg'|? ? ? Hg']; subst; inversion Hg'; subst; congruence.
      * split; [discriminate|]. intros [Hg _]. inversion Hg as [|? ? ? Hg'|? ? ? Hg']; subst; [inversion Hg'; subst; congruence|congruence].
Qed.
Lemma int_body_spec s v : int_body s = Some v <-> grouped s /\ v = digits_value 0 (no_underscore s).
Proof.
  destruct s as [|c r]; cbn [int_body].
  - split; [discriminate|]. intros [Hg _]. inversion Hg.
  - destruct (is_digit c) eqn:Ec.
    + rewrite (int_tail_spec (String.length r) r _ v c) by auto. cbn [no_underscore]. rewrite (digit_not_under c Ec). reflexivity.
    + split; [discriminate|]. intros [Hg _]. inversion Hg; congruence.
Qed.

Lemma lstrip_split s : exists b, s = (b ++ lstrip s)%string /\ all_chars is_space b = true.
Proof.
  induction s as [|c s (b & E & Hb)]; [exists ""; auto|]. cbn. destruct (is_space c) eqn:Ec; [|exists ""; auto].
  exists (String c b). cbn. rewrite <- E, Ec. auto.
Qed.
Lemma rstrip_split s : exists b, s = (rstrip s ++ b)%string /\ all_chars is_space b = true.
Proof.
  induction s as [|c s (b & E & Hb)]; [exists ""; auto|]. cbn. destruct (rstrip s) as [|x r] eqn:Er.
  - destruct (is_space c) eqn:Ec.
    + exists (String c b). cbn in *. rewrite Ec. subst b. auto.
    + exists b. cbn in *. subst b. auto.
  - exists b. cbn in *. split; [congruence|auto].
Qed.
Lemma lstrip_app b x c r : all_chars is_space b = true -> x = String c r -> is_space c = false -> lstrip (b ++ x)%string = x.
Proof.
  intros Hb -> Hc. induction b as [|y b IH]; cbn in *; [now rewrite Hc|]. apply andb_true_iff in Hb as [-> Hb]. auto.
Qed.
Lemma rstrip_spaces b : all_chars is_space b = true -> rstrip b = "".
Proof. induction b as [|y b IH]; cbn; [reflexivity|]. intros Hb. apply andb_true_iff in Hb as [Hy Hb]. now rewrite (IH Hb), Hy. Qed.
Lemma rstrip_app x b : all_chars is_space b = true -> rstrip (x ++ b)%string = rstrip x.
Proof. intros Hb. induction x as [|c x IH]; cbn; [now apply rstrip_spaces|]. now rewrite IH. Qed.
Lemma grouped_nonempty s : grouped s -> s <> "".
Proof. intros []; discriminate. Qed.
Lemma rstrip_cons c s : rstrip s = s -> s <> "" -> rstrip (String c s) = String c s.
Proof. intros E Hs. cbn. rewrite E. destruct s; [congruence|reflexivity]. Qed.
Lemma grouped_rstrip s : grouped s -> rstrip s = s.
Proof.
  induction 1 as [c Hc|c s Hc Hg IH|c s Hc Hg IH].
  - cbn. now rewrite (digit_not_space c Hc).
  - apply rstrip_cons; auto using grouped_nonempty.
  - pose proof (grouped_nonempty s Hg). apply rstrip_cons; [|discriminate]. now apply rstrip_cons.
Qed.
Lemma grouped_head s : grouped s -> exists c r, s = String c r /\ is_digit c = true.
Proof. intros []; eauto. Qed.

Lemma py_int_spec s z : py_int s = Ok z <-> int_literal s z.
Proof.
  unfold py_int. split.
  - set (t := rstrip (lstrip s)). intros E.
    destruct (lstrip_split s) as (b1 & E1 & H1). destruct (rstrip_split (lstrip s)) as (b2 & E2 & H2). fold t in E2.
    assert (Es : s = (b1 ++ t ++ b2)%string) by (rewrite <- E2; exact E1). clear E1 E2. clearbody t.
    assert (Hb : forall body sg v, t = (sg ++ body)%string -> int_body body = Some v ->
              ((sg = "" \/ sg = "+") /\ z = v \/ sg = "-" /\ z = (- v)%Z) -> int_literal s z).
    { intros body sg v -> Hi Hz. apply int_body_spec in Hi as [Hg ->]. exists b1, sg, body, b2.
      rewrite app_str_assoc in Es. auto 10. }
    assert (Hplain : int_body t = Some z -> int_literal s z).
    { intros Hi. apply (Hb t "" z eq_refl Hi). auto. }
    destruct t as [|c r]; [discriminate|].
    destruct (Ascii.eqb_spec c "-") as [-> | N1].
    { destruct (int_body r) as [v|] eqn:Ei; [|discriminate]. injection E as <-. apply (Hb r "-" v eq_refl Ei). auto. }
    destruct (Ascii.eqb_spec c "+") as [-> | N2].
    { destruct (int_body r) as [v|] eqn:Ei; [|discriminate]. injection E as <-. apply (Hb r "+" v eq_refl Ei). auto. }
    apply Hplain. clear - E N1 N2.
    assert (Hm : match String c r with String "-" r => option_map Z.opp (int_body r) | String "+" r => int_body r | _ => int_body (String c r) end = int_body (String c r)).
    { clear E. destruct c as [[] [] [] [] [] [] [] []]; try reflexivity; exfalso; auto. }
    rewrite Hm in E. destruct (int_body (String c r)); [congruence|discriminate].
  - intros (b1 & sg & body & b2 & -> & H1 & H2 & Hg & Hz).
    destruct (grouped_head body Hg) as (c & r & Eb & Hc).
    assert (Hs : rstrip (lstrip (b1 ++ sg ++ body ++ b2)%string) = (sg ++ body)%string).
    { assert (Hl : lstrip (b1 ++ sg ++ body ++ b2)%string = (sg ++ body ++ b2)%string).
      { destruct Hz as [[[-> | ->] _]|[-> _]].
        - eapply lstrip_app; eauto; [cbn; rewrite Eb; reflexivity|now apply digit_not_space].
        - eapply lstrip_app; eauto; reflexivity.
        - eapply lstrip_app; eauto; reflexivity. }
      rewrite Hl. rewrite <- app_str_assoc, rstrip_app by auto.
      destruct Hz as [[[-> | ->] _]|[-> _]]; cbn [append].
      - now apply grouped_rstrip.
      - apply rstrip_cons; [now apply grouped_rstrip|now apply grouped_nonempty].
      - apply rstrip_cons; [now apply grouped_rstrip|now apply grouped_nonempty]. }
    rewrite Hs. assert (Hi : int_body body = Some (digits_value 0 (no_underscore body))) by (apply int_body_spec; auto).
    destruct Hz as [[[-> | ->] ->]|[-> ->]]; cbn [append].
    + assert (Hm : match body with String "-" r => option_map Z.opp (int_body r) | String "+" r => int_body r | _ => int_body body end = int_body body).
      { rewrite Eb. clear - Hc. destruct c as [[] [] [] [] [] [] [] []]; try reflexivity; vm_compute in Hc; discriminate. }
      rewrite Hm, Hi. reflexivity.
    + now rewrite Hi.
    + now rewrite Hi.
Qed.

Lemma py_int_err s e : py_int s = Err e -> e = ValueError.
Proof. unfold py_int. destruct (match rstrip (lstrip s) with EmptyString => _ | _ => _ end); congruence. Qed.

(** ** parse_kmb *)
Lemma split_last_spec s : match split_last s with Some (i, l) => s = (i ++ String l "")%string | None => s = "" end.
Proof.
  induction s as [|c s IH]; [reflexivity|]. cbn. destruct (split_last s) as [[i l]|]; [cbn; congruence|now subst].
Qed.
Lemma split_last_app i l : split_last (i ++ String l "")%string = Some (i, l).
Proof. induction i as [|c i IH]; [reflexivity|]. cbn. now rewrite IH. Qed.
Lemma grouped_digits s : s <> "" -> all_chars is_digit s = true -> grouped s /\ no_underscore s = s.
Proof.
  induction s as [|c s IH]; [congruence|]. intros _ Ha. cbn in Ha. apply andb_true_iff in Ha as [Hc Ha].
  cbn [no_underscore]. rewrite (digit_not_under c Hc). destruct s as [|x s].
  - split; [now constructor|reflexivity].
  - destruct (IH ltac:(discriminate) Ha) as [G ->]. split; [now apply gr_digit|reflexivity].
Qed.
Lemma digits_literal s : s <> "" -> all_chars is_digit s = true -> int_literal s (digits_value 0 s).
Proof.
  intros Hs Ha. destruct (grouped_digits s Hs Ha) as [G E]. exists "", "", s, "". rewrite E. cbn. rewrite app_str_nil_r.
  repeat split; auto.
Qed.
Lemma suffix_lower c : match (if Ascii.eqb (lower c) "k" then Some (10 ^ 3)%Z else if Ascii.eqb (lower c) "m" then Some (10 ^ 6)%Z
   else if Ascii.eqb (lower c) "b" then Some (10 ^ 9)%Z else None) with
   | Some m => forall m', suffix c m' <-> m' = m
   | None => forall m', ~ suffix c m' end.
Proof.
  unfold suffix. cbn [In]. all_ascii c; try (intros m' Hx; intuition discriminate);
  (intros m'; split; [intuition congruence|intros ->; auto 10]).
Qed.
Lemma suffix_not_digit c m : suffix c m -> is_digit c = false.
Proof. unfold suffix. cbn. intuition; match goal with H : _ = (c, m) |- _ => injection H as <- <-; reflexivity end. Qed.
Lemma isnumeric_spec s : isnumeric s = true <-> s <> "" /\ all_chars is_digit s = true.
Proof. unfold isnumeric. rewrite andb_true_iff, negb_true_iff, eqb_neq. reflexivity. Qed.
