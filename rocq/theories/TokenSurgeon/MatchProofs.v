(** Facts about token matching, and the rows of the built matrix. *)
From Coq Require Import NArith.
From Verif.Base Require Import Py PyFacts.
From Verif.TokenSurgeon Require Import Model Spec Proofs.
Local Open Scope string_scope.
Local Open Scope list_scope.

(** ** bytes *)
Definition spec_byte (c : N) : text := u "<0x" ++ [hex_digit (c / 16); hex_digit (c mod 16)] ++ u ">".
Lemma bytes_checked : forallb (fun n => let c := N.of_nat n in
  eqb (byte_token c) (spec_byte c) &&
  match int16 (firstn 2 (skipn 3 (spec_byte c))) with Some b => Z.eqb b (Z.of_N c) | None => false end) (seq 0 256) = true.
Proof. vm_compute. reflexivity. Qed.
Lemma byte_facts c : (c < 256)%N -> byte_token c = spec_byte c /\ int16 (firstn 2 (skipn 3 (spec_byte c))) = Some (Z.of_N c).
Proof.
  intros Hc. pose proof bytes_checked as H. rewrite forallb_forall in H. specialize (H (N.to_nat c)). cbv zeta in H. rewrite N2Nat.id in H.
  assert (Hin : In (N.to_nat c) (seq 0 256)) by (apply in_seq; lia). apply H in Hin. apply andb_true_iff in Hin as [H1 H2].
  apply eqb_iff in H1. split; [exact H1|]. destruct (int16 (firstn 2 (skipn 3 (spec_byte c)))); [|discriminate]. f_equal. now apply Z.eqb_eq.
Qed.
Lemma match_byte_char c vocab : (c < 256)%N -> match_byte_token (TPlain [c]) vocab = Ok (dget vocab (TPlain (spec_byte c))).
Proof. intros Hc. cbn [match_byte_token]. apply N.ltb_lt in Hc as Hb. rewrite Hb. now rewrite (proj1 (byte_facts c Hc)). Qed.
Lemma match_byte_token_char c vocab : (c < 256)%N -> match_byte_token (TPlain (spec_byte c)) vocab = Ok (dget vocab (TPlain [c])).
Proof.
  intros Hc. destruct (byte_facts c Hc) as [_ H]. unfold match_byte_token. change (spec_byte c) with (60%N :: 48%N :: 120%N :: hex_digit (c / 16) :: hex_digit (c mod 16) :: [62%N]) in *.
  cbn [u starts_with N_of_ascii app andb ends_with rev length Nat.eqb].
  rewrite H. match goal with |- (if ?c then _ else _) = _ => replace c with true by reflexivity end.
  replace (Z.of_N c <? 0)%Z with false by (symmetry; apply Z.ltb_ge; lia). now rewrite N2Z.id.
Qed.
Lemma match_byte_none t vocab : no_byte_form t -> match_byte_token t vocab = Ok None.
Proof.
  destruct t as [s|s|s]; try reflexivity. cbn [no_byte_form match_byte_token]. intros [H1 H6]. destruct s as [|c [|d s]]; try reflexivity; [cbn in H1; lia|].
  replace (Nat.eqb (length (c :: d :: s)) 6) with false by (symmetry; now apply Nat.eqb_neq). now rewrite !andb_false_r.
Qed.

(** ** prefixes *)
Lemma spaces_firstn j k t : (j <= k)%nat -> forallb is_space (firstn k t) = true -> forallb is_space (firstn j t) = true.
Proof.
  intros Hjk H. rewrite forallb_forall in *. intros x Hx. apply H. replace (firstn k t) with (firstn j (firstn k t) ++ skipn j (firstn k t)) by apply firstn_skipn.
  apply in_app_iff. left. now rewrite firstn_firstn, Nat.min_l by lia.
Qed.
Lemma first_of_prefixes (mk : text -> ntok) t vocab : forall i,
  match first_of (map mk (prefixes_from t i)) vocab with
  | Some n => exists j, (1 <= j <= i)%nat /\ dget vocab (mk (firstn j t)) = Some n /\ forallb is_space (firstn j t) = false /\
                        forall k, (j < k <= i)%nat -> dget vocab (mk (firstn k t)) = None
  | None => forall j, (1 <= j <= i)%nat -> forallb is_space (firstn j t) = false -> dget vocab (mk (firstn j t)) = None
  end.
Proof.
  induction i as [|i IH]; [cbn; intros; lia|]. cbn [prefixes_from]. destruct (forallb is_space (firstn (S i) t)) eqn:Es.
  - cbn [map first_of]. intros j Hj Hs. rewrite (spaces_firstn j (S i) t) in Hs by (auto; lia). discriminate.
  - cbn [map first_of]. destruct (dget vocab (mk (firstn (S i) t))) as [n|] eqn:Ed.
    + exists (S i). split; [lia|]. split; [exact Ed|]. split; [exact Es|]. intros; lia.
    + destruct (first_of (map mk (prefixes_from t i)) vocab) as [n|].
      * destruct IH as (j & Hj & H1 & H2 & H3). exists j. split; [lia|]. split; [exact H1|]. split; [exact H2|].
        intros k Hk. destruct (Nat.eq_dec k (S i)) as [->|]; [exact Ed|apply H3; lia].
      * intros j Hj Hs. destruct (Nat.eq_dec j (S i)) as [->|]; [exact Ed|apply IH; [lia|exact Hs]].
Qed.
Lemma not_spaces t : existsb (fun c => negb (is_space c)) t = negb (forallb is_space t).
Proof. induction t as [|c t IH]; [reflexivity|]. cbn. rewrite IH. now destruct (is_space c). Qed.

Lemma firstn_proper (mk : text -> ntok) t j : (mk = TPlain \/ mk = TStart) -> (1 <= j <= length t - 1)%nat -> forallb is_space (firstn j t) = false ->
  proper_prefix (mk (firstn j t)) (mk t).
Proof.
  intros Hmk Hj Hs. exists mk, (firstn j t), (skipn j t). split; [exact Hmk|]. rewrite firstn_skipn. split; [reflexivity|]. split; [reflexivity|].
  split; [|now rewrite not_spaces, Hs]. intros E. apply (f_equal (@length N)) in E. rewrite skipn_length in E. cbn in E. lia.
Qed.
Lemma proper_firstn p t : proper_prefix p t -> exists mk s j, (mk = TPlain \/ mk = TStart) /\ t = mk s /\ p = mk (firstn j s) /\
  (1 <= j <= length s - 1)%nat /\ forallb is_space (firstn j s) = false /\ length (firstn j s) = j.
Proof.
  intros (mk & a & b & Hmk & -> & -> & Hb & Hs). exists mk, (a ++ b), (length a). split; [exact Hmk|]. split; [reflexivity|].
  rewrite firstn_app, firstn_all, Nat.sub_diag. cbn [firstn]. rewrite app_nil_r. split; [reflexivity|]. rewrite app_length.
  rewrite not_spaces in Hs. apply negb_true_iff in Hs. split; [|auto]. destruct a; [discriminate|]. destruct b; [congruence|]. cbn. lia.
Qed.
Lemma prefixes_mk (mk : text -> ntok) s : (mk = TPlain \/ mk = TStart) -> token_prefixes (mk s) = map mk (prefixes_from s (length s - 1)).
Proof. intros [-> | ->]; reflexivity. Qed.
Lemma mk_inj (mk mk' : text -> ntok) s s' : (mk = TPlain \/ mk = TStart) -> (mk' = TPlain \/ mk' = TStart) -> mk s = mk' s' -> mk = mk' /\ s = s'.
Proof. intros [-> | ->] [-> | ->] E; inversion E; auto. Qed.
Lemma unnormalize_len (mk : text -> ntok) s s' : (mk = TPlain \/ mk = TStart) ->
  (length (unnormalize (mk s)) <= length (unnormalize (mk s')))%nat <-> (length s <= length s')%nat.
Proof. intros [-> | ->]; cbn; lia. Qed.

Section Match.
Context {V : Type}.
Variables (m : list V) (orig : dict ntok nat).
Hypothesis Hnd : NoDup (dkeys orig).
Notation sorig := (safe (length m) orig).

Lemma match_prefix_longest t p j : longest_known m orig t p -> known m orig p j -> match_prefix t sorig = Some j.
Proof.
  intros (Hp & _ & Hmax) Hk. destruct (proper_firstn p t Hp) as (mk & s & k & Hmk & -> & -> & Hr & Hs & Hl).
  unfold match_prefix. rewrite (prefixes_mk mk s Hmk). pose proof (first_of_prefixes mk s sorig (length s - 1)) as H.
  apply (safe_dget m orig _ _ Hnd) in Hk. destruct (first_of (map mk (prefixes_from s (length s - 1))) sorig) as [n|].
  - destruct H as (j' & Hj' & H1 & H2 & H3). destruct (lt_eq_lt_dec j' k) as [[Hlt|Heq]|Hgt].
    + rewrite H3 in Hk by lia. discriminate.
    + subst j'. congruence.
    + exfalso. pose proof (Hmax (mk (firstn j' s)) (firstn_proper mk s j' Hmk Hj' H2)) as Hle.
      rewrite (unnormalize_len mk _ _ Hmk) in Hle. rewrite !firstn_length in Hle. apply (safe_dget m orig _ _ Hnd) in H1.
      specialize (Hle (ex_intro _ n H1)). lia.
  - rewrite H in Hk by assumption. discriminate.
Qed.
Lemma match_prefix_none t : (forall p i, proper_prefix p t -> ~ known m orig p i) -> match_prefix t sorig = None.
Proof.
  intros Hno. destruct (match_prefix t sorig) as [n|] eqn:E; [exfalso|reflexivity]. unfold match_prefix in E.
  assert (Hgo : forall mk s, (mk = TPlain \/ mk = TStart) -> t = mk s -> False).
  { intros mk s Hmk ->. rewrite (prefixes_mk mk s Hmk) in E. pose proof (first_of_prefixes mk s sorig (length s - 1)) as H. rewrite E in H.
    destruct H as (j & Hj & H1 & H2 & _). apply (safe_dget m orig _ _ Hnd) in H1. exact (Hno _ _ (firstn_proper mk s j Hmk Hj H2) H1). }
  destruct t as [s|s|s]; [apply (Hgo TPlain s); auto|apply (Hgo TStart s); auto|discriminate].
Qed.
Lemma not_known t : (forall i, ~ known m orig t i) -> dget sorig t = None.
Proof. intros H. destruct (dget sorig t) as [i|] eqn:E; [|reflexivity]. apply (safe_dget m orig _ _ Hnd) in E. destruct (H i E). Qed.

Lemma match_exact ap ab t i : known m orig t i -> match_token ap ab sorig t = Ok (Some i).
Proof. intros H. apply (safe_dget m orig _ _ Hnd) in H. unfold match_token. now rewrite H. Qed.
Lemma match_byte ap c t t' i : (byte_pair c t t' \/ byte_pair c t' t) -> (forall i, ~ known m orig t i) -> known m orig t' i ->
  match_token ap true sorig t = Ok (Some i).
Proof.
  intros Hp Hn Hk. apply (safe_dget m orig _ _ Hnd) in Hk. unfold match_token. rewrite (not_known t Hn).
  destruct Hp as [(Hc & -> & ->)|(Hc & -> & ->)].
  - rewrite (match_byte_char c sorig Hc). cbn [rbind]. fold (spec_byte c) in Hk. now rewrite Hk.
  - fold (spec_byte c). rewrite (match_byte_token_char c sorig Hc). cbn [rbind]. now rewrite Hk.
Qed.
Lemma match_pre ab t p i : (ab = false \/ no_byte_form t) -> (forall i, ~ known m orig t i) -> longest_known m orig t p -> known m orig p i ->
  match_token true ab sorig t = Ok (Some i).
Proof.
  intros Hb Hn Hl Hk. unfold match_token. rewrite (not_known t Hn).
  replace (if ab then match_byte_token t sorig else Ok None) with (Ok (A := option nat) None).
  - cbn [rbind]. now rewrite (match_prefix_longest t p i Hl Hk).
  - destruct ab; [|reflexivity]. destruct Hb as [|Hb]; [discriminate|]. now rewrite match_byte_none.
Qed.
Lemma match_none ap ab t : (ab = false \/ no_byte_form t) -> (ap = false \/ forall p i, proper_prefix p t -> ~ known m orig p i) ->
  (forall i, ~ known m orig t i) -> match_token ap ab sorig t = Ok None.
Proof.
  intros Hb Hp Hn. unfold match_token. rewrite (not_known t Hn).
  replace (if ab then match_byte_token t sorig else Ok None) with (Ok (A := option nat) None).
  - cbn [rbind]. destruct ap; [|reflexivity]. destruct Hp as [|Hp]; [discriminate|]. now rewrite match_prefix_none.
  - destruct ab; [|reflexivity]. destruct Hb as [|Hb]; [discriminate|]. now rewrite match_byte_none.
Qed.
(** whatever is matched is a row of the matrix *)
Lemma match_in_range ap ab t j : match_token ap ab sorig t = Ok (Some j) -> (j < length m)%nat.
Proof.
  assert (Hd : forall t j, dget sorig t = Some j -> (j < length m)%nat) by (intros t' j' H; apply (safe_dget m orig _ _ Hnd) in H; apply H).
  unfold match_token. destruct (dget sorig t) as [i|] eqn:E; [intros [= <-]; eauto|].
  assert (Hb : forall o, match_byte_token t sorig = Ok (Some o) -> (o < length m)%nat).
  { intros o. unfold match_byte_token.
    destruct t as [s|s|s]; [|discriminate|discriminate].
    assert (Hlong : (if starts_with (u "<0x") s && ends_with (u ">") s && Nat.eqb (length s) 6
             then match int16 (firstn 2 (skipn 3 s)) with
                  | Some b => if (b <? 0)%Z then Err ValueError else Ok (dget sorig (TPlain [Z.to_N b])) | None => Ok None end
             else Ok None) = Ok (Some o) -> (o < length m)%nat).
    { repeat match goal with
        | |- context [if ?c then _ else _] => destruct c
        | |- context [match int16 ?x with _ => _ end] => destruct (int16 x) end; try discriminate.
      intros [= H]. eauto. }
    destruct s as [|c [|d s]]; [exact Hlong| |exact Hlong]. destruct (c <? 256)%N; [|discriminate]. intros [= H]. eauto. }
  assert (Hf : forall l j, first_of l sorig = Some j -> (j < length m)%nat).
  { induction l as [|x l IH]; intros j' H; cbn [first_of] in H; [discriminate|]. destruct (dget sorig x) eqn:Ex; [injection H as <-; eauto|eauto]. }
  destruct ab.
  - destruct (match_byte_token t sorig) as [[o|]|]; cbn [rbind]; [intros [= <-]; auto| |discriminate]. destruct ap; [|discriminate]. intros [= H]. exact (Hf _ _ H).
  - cbn [rbind]. destruct ap; [|discriminate]. intros [= H]. exact (Hf _ _ H).
Qed.
End Match.

(** ** the whole matrix *)
Section Whole.
Context {V : Type}.
Variable zero : V.
Variable approx : list ntok -> result (list V).
Variables (bs : option Z) (ap ab : bool) (orig_embed : list V) (rows : nat) (orig donor : dict ntok nat) (junk : list nat).
Hypothesis Horig : NoDup (dkeys orig).
Hypothesis Hdonor : is_vocab donor.
Notation sorig := (safe (length orig_embed) orig).
Notation mt := (match_token ap ab sorig).

Lemma build_inv out : build zero approx false bs ap ab orig_embed rows orig donor junk = Ok out ->
  donor <> [] /\ length out = Nat.max (length donor) (lmax (dvals donor) + 1) /\
  (forall i, In i junk \/ (In i (dvals donor) /\ rows <= i)%nat -> nth_error out i = Some zero) /\
  (forall t i j, In (t, i) donor -> (i < rows)%nat -> ~ In i junk -> mt t = Ok (Some j) ->
     (j < length orig_embed)%nat /\ nth_error out i = nth_error orig_embed j) /\
  (forall t i, In (t, i) donor -> (i < rows)%nat -> ~ In i junk -> mt t = Ok None ->
     exists ts es p v, In ts (batches bs (map fst (filter (fun ti => Nat.ltb (snd ti) rows && match mt (fst ti) with Ok None => true | _ => false end) donor))) /\
       approx ts = Ok es /\ nth_error ts p = Some t /\ nth_error es p = Some v /\ nth_error out i = Some v) /\
  (forall i, (i < length out)%nat -> ~ In i (dvals donor) -> nth_error out i = Some zero) /\
  (forall t i, In (t, i) donor -> (i < rows)%nat -> exists o, mt t = Ok o).
Proof.
  unfold build, out_size. destruct donor as [|d0 donor0] eqn:Edon; [discriminate|]. rewrite <- Edon in *. cbn [rbind]. intros E.
  assert (Hne : donor <> []) by (rewrite Edon; discriminate). clear Edon d0 donor0.
  set (size := Nat.max (length donor) (lmax (dvals donor) + 1)) in *.
  apply rbind_Ok in E as ([r1 new] & E1 & E). apply rbind_Ok in E as (r2 & E2 & E3).
  destruct (assign_spec ap ab sorig orig_embed rows donor _ _ _ _ E1) as (L1 & O1 & N1 & New & T1). cbn [app] in New.
  assert (Hinj := dget_inj donor Hdonor).
  assert (Hnew : forall t, In t new <-> exists i, In (t, i) donor /\ (i < rows)%nat /\ mt t = Ok None).
  { intros t. rewrite New, in_map_iff. split.
    - intros ((t' & i) & <- & Hin). apply filter_In in Hin as [Hin Hb]. cbn [fst snd] in *. apply andb_true_iff in Hb as [Hb1 Hb2].
      apply Nat.ltb_lt in Hb1. exists i. split; [exact Hin|]. split; [exact Hb1|]. destruct (mt t') as [[?|]|]; [discriminate|reflexivity|discriminate].
    - intros (i & Hin & Hi & Hm). exists (t, i). split; [reflexivity|]. apply filter_In. split; [exact Hin|]. cbn [fst snd].
      rewrite Hm. apply Nat.ltb_lt in Hi. now rewrite Hi. }
  assert (Hndnew : NoDup (concat (batches bs new))).
  { rewrite batches_concat, New. apply (filter_map_NoDup _ donor). apply Hdonor. }
  destruct (batch_phase approx donor Hinj (batches bs new) r1 r2 E2 Hndnew) as (L2 & N2 & O2).
  destruct (zero_spec zero _ _ _ E3) as (L3 & N3 & O3).
  assert (Hlen : length out = size) by (rewrite L3, L2, L1, repeat_length; reflexivity).
  assert (Hget : forall t i, In (t, i) donor -> dget donor t = Some i) by (intros t i; apply dget_In_NoDup, Hdonor).
  assert (Hval : forall t i, In (t, i) donor -> In i (dvals donor)) by (intros t i H; change i with (snd (t, i)); now apply in_map).
  assert (Huniq : forall t t' i, In (t, i) donor -> In (t', i) donor -> t = t') by (intros t t' i H1 H2; exact (Hinj t t' i (Hget _ _ H1) (Hget _ _ H2))).
  assert (Hnj : forall i, (i < rows)%nat -> ~ In i junk -> ~ In i (junk ++ filter (fun i => Nat.leb rows i) (dvals donor))).
  { intros i Hi Hj Hin. apply in_app_iff in Hin as [|Hin]; [contradiction|]. apply filter_In in Hin as [_ Hb]. apply Nat.leb_le in Hb. lia. }
  split; [exact Hne|]. split; [exact Hlen|]. split; [|split; [|split; [|split]]].
  - intros i Hi. apply N3, in_app_iff. destruct Hi as [Hi|[H1 H2]]; [now left|]. right. apply filter_In. split; [exact H1|now apply Nat.leb_le].
  - intros t i j Hin Hi Hj Hm. destruct (N1 (proj2 Hdonor) t i j Hin Hi Hm) as [Hr Hn]. split; [exact Hr|].
    rewrite O3 by auto. rewrite O2; [exact Hn|]. rewrite batches_concat. intros t' Ht' Ed. apply Hnew in Ht' as (i' & Hin' & _ & Hm').
    apply dget_In in Ed. rewrite (Huniq t' t i Ed Hin) in Hm'. congruence.
  - intros t i Hin Hi Hj Hm.
    assert (Ht : In t (concat (batches bs new))) by (rewrite batches_concat; apply Hnew; eauto).
    apply in_concat in Ht as (ts & Hts & Ht). apply In_nth_error in Ht as (p & Hp).
    destruct (N2 ts p t Hts Hp) as (es & i' & v & Ha & Hd & He & Hr). rewrite (Hget t i Hin) in Hd. injection Hd as <-.
    exists ts, es, p, v. rewrite New in Hts. split; [exact Hts|]. split; [exact Ha|]. split; [exact Hp|]. split; [exact He|]. rewrite O3 by auto. exact Hr.
  - intros i Hi Hni. destruct (in_dec Nat.eq_dec i junk) as [Hj|Hj]; [apply N3, in_app_iff; now left|].
    rewrite O3, O2, O1.
    + rewrite Hlen in Hi. apply nth_error_repeat. exact Hi.
    + intros t Ht. destruct (Hni (Hval t i Ht)).
    + intros t _ Ed. apply dget_In in Ed. exact (Hni (Hval t i Ed)).
    + intros Hin. apply in_app_iff in Hin as [|Hin]; [contradiction|]. apply filter_In in Hin as [Hin _]. contradiction.
  - exact T1.
Qed.

Lemma build_ok : donor <> [] -> (forall i, In i junk -> (i < Nat.max (length donor) (lmax (dvals donor) + 1))%nat) ->
  (forall t i, In (t, i) donor -> (i < rows)%nat -> exists o, mt t = Ok o) ->
  (forall ts, ts <> [] -> (forall t, In t ts -> exists i, In (t, i) donor /\ (i < rows)%nat) -> exists es, approx ts = Ok es /\ length es = length ts) ->
  exists out, build zero approx false bs ap ab orig_embed rows orig donor junk = Ok out.
Proof.
  intros Hne Hj Hm Ha. unfold build, out_size. destruct donor as [|d0 donor0] eqn:Edon; [congruence|]. rewrite <- Edon in *. cbn [rbind].
  clear Edon d0 donor0. set (size := Nat.max (length donor) (lmax (dvals donor) + 1)) in *.
  assert (Hin : forall t i, In (t, i) donor -> (i < size)%nat).
  { intros t i H. assert (Hv : In i (dvals donor)) by (change i with (snd (t, i)); now apply in_map). apply lmax_ge in Hv. unfold size. lia. }
  destruct (assign_ok ap ab sorig orig_embed rows) with (l := donor) (res := repeat zero size) (new := @nil ntok) as ([r1 new] & E1).
  - intros t j H. apply (safe_dget orig_embed orig _ _ Horig) in H. apply H.
  - intros t i H. rewrite repeat_length. eauto.
  - exact Hm.
  - intros t i j _ H. exact (match_in_range orig_embed orig Horig ap ab t j H).
  - rewrite E1. cbn [rbind]. destruct (assign_spec ap ab sorig orig_embed rows donor _ _ _ _ E1) as (L1 & _ & _ & New & _). cbn [app] in New. rewrite repeat_length in L1.
    assert (Hnew : forall t, In t new -> exists i, In (t, i) donor /\ (i < rows)%nat).
    { intros t. rewrite New, in_map_iff. intros ((t' & i) & <- & H). apply filter_In in H as [H Hb]. cbn [fst snd] in *. apply andb_true_iff in Hb as [Hb _].
      apply Nat.ltb_lt in Hb. eauto. }
    destruct (batch_ok approx donor (batches bs new) r1) as (r2 & E2 & L2).
    + rewrite batches_concat. intros t Ht. destruct (Hnew t Ht) as (i & H & _). exists i. split; [apply dget_In_NoDup; [apply Hdonor|exact H]|]. rewrite L1. eauto.
    + intros ts Hts. apply Ha; [intros ->; exact (batches_nonempty bs new Hts)|]. intros t Ht. apply Hnew. rewrite <- (batches_concat bs new). apply in_concat. eauto.
    + rewrite E2. cbn [rbind]. apply zero_ok. intros i Hi. rewrite L2, L1. apply in_app_iff in Hi as [Hi|Hi]; [auto|].
      apply filter_In in Hi as [Hi _]. apply lmax_ge in Hi. unfold size. lia.
Qed.
End Whole.
