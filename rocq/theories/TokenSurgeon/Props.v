(** C47: token surgery. *)
From Verif.Base Require Import Py PyFacts.
From Verif.TokenSurgeon Require Import Model Spec Proofs MatchProofs.
Local Open Scope string_scope.
Local Open Scope list_scope.

Section C47.
Context {V : Type}.
Variable zero : V.
Variable approx : list ntok -> result (list V).
Variables (bs : option Z) (ap ab : bool) (orig_embed : list V) (rows : nat) (orig donor : dict ntok nat) (junk : list nat).
Hypothesis Horig : is_vocab orig.
Hypothesis Hdonor : is_vocab donor.
Variable out : list V.
Hypothesis Hrun : build zero approx false bs ap ab orig_embed rows orig donor junk = Ok out.

(** The new matrix has a row for every donor id. *)
Theorem C47_size : (forall t i, In (t, i) donor -> i < length out) /\ length donor <= length out /\
  forall n, (forall t i, In (t, i) donor -> i < n) -> length donor <= n -> length out <= n.
Proof.
  destruct (build_inv zero approx bs ap ab orig_embed rows orig donor junk Hdonor out Hrun) as (Hne & Hl & _).
  split; [|split].
  - intros t i Hin. assert (Hv : In i (dvals donor)) by (change i with (snd (t, i)); now apply in_map). apply lmax_ge in Hv. lia.
  - lia.
  - intros n Hn Hlen. rewrite Hl. assert (Hmax : lmax (dvals donor) < n); [|lia].
    assert (H : forall l, l <> [] -> (forall x, In x l -> x < n) -> lmax l < n).
    { clear. induction l as [|x l IH]; intros Hne H; [congruence|]. cbn. pose proof (H x (or_introl eq_refl)).
      destruct l as [|y l]; [cbn; lia|]. specialize (IH ltac:(discriminate) ltac:(intros; apply H; now right)). unfold lmax in IH. lia. }
    apply H; [destruct donor; [congruence|discriminate]|]. intros x Hx. apply in_map_iff in Hx as ((t & i) & <- & Hin). exact (Hn t i Hin).
Qed.

(** A donor token known to the original model takes the original model's row, whatever the matching options. *)
Theorem C47_exact t i j : In (t, i) donor -> i < rows -> ~ In i junk -> known orig_embed orig t j ->
  nth_error out i = nth_error orig_embed j /\ nth_error out i <> None.
Proof.
  intros Hin Hi Hj Hk. destruct (build_inv zero approx bs ap ab orig_embed rows orig donor junk Hdonor out Hrun) as (_ & _ & _ & H & _).
  destruct (H t i j Hin Hi Hj (match_exact orig_embed orig (proj1 Horig) ap ab t j Hk)) as [Hr E]. split; [exact E|].
  rewrite E. apply nth_error_Some. exact Hr.
Qed.

(** With byte matching, a character takes the row of its byte token and a byte token that of its character. *)
Theorem C47_byte c t t' i j : ab = true -> In (t, i) donor -> i < rows -> ~ In i junk -> (forall j, ~ known orig_embed orig t j) ->
  byte_pair c t t' \/ byte_pair c t' t -> known orig_embed orig t' j -> nth_error out i = nth_error orig_embed j.
Proof.
  intros Hab Hin Hi Hj Hn Hp Hk. destruct (build_inv zero approx bs ap ab orig_embed rows orig donor junk Hdonor out Hrun) as (_ & _ & _ & H & _).
  refine (proj2 (H t i j Hin Hi Hj _)). rewrite Hab. exact (match_byte orig_embed orig (proj1 Horig) ap c t t' j Hp Hn Hk).
Qed.

(** With prefix matching, another token takes the row of its longest known proper prefix of the same kind. *)
Theorem C47_prefix t p i j : ap = true -> ab = false \/ no_byte_form t -> In (t, i) donor -> i < rows -> ~ In i junk ->
  (forall j, ~ known orig_embed orig t j) -> longest_known orig_embed orig t p -> known orig_embed orig p j ->
  nth_error out i = nth_error orig_embed j.
Proof.
  intros Hap Hb Hin Hi Hj Hn Hl Hk. destruct (build_inv zero approx bs ap ab orig_embed rows orig donor junk Hdonor out Hrun) as (_ & _ & _ & H & _).
  refine (proj2 (H t i j Hin Hi Hj _)). rewrite Hap. exact (match_pre orig_embed orig (proj1 Horig) ab t p j Hb Hn Hl Hk).
Qed.

(** Every other donor token gets the row the approximation computed for it, in the batch where it was computed. *)
Theorem C47_approximated t i : ab = false \/ no_byte_form t -> ap = false \/ (forall p j, proper_prefix p t -> ~ known orig_embed orig p j) ->
  In (t, i) donor -> i < rows -> ~ In i junk -> (forall j, ~ known orig_embed orig t j) ->
  exists ts es k v, approx ts = Ok es /\ nth_error ts k = Some t /\ nth_error es k = Some v /\ nth_error out i = Some v.
Proof.
  intros Hb Hp Hin Hi Hj Hn. destruct (build_inv zero approx bs ap ab orig_embed rows orig donor junk Hdonor out Hrun) as (_ & _ & _ & _ & H & _).
  destruct (H t i Hin Hi Hj (match_none orig_embed orig (proj1 Horig) ap ab t Hb Hp Hn)) as (ts & es & k & v & _ & H1 & H2 & H3 & H4). eauto 8.
Qed.
(** When the approximation treats each token on its own, the row does not depend on the batch size. *)
Theorem C47_batching (f : ntok -> V) t i : (forall ts, approx ts = Ok (map f ts)) ->
  ab = false \/ no_byte_form t -> ap = false \/ (forall p j, proper_prefix p t -> ~ known orig_embed orig p j) ->
  In (t, i) donor -> i < rows -> ~ In i junk -> (forall j, ~ known orig_embed orig t j) -> nth_error out i = Some (f t).
Proof.
  intros Hf Hb Hp Hin Hi Hj Hn. destruct (C47_approximated t i Hb Hp Hin Hi Hj Hn) as (ts & es & k & v & Ha & H1 & H2 & H3).
  rewrite Hf in Ha. injection Ha as <-. rewrite H3. rewrite nth_error_map, H1 in H2. cbn in H2. congruence.
Qed.

(** Junk ids, ids beyond the donor's matrix and ids no donor token has get a zero row. *)
Theorem C47_zeroed i : i < length out -> In i junk \/ ~ In i (dvals donor) \/ rows <= i -> nth_error out i = Some zero.
Proof.
  intros Hl H. destruct (build_inv zero approx bs ap ab orig_embed rows orig donor junk Hdonor out Hrun) as (_ & _ & H1 & _ & _ & H2 & _).
  destruct (in_dec Nat.eq_dec i (dvals donor)) as [Hd|Hd]; [|auto]. apply H1. destruct H as [H|[H|H]]; [now left|contradiction|now right].
Qed.
End C47.

(** The construction succeeds whenever the approximation does; with byte matching on, the tokens that look like byte
    tokens must not have a minus sign. *)
Theorem C47_succeeds {V} (zero : V) approx bs ap ab orig_embed rows orig donor junk :
  is_vocab orig -> is_vocab donor -> donor <> [] -> (forall i, In i junk -> In i (dvals donor)) ->
  (ab = false \/ forall t i, In (t, i) donor -> no_byte_form t \/ exists c t', byte_pair c t t' \/ byte_pair c t' t) ->
  (forall ts, ts <> [] -> (forall t, In t ts -> exists i, In (t, i) donor /\ i < rows) -> exists es, approx ts = Ok es /\ length es = length ts) ->
  exists out, build zero approx false bs ap ab orig_embed rows orig donor junk = Ok out.
Proof.
  intros Ho Hd Hne Hj Hb Ha. apply build_ok; auto.
  - apply Ho.
  - intros i Hi. apply Hj, lmax_ge in Hi. lia.
  - intros t i Hin _. unfold match_token. destruct (dget (safe (length orig_embed) orig) t) as [j|]; [eauto|].
    destruct ab; [|cbn [rbind]; eauto]. destruct Hb as [|Hb]; [discriminate|].
    assert (H : exists o, match_byte_token t (safe (length orig_embed) orig) = Ok o).
    { destruct (Hb t i Hin) as [Hn|(c & t' & [(Hc & -> & _)|(Hc & _ & ->)])].
      - rewrite match_byte_none by exact Hn. eauto.
      - rewrite match_byte_char by exact Hc. eauto.
      - fold (spec_byte c). rewrite match_byte_token_char by exact Hc. eauto. }
    destruct H as ([j|] & ->); cbn [rbind]; eauto.
Qed.

(** The vocabulary normalisation of a tokenizer keeps ids unique. *)
Lemma dset_vocab {K} `{Eqb K} (d : dict K nat) k v : NoDup (dvals d) -> ~ In v (dvals d) ->
  NoDup (dvals (dset d k v)) /\ forall x, In x (dvals (dset d k v)) -> x = v \/ In x (dvals d).
Proof.
  unfold dvals. induction d as [|[k' v'] d IH]; intros Hnd Hni; cbn [dset map snd].
  - split; [repeat constructor; intros []|]. intros x [<-|[]]. now left.
  - cbn [map snd] in *. inversion Hnd as [|? ? Hn1 Hn2]; subst. destruct (eqb k k'); cbn [map snd].
    + split; [constructor; [|exact Hn2]; intros Hin; apply Hni; now right|]. intros x [<-|Hx]; [now left|right; now right].
    + destruct (IH Hn2 ltac:(intros Hin; apply Hni; now right)) as [H1 H2]. split.
      * constructor; [|exact H1]. intros Hin. destruct (H2 _ Hin) as [->|Hx]; [apply Hni; now left|contradiction].
      * intros x [<-|Hx]; [right; now left|]. destruct (H2 x Hx) as [->|Hx2]; [now left|right; now right].
Qed.
Theorem C47_normalized s specials vocab : is_vocab vocab -> is_vocab (normalized_vocabulary s specials vocab) /\
  (forall t i, In (t, i) (normalized_vocabulary s specials vocab) ->
     exists w, In (w, i) vocab /\ t = normalize_token specials (word_start s vocab) w).
Proof.
  intros [_ Hv]. unfold normalized_vocabulary, dict_of. set (f := normalize_token specials (word_start s vocab)). clearbody f.
  assert (H : forall (l : list (text * nat)) (acc : dict ntok nat), NoDup (dkeys acc) -> NoDup (dvals acc) -> NoDup (dvals l) ->
     (forall x, In x (dvals acc) -> ~ In x (dvals l)) ->
     let r := fold_left (fun d kv => dset d (fst kv) (snd kv)) (map (fun ti => (f (fst ti), snd ti)) l) acc in
     NoDup (dkeys r) /\ NoDup (dvals r) /\ forall t i, In (t, i) r -> In (t, i) acc \/ exists w, In (w, i) l /\ t = f w).
  { induction l as [|[w i] l IH]; intros acc H1 H2 H3 H4; cbn [map fold_left fst snd]; [auto|].
    unfold dvals in H3. cbn [map snd] in H3. inversion H3 as [|? ? Hni Hnd]; subst. fold (dvals l) in *.
    assert (Hi : ~ In i (dvals acc)) by (intros Hin; apply (H4 i Hin); now left).
    destruct (dset_vocab acc (f w) i H2 Hi) as [H5 H6].
    destruct (IH (dset acc (f w) i)) as (R1 & R2 & R3); auto.
    - now apply dkeys_dset_NoDup.
    - intros x Hx Hl. destruct (H6 x Hx) as [->|Hx2]; [contradiction|]. apply (H4 x Hx2). now right.
    - split; [exact R1|]. split; [exact R2|]. intros t j Hin. destruct (R3 t j Hin) as [Hin2|(w' & Hw & E)].
      + pose proof (dget_In_NoDup _ _ _ (dkeys_dset_NoDup acc (f w) i H1) Hin2) as Hd.
        destruct (eqb_spec t (f w)) as [->|Hne].
        * rewrite dget_dset_eq in Hd. injection Hd as <-. right. exists w. split; [now left|reflexivity].
        * rewrite dget_dset_neq in Hd by congruence. apply dget_In in Hd. now left.
      + right. exists w'. split; [now right|exact E]. }
  destruct (H vocab [] (NoDup_nil _) (NoDup_nil _) Hv) as (H1 & H2 & H3); [intros ? []|]. split; [split; assumption|].
  intros t i Hin. destruct (H3 t i Hin) as [[]|(w & Hw & E)]. eauto.
Qed.

(** What becomes of a token's text: the word-start marker is recognised first, then the special tokens; nothing else is
    altered. *)
Lemma starts_with_app p : forall r, starts_with p (p ++ r) = true.
Proof. induction p as [|a p IH]; intros r; cbn [starts_with app]; [reflexivity|]. rewrite N.eqb_refl. apply IH. Qed.
Lemma starts_with_inv p : forall t, starts_with p t = true -> exists r, t = p ++ r.
Proof.
  induction p as [|a p IH]; intros [|b t]; cbn [starts_with]; try discriminate; [now exists []|now exists (b :: t)|].
  intros E. apply andb_true_iff in E as [E1 E2]. apply N.eqb_eq in E1 as ->. destruct (IH t E2) as [r ->]. now exists r.
Qed.
Theorem C47_token specials prefix t :
  (forall rest, t = prefix ++ rest -> normalize_token specials prefix t = TStart rest) /\
  ((forall rest, t <> prefix ++ rest) ->
     ((forall k l, In (k, l) specials -> ~ In t l) -> normalize_token specials prefix t = TPlain t) /\
     ((exists k l, In (k, l) specials /\ In t l) ->
        exists k l, In (k, l) specials /\ In t l /\ normalize_token specials prefix t = TSpecial k)).
Proof.
  split.
  - intros rest ->. unfold normalize_token. rewrite starts_with_app, skipn_app, skipn_all, Nat.sub_diag. reflexivity.
  - intros Hn. unfold normalize_token. destruct (starts_with prefix t) eqn:E.
    { apply starts_with_inv in E as [r ->]. contradiction (Hn r eq_refl). }
    match goal with |- context[find ?f specials] => destruct (find f specials) as [[k l]|] eqn:Ef end.
    + apply find_some in Ef as [Hin Hm]. cbn [snd] in Hm. apply mem_In in Hm. split; [intros H; contradiction (H k l Hin Hm)|].
      intros _. exists k, l. auto.
    + pose proof (find_none _ _ Ef) as Hno. split; [reflexivity|]. intros (k & l & Hin & Hl). specialize (Hno _ Hin). cbn [snd] in Hno.
      apply mem_In in Hl. exfalso. refine (eq_true_false_abs _ Hl Hno).
Qed.

(** A matrix the original model lacks is skipped when the architecture calls it optional and is an error otherwise; one it
    has is always rebuilt, and needs the donor's. *)
Theorem C47_missing {V} (zero : V) approx c karp eo lo oe de oh dh ov dv e h :
  surgery zero approx c karp eo lo oe de oh dh ov dv = Ok (e, h) ->
  (oe = None -> e = None /\ eo = true) /\ (oh = None -> h = None /\ lo = true) /\
  (oe <> None -> e <> None /\ de <> None) /\ (oh <> None -> h <> None /\ dh <> None).
Proof.
  unfold surgery. destruct (match karp with Some _ => _ | None => _ end) as [ov' junk]. intros E.
  apply rbind_Ok in E as (e' & Ee & E). apply rbind_Ok in E as (h' & Eh & E). assert (e' = e /\ h' = h) as [-> ->] by (split; congruence). clear E.
  assert (H : forall is_head opt o d m, one_matrix zero approx c is_head opt o d ov' dv junk = Ok m ->
    (o = None -> m = None /\ opt = true) /\ (o <> None -> m <> None /\ d <> None)).
  { intros is_head opt o d m Em. unfold one_matrix in Em. destruct o as [o|].
    - split; [discriminate|]. intros _. destruct d; [|discriminate]. apply rbind_Ok in Em as (x & _ & Em). split; congruence.
    - split; [|congruence]. intros _. destruct opt; [|discriminate]. split; congruence. }
  pose proof (H _ _ _ _ _ Ee). pose proof (H _ _ _ _ _ Eh). tauto.
Qed.

(** ** The command line *)
(** With the options set to yes or no, both matrices are built with them; [Yes] and [No] mean what they say. *)
Theorem C47_options_partial {V} (zero : V) approx c (is_head optional : bool) o d ov dv junk m :
  In (c_prefix c) [Yes; No] -> In (c_byte c) [Yes; No] ->
  one_matrix zero approx c is_head optional (Some o) (Some d) ov dv junk = Ok (Some m) ->
  build zero (approx is_head o d (safe (length o) ov) (safe (length d) dv)) (c_stb c) (c_batch c)
    (match c_prefix c with Yes => true | _ => false end) (match c_byte c with Yes => true | _ => false end)
    o (length d) ov dv junk = Ok m.
Proof.
  intros H1 H2 E. cbn [one_matrix] in E. apply rbind_Ok in E as (m' & E & Em). injection Em as <-. rewrite <- E.
  destruct H1 as [<-|[<-|[]]], H2 as [<-|[<-|[]]]; destruct is_head; reflexivity.
Qed.

(** --prefix-match=lm_head and --byte-match=lm_head are applied to the input embedding and not to the output one, and
    conversely for embed. *)
Theorem C47_options_swapped_refuted {V} (zero : V) approx c optional o d ov dv junk :
  c_prefix c = LmHeadOnly -> c_byte c = LmHeadOnly ->
  one_matrix zero approx c false optional (Some o) (Some d) ov dv junk =
    rmap Some (build zero (approx false o d (safe (length o) ov) (safe (length d) dv)) (c_stb c) (c_batch c) true true o (length d) ov dv junk) /\
  one_matrix zero approx c true optional (Some o) (Some d) ov dv junk =
    rmap Some (build zero (approx true o d (safe (length o) ov) (safe (length d) dv)) (c_stb c) (c_batch c) false false o (length d) ov dv junk).
Proof.
  intros H1 H2. unfold one_matrix. rewrite H1, H2. cbn [lm_head_allows embed_allows]. split.
  all: destruct (build _ _ _ _ _ _ _ _ _ _ _); reflexivity.
Qed.

(** Nothing is ever done for the sparse token basis. *)
Theorem C47_stb_refuted {V} (zero : V) approx bs ap ab orig_embed rows orig donor junk :
  donor <> [] -> build zero approx true bs ap ab orig_embed rows orig donor junk = Err TypeError.
Proof. intros H. unfold build, out_size. destruct donor; [congruence|reflexivity]. Qed.

(** --magikarp: a donor token is zeroed when neither model trained it well, and a token known to the original model is
    copied only when both did. *)
Theorem C47_magikarp wo wd (orig donor : dict ntok nat) :
  (forall i, In i (magikarp_junk wo wd donor) <-> exists t, In (t, i) donor /\ ~ In t wd /\ ~ In t wo) /\
  (forall t i, In (t, i) (magikarp_orig wo wd orig) <-> In (t, i) orig /\ In t wo /\ In t wd).
Proof.
  split.
  - intros i. unfold magikarp_junk, dvals. rewrite in_map_iff. split.
    + intros ((t & i') & <- & H). apply filter_In in H as [H Hb]. cbn [fst snd] in *. apply andb_true_iff in Hb as [H1 H2].
      apply negb_true_iff in H1, H2. apply mem_nIn in H1, H2. eauto.
    + intros (t & H & H1 & H2). exists (t, i). split; [reflexivity|]. apply filter_In. split; [exact H|]. cbn [fst].
      apply mem_nIn in H1, H2. now rewrite H1, H2.
  - intros t i. unfold magikarp_orig. rewrite filter_In. cbn [fst]. rewrite andb_true_iff, !mem_In. reflexivity.
Qed.

(** What is written: the new matrices under their names, everything else unchanged, one tensor per weight that exists. *)
Theorem C47_saved {T} (get : string -> option T) embed head new_embed new_head weights l :
  embed <> head -> NoDup (map fst weights) -> save_weights get embed head new_embed new_head weights = Ok l ->
  NoDup (map fst l) /\
  (forall w t, In (w, t) l -> w <> embed -> w <> head -> get w = Some t) /\
  (forall t, In (embed, t) l -> new_embed = Some t) /\ (forall t, In (head, t) l -> new_head = Some t) /\
  (forall w o, In (w, o) weights -> ~ In w (map fst l) -> o = true).
Proof.
  intros Hne Hnd E. unfold save_weights in E. apply rbind_Ok in E as (ls & E & El). injection El as <-.
  set (pick := fun w => if eqb w embed then new_embed else if eqb w head then new_head else get w).
  assert (H : NoDup (map fst (concat ls)) /\ (forall w t, In (w, t) (concat ls) -> pick w = Some t /\ In w (map fst weights)) /\
     (forall w o, In (w, o) weights -> ~ In w (map fst (concat ls)) -> o = true)).
  { revert ls E Hnd. induction weights as [|[w o] weights IH]; intros ls E Hnd; cbn [rmapM] in E.
    - injection E as <-. split; [constructor|]. split; intros ? ? [].
    - apply rbind_Ok in E as (x & E1 & E). apply rbind_Ok in E as (ls' & E2 & E). injection E as <-.
      cbn [map fst] in Hnd. inversion Hnd as [|? ? Hni Hnd']; subst. destruct (IH ls' E2 Hnd') as (I1 & I2 & I3). clear IH.
      fold (pick w) in E1. cbn [concat]. destruct (pick w) as [t|] eqn:Ep.
      + injection E1 as <-. cbn [app map fst]. split; [|split].
        * constructor; [|exact I1]. intros Hin. apply in_map_iff in Hin as ((w' & t') & Hw & Hin). cbn in Hw. subst w'. apply Hni. exact (proj2 (I2 w t' Hin)).
        * intros w' t' [[= <- <-]|Hin]; [split; [exact Ep|now left]|]. destruct (I2 w' t' Hin). split; [assumption|now right].
        * intros w' o' [[= <- <-]|Hin] Hn; [exfalso; apply Hn; now left|]. apply (I3 w' o' Hin). intros H. apply Hn. now right.
      + destruct o; [|discriminate]. injection E1 as <-. cbn [app]. split; [exact I1|]. split.
        * intros w' t' Hin. destruct (I2 w' t' Hin). split; [assumption|now right].
        * intros w' o' [[= <- <-]|Hin] Hn; [reflexivity|]. exact (I3 w' o' Hin Hn). }
  destruct H as (H1 & H2 & H3). split; [exact H1|]. unfold pick in H2. split; [|split; [|split; [|exact H3]]].
  - intros w t Hin Hw1 Hw2. destruct (H2 w t Hin) as [H _]. rewrite (proj2 (eqb_neq w embed) Hw1), (proj2 (eqb_neq w head) Hw2) in H. exact H.
  - intros t Hin. destruct (H2 embed t Hin) as [H _]. now rewrite eqb_refl in H.
  - intros t Hin. destruct (H2 head t Hin) as [H _]. rewrite (proj2 (eqb_neq head embed)), eqb_refl in H by congruence. exact H.
Qed.

(** ** What does not hold *)
(** All the additional special tokens of a tokenizer are normalised to one and the same token, so of the tokens
    present in both tokenizers only the last one is copied: the others get a zero row. *)
Definition ex_specials : dict text (list text) := [(u "additional_special_tokens", [u "<|im_start|>"; u "<|im_end|>"])].
Definition ex_vocab : dict text nat := [(u "a", 0); (u "<|im_start|>", 1); (u "<|im_end|>", 2)].
Theorem C47_special_tokens_refuted :
  let v := normalized_vocabulary SentencePiece ex_specials ex_vocab in
  v = [(TPlain (u "a"), 0); (TSpecial (u "additional_special_tokens"), 2)] /\
  build 0 (fun ts => Ok (map (fun _ => 99) ts)) false None true true [10; 11; 12] 3 v v [] = Ok [10; 0; 12].
Proof. split; reflexivity. Qed.

(** A donor token whose id lies beyond the donor's matrix gets a zero row even when the original model knows it. *)
Theorem C47_beyond_donor_refuted :
  build 0 (fun ts => Ok (map (fun _ => 99) ts)) false None false false [10; 11] 1
    [(TPlain (u "a"), 0); (TPlain (u "b"), 1)] [(TPlain (u "a"), 0); (TPlain (u "b"), 1)] [] = Ok [10; 0].
Proof. reflexivity. Qed.

(** A donor token "<0x-1>" ends the run with an uncaught ValueError when byte matching is on, whatever else there is. *)
Theorem C47_minus_sign_refuted {V} (zero : V) approx bs ap orig_embed rows orig donor junk i :
  is_vocab orig -> is_vocab donor -> In (TPlain (u "<0x-1>"), i) donor -> i < rows ->
  (forall j, ~ known orig_embed orig (TPlain (u "<0x-1>")) j) ->
  exists e, build zero approx false bs ap true orig_embed rows orig donor junk = Err e.
Proof.
  intros Ho Hd Hin Hi Hn. destruct (build zero approx false bs ap true orig_embed rows orig donor junk) as [out|e] eqn:E; [exfalso|eauto].
  destruct (build_inv zero approx bs ap true orig_embed rows orig donor junk Hd out E) as (_ & _ & _ & _ & _ & _ & H).
  destruct (H _ _ Hin Hi) as (o & Hm). unfold match_token in Hm. rewrite (not_known orig_embed orig (proj1 Ho) _ Hn) in Hm. discriminate.
Qed.

Example C47_nonvacuous :
  let orig := [(TPlain (u "a"), 0); (TPlain (u "<0x41>"), 1); (TStart (u "wo"), 2); (TPlain (u "gone"), 7)] in
  let donor := [(TPlain (u "A"), 0); (TPlain (u "a"), 1); (TStart (u "words"), 2); (TPlain (u "gone"), 4); (TPlain (u "zzz"), 5); (TPlain (u "<0x61>"), 6)] in
  is_vocab orig /\ is_vocab donor /\
  build 0 (fun ts => Ok (map (fun _ => 99) ts)) false (Some 1%Z) true true [10; 11; 12] 7 orig donor [5] =
    Ok [11; 10; 12; 0; 99; 0; 10].
Proof.
  split; [split; vm_compute; repeat constructor; cbn; intuition discriminate|].
  split; [split; vm_compute; repeat constructor; cbn; intuition discriminate|]. reflexivity.
Qed.
Example C47_minus_sign_nonvacuous :
  build 0 (fun ts => Ok (map (fun _ => 99) ts)) false None false true [10] 2 [(TPlain (u "a"), 0)] [(TPlain (u "a"), 0); (TPlain (u "<0x-1>"), 1)] [] = Err ValueError.
Proof. reflexivity. Qed.
Example C47_options_nonvacuous :
  let c := {| c_stb := false; c_batch := None; c_prefix := LmHeadOnly; c_byte := No |} in
  let ov := [(TPlain (u "ab"), 0)] in let dv := [(TPlain (u "abc"), 0)] in
  surgery 0 (fun _ _ _ _ _ ts => Ok (map (fun _ => 99) ts)) c None false true (Some [10]) (Some [20]) (Some [30]) (Some [40]) ov dv =
    Ok (Some [10], Some [99]).
Proof. reflexivity. Qed.
Example C47_saved_nonvacuous :
  save_weights (fun w => if eqb w "mlp" then Some 5 else None) "embed" "head" (Some 1) None
    [("embed", false); ("mlp", false); ("bias", true); ("head", true)] = Ok [("embed", 1); ("mlp", 5)].
Proof. reflexivity. Qed.

Print Assumptions C47_size.
Print Assumptions C47_exact.
Print Assumptions C47_byte.
Print Assumptions C47_prefix.
Print Assumptions C47_approximated.
Print Assumptions C47_batching.
Print Assumptions C47_zeroed.
Print Assumptions C47_succeeds.
Print Assumptions C47_normalized.
Print Assumptions C47_options_partial.
Print Assumptions C47_options_swapped_refuted.
Print Assumptions C47_stb_refuted.
Print Assumptions C47_magikarp.
Print Assumptions C47_saved.
Print Assumptions C47_special_tokens_refuted.
Print Assumptions C47_beyond_donor_refuted.
Print Assumptions C47_minus_sign_refuted.
