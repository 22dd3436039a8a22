(** C34 and C36: the union vocabulary, permutations, padding. *)
From Coq Require Import Reals.
From Verif.Base Require Import Py PyFacts RList.
From Verif.Tokenizer Require Import Model Spec Proofs.
Local Open Scope string_scope.
Local Open Scope list_scope.
Local Open Scope Z_scope.

(** ** C34 *)
(** Adding tokens never renumbers: ids stay 0..n-1, known tokens keep their id, and exactly the
    non-empty new tokens appear. *)
Theorem C34_add_tokens : forall t l, well_numbered t ->
  well_numbered (fold_left add_token l t) /\
  (forall s i, dget (t_vocab t) s = Some i -> dget (t_vocab (fold_left add_token l t)) s = Some i) /\
  (forall s, In s (dkeys (t_vocab (fold_left add_token l t))) <->
     In s (dkeys (t_vocab t)) \/ (In s (map a_content l) /\ s <> "")).
Proof.
  intros t l W. split; [apply add_tokens_wf, W|]. split; [intros s i; apply add_tokens_keeps | apply add_tokens_keys].
Qed.

(** The union tokenizer: ids 0..n-1 without gaps or clashes; the base model's tokens keep their
    ids; the tokens are those of the base and every (non-empty) token any model has below its
    vocabulary size, and no others.  [size] is the config's vocabulary size or the tokenizer's own. *)
Theorem C34_union : forall base toks, well_numbered base ->
  (forall m t cfg, In (m, (t, cfg)) toks -> NoDup (dkeys (t_vocab t)) /\ coherent t) ->
  let out := build_union base toks in
  contiguous (t_vocab out) /\
  (forall s i, dget (t_vocab base) s = Some i -> dget (t_vocab out) s = Some i) /\
  (forall s, In s (dkeys (t_vocab out)) <->
     In s (dkeys (t_vocab base)) \/
     (s <> "" /\ exists m t cfg i, In (m, (t, cfg)) toks /\ dget (t_vocab t) s = Some i /\
        i < match cfg with Some n => if n =? 0 then t_size t else n | None => t_size t end)).
Proof.
  intros base toks W Ht out. unfold out. rewrite build_union_adds.
  split; [apply add_tokens_wf, W|]. split; [intros s i; apply add_tokens_keeps|].
  intros s. rewrite add_tokens_keys, union_adds_In by exact Ht. unfold known, size_or. tauto.
Qed.

(** The order in which the models and their vocabularies are visited does not change which
    tokens the union has. *)
Theorem C34_union_order : forall base toks toks', well_numbered base ->
  (forall m t cfg, In (m, (t, cfg)) toks -> NoDup (dkeys (t_vocab t)) /\ coherent t) ->
  (forall m t cfg, In (m, (t, cfg)) toks' -> NoDup (dkeys (t_vocab t)) /\ coherent t) ->
  (forall m t cfg, In (m, (t, cfg)) toks <-> In (m, (t, cfg)) toks') ->
  forall s, In s (dkeys (t_vocab (build_union base toks))) <-> In s (dkeys (t_vocab (build_union base toks'))).
Proof.
  intros base toks toks' W Ht Ht' Heq s.
  destruct (C34_union base toks W Ht) as (_ & _ & H1). destruct (C34_union base toks' W Ht') as (_ & _ & H2).
  rewrite H1, H2. split; (intros [Hs|(Hne & m & t & cfg & i & Hin & Hr)]; [left; exact Hs|]; right; split; [exact Hne|];
    exists m, t, cfg, i; split; [apply Heq, Hin | exact Hr]).
Qed.

(** build_tokenizer: the union plus the configured tokens; each model's permutation maps the output
    id of a token to the model's own id, to -1 when the model lacks the token, and has no entry when
    the model's id is in its padding. *)
Definition own_vocab (base_model : string) (base : tok) (loaded : dict string tok) (m : string) : dict string Z :=
  if eqb m base_model then t_vocab base
  else match dget loaded m with Some t => t_vocab t | None => t_vocab base end.
Lemma dget_dict_of_map {V} (f : string -> V) l m : In m l -> dget (dict_of (map (fun m => (m, f m)) l)) m = Some (f m).
Proof.
  unfold dict_of. intros Hm.
  assert (H : forall l d, (In m l \/ dget d m = Some (f m)) ->
    dget (fold_left (fun d kv => dset d (fst kv) (snd kv)) (map (fun m => (m, f m)) l) d) m = Some (f m)).
  { clear. induction l as [|x l IH]; intros d Hd; cbn; [destruct Hd as [[]|Hd]; exact Hd|].
    apply IH. rewrite dget_dset. destruct (eqb_spec m x) as [->|Hne]; [right; reflexivity|].
    destruct Hd as [[->|Hd]|Hd]; [contradiction | left; exact Hd | right; exact Hd]. }
  apply H. left; exact Hm.
Qed.

Theorem C34_build : forall base_model base loaded cfgs referenced src added,
  well_numbered base ->
  (forall m t, In (m, t) ((base_model, base) :: loaded) -> NoDup (dkeys (t_vocab t)) /\ coherent t) ->
  match src with SrcBase => False | SrcModel t => well_numbered t | SrcUnion => True end ->
  let res := build_tokenizer base_model base loaded cfgs referenced src added in
  contiguous (t_vocab (ti_tok res)) /\
  (forall s, In s added -> s <> "" -> In s (dkeys (t_vocab (ti_tok res)))) /\
  forall m, In m referenced ->
    let mv := own_vocab base_model base loaded m in
    exists p, dget (ti_perms res) m = Some p /\
      forall s i, dget (t_vocab (ti_tok res)) s = Some i ->
        dget p i = match dget mv s with
                   | None => Some (-1)
                   | Some j => if j <? match cfgs m with Some n => n | None => Z.of_nat (length mv) end then Some j else None
                   end.
Proof.
  intros bm base loaded cfgs referenced src added W Ht Hsrc res.
  set (with_cfg := (bm, (base, cfgs bm)) :: map (fun mt => (fst mt, (snd mt, cfgs (fst mt)))) loaded).
  assert (Hw : forall m t cfg, In (m, (t, cfg)) with_cfg -> NoDup (dkeys (t_vocab t)) /\ coherent t).
  { intros m t cfg [[= <- <- <-]|Hin]; [eapply Ht; left; reflexivity|].
    apply in_map_iff in Hin as ([m' t'] & [= <- <- <-] & Hin). eapply Ht; right; exact Hin. }
  assert (Wo : forall t, well_numbered t -> well_numbered (fold_left (fun t s => add_token t (plain s)) added t) /\
    forall s, In s added -> s <> "" -> In s (dkeys (t_vocab (fold_left (fun t s => add_token t (plain s)) added t)))).
  { intros t Wt. assert (E : fold_left (fun t s => add_token t (plain s)) added t = fold_left add_token (map plain added) t).
    { clear. revert t; induction added; intros t; cbn; auto. }
    rewrite E. split; [apply add_tokens_wf, Wt|]. intros s Hs Hne. apply add_tokens_keys. right.
    rewrite map_map. cbn. rewrite map_id. auto. }
  assert (Hout : contiguous (t_vocab (ti_tok res)) /\ (forall s, In s added -> s <> "" -> In s (dkeys (t_vocab (ti_tok res))))).
  { unfold res, build_tokenizer; cbn. destruct src as [| |t]; [|destruct Hsrc|].
    - assert (Wu : well_numbered (build_union base with_cfg)) by (rewrite build_union_adds; apply add_tokens_wf, W).
      destruct (Wo _ Wu) as [H1 H2]. split; [apply H1 | exact H2].
    - destruct (Wo _ Hsrc) as [H1 H2]. split; [apply H1 | exact H2]. }
  split; [apply Hout|]. split; [apply Hout|]. intros m Hm mv. destruct Hout as [Hc _].
  eexists. split.
  - unfold res, build_tokenizer; cbn [ti_perms]. rewrite dget_dict_of_map by exact Hm. reflexivity.
  - intros s i Hs.
    assert (Hmv : t_vocab (match dget ((bm, base) :: loaded) m with Some t => t | None => base end) = mv).
    { unfold mv, own_vocab. cbn. destruct (eqb m bm); [reflexivity|]. destruct (dget loaded m); reflexivity. }
    destruct src as [| |t]; [|destruct Hsrc|]; rewrite Hmv; (rewrite (permutation_spec _ _ _ s i) by assumption); reflexivity.
Qed.

Definition tA : tok := {| t_vocab := [("b", 1); ("a", 0); ("<s>", 2)]; t_added := [(2, plain "<s>")]; t_size := 2 |}.
Definition tB : tok := {| t_vocab := [("x", 0); ("a", 1); ("pad", 2); ("", 3); ("<t>", 4)]; t_added := [(4, {| a_content := "<t>"; a_flags := 1 |})]; t_size := 4 |}.
Definition cfgAB (m : string) : option Z := if eqb m "A" then Some 3 else Some 5.
Definition resAB := build_tokenizer "A" tA [("B", tB)] cfgAB ["B"; "A"] SrcUnion ["new"].
Lemma tA_wf : well_numbered tA.
Proof.
  split; [split; [|split]|split; [cbn; lia|split]].
  - repeat constructor; cbn; intuition discriminate.
  - repeat constructor; cbn; intuition discriminate.
  - intros i; unfold dvals; cbn; lia.
  - intros i; unfold dkeys; cbn. lia.
  - intros i; unfold dkeys; cbn. lia.
Qed.
Lemma tAB_ok : forall m t, In (m, t) [("A", tA); ("B", tB)] -> NoDup (dkeys (t_vocab t)) /\ coherent t.
Proof.
  intros m t [[= <- <-]|[[= <- <-]|[]]]; (split; [repeat constructor; cbn; intuition discriminate|]);
  intros i a [[= <- <-]|[]]; reflexivity.
Qed.
Example C34_nonvacuous : well_numbered tA /\
  (forall m t, In (m, t) [("A", tA); ("B", tB)] -> NoDup (dkeys (t_vocab t)) /\ coherent t) /\
  t_vocab (ti_tok resAB) = [("b", 1); ("a", 0); ("<s>", 2); ("x", 3); ("pad", 4); ("<t>", 5); ("new", 6)] /\
  ti_perms resAB = [("B", [(1, -1); (0, 1); (2, -1); (3, 0); (4, 2); (5, 4); (6, -1)]);
                    ("A", [(1, 1); (0, 0); (2, 2); (3, -1); (4, -1); (5, -1); (6, -1)])].
Proof. split; [apply tA_wf|]. split; [apply tAB_ok|]. split; vm_compute; reflexivity. Qed.

(** Refuted: "every token of every model".  When the model's config gives no vocabulary size, the
    size used is that of the tokenizer without its added tokens, so those are left out. *)
Theorem C34_added_token_lost_refuted : exists base toks m t s,
  well_numbered base /\ (forall m t cfg, In (m, (t, cfg)) toks -> well_numbered t /\ coherent t) /\
  In (m, (t, None)) toks /\ In s (dkeys (t_vocab t)) /\ s <> "" /\ ~ In s (dkeys (t_vocab (build_union base toks))).
Proof.
  exists {| t_vocab := [("a", 0)]; t_added := []; t_size := 1 |},
    [("A", ({| t_vocab := [("a", 0)]; t_added := []; t_size := 1 |}, None)); ("B", (tA, None))], "B", tA, "<s>".
  assert (W1 : well_numbered {| t_vocab := [("a", 0)]; t_added := []; t_size := 1 |}).
  { split; [split; [|split]|split; [cbn; lia|split]]; try (repeat constructor; cbn; intuition discriminate); intros i; unfold dkeys, dvals; cbn; lia. }
  split; [exact W1|]. split.
  - intros m t cfg [[= <- <- <-]|[[= <- <- <-]|[]]].
    + split; [exact W1 | intros i a []].
    + split; [apply tA_wf|]. eapply (tAB_ok "A" tA). left; reflexivity.
  - split; [right; left; reflexivity|]. split; [right; right; left; reflexivity|]. split; [discriminate|].
    vm_compute. intuition discriminate.
Qed.

(** Refuted: with source "base" and a configured new token, the token is added to the base model's
    own tokenizer object: the base model's permutation should say -1 for it, but has no entry (which
    makes PermutedEmbeddings fail with KeyError), or, when the embedding has padding rows, points at one. *)
Theorem C34_base_source_refuted : exists base s i,
  well_numbered base /\ coherent base /\ dget (t_vocab base) s = None /\
  (let res := build_tokenizer "A" base [] (fun _ => Some 3) ["A"] SrcBase [s] in
   dget (t_vocab (ti_tok res)) s = Some i /\
   exists p, dget (ti_perms res) "A" = Some p /\ dget p i = None) /\
  (let res := build_tokenizer "A" base [] (fun _ => Some 8) ["A"] SrcBase [s] in
   dget (t_vocab (ti_tok res)) s = Some i /\
   exists p, dget (ti_perms res) "A" = Some p /\ dget p i = Some i).
Proof.
  exists tA, "new", 3. split; [apply tA_wf|]. split; [apply (tAB_ok "A" tA); left; reflexivity|].
  split; [reflexivity|]. split; (split; [reflexivity|]); eexists; (split; [reflexivity|reflexivity]).
Qed.

(** Refuted: a hole in the base model's ids stays in the union, so ids are not 0..n-1. *)
Theorem C34_gap_refuted : exists base, NoDup (dkeys (t_vocab base)) /\ NoDup (dvals (t_vocab base)) /\ coherent base /\
  ~ contiguous (t_vocab (build_union base [("A", (base, Some 6))])).
Proof.
  exists {| t_vocab := [("a", 0); ("<s>", 5)]; t_added := [(5, plain "<s>")]; t_size := 1 |}.
  split; [repeat constructor; cbn; intuition discriminate|]. split; [repeat constructor; cbn; intuition discriminate|].
  split; [intros i a [[= <- <-]|[]]; reflexivity|]. intros (_ & _ & Hc).
  assert (H5 : In 5 (dvals (t_vocab (build_union {| t_vocab := [("a", 0); ("<s>", 5)]; t_added := [(5, plain "<s>")]; t_size := 1 |}
    [("A", ({| t_vocab := [("a", 0); ("<s>", 5)]; t_added := [(5, plain "<s>")]; t_size := 1 |}, Some 6))]))))
    by (vm_compute; intuition).
  apply Hc in H5. revert H5. vm_compute. intros [_ H5]. discriminate H5.
Qed.

(** Stripping keeps exactly the tokens below the vocabulary size. *)
Theorem C34_strip : forall fast bpe t cfg t', strip fast bpe t cfg = Ok t' ->
  let size := match cfg with Some n => if n =? 0 then Z.of_nat (length (t_vocab t)) else n | None => Z.of_nat (length (t_vocab t)) end in
  forall s i, In (s, i) (t_vocab t') <-> In (s, i) (t_vocab t) /\ i < size.
Proof.
  intros fast bpe t cfg t' Hs size s i. unfold strip in Hs. change (size_or cfg _) with size in Hs.
  destruct (forallb _ _) eqn:Ef.
  - injection Hs as <-. rewrite forallb_forall in Ef. split; [|tauto]. intros Hin. split; [exact Hin|].
    apply Ef in Hin. apply Z.ltb_lt, Hin.
  - destruct fast; [|discriminate Hs]. destruct bpe; [|discriminate Hs]. injection Hs as <-. cbn.
    rewrite filter_In, Z.ltb_lt. reflexivity.
Qed.

(** ** C36: the padded size, as computed in the two places *)
Lemma least_multiple_padded n p : 0 < p -> 0 <= n -> least_multiple p n (padded n (Some p)).
Proof.
  intros Hp Hn. unfold padded. destruct (Z.eqb_spec p 0); [lia|].
  pose proof (Z.div_mod n p ltac:(lia)) as Hdm. pose proof (Z.mod_pos_bound n p Hp) as Hb.
  destruct (Z.eqb_spec (n mod p) 0) as [E|E].
  - split; [exists (n / p); lia|]. split; [lia|]. intros k _ Hk. exact Hk.
  - split; [exists (n / p + 1); reflexivity|]. split; [lia|]. intros k [q ->] Hk.
    assert (n / p < q) by nia. nia.
Qed.
Theorem C36_same_size : forall n pad, 0 <= n ->
  config_vocab n pad = padded n pad /\
  match pad with
  | Some p => (p = 0 -> padded n pad = n) /\ (0 < p -> least_multiple p n (padded n pad))
  | None => padded n pad = n
  end.
Proof.
  intros n pad Hn. split.
  - unfold config_vocab, padded. destruct pad as [p|]; [|reflexivity].
    destruct (Z.eqb_spec p 0); [reflexivity|]. destruct (Z.eqb_spec (n mod p) 0); [reflexivity|].
    pose proof (Z.div_mod n p ltac:(assumption)). lia.
  - destruct pad as [p|]; [|reflexivity]. split.
    + intros ->. reflexivity.
    + intros Hp. apply least_multiple_padded; assumption.
Qed.
Example C36_nonvacuous : padded 32001 (Some 64) = 32064 /\ config_vocab 32001 (Some 64) = 32064 /\ padded 32000 (Some 64) = 32000.
Proof. repeat split. Qed.

Print Assumptions C34_add_tokens.
Print Assumptions C34_union.
Print Assumptions C34_union_order.
Print Assumptions C34_build.
Print Assumptions C34_added_token_lost_refuted.
Print Assumptions C34_base_source_refuted.
Print Assumptions C34_gap_refuted.
Print Assumptions C34_strip.
Print Assumptions C36_same_size.
