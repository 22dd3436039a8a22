(** Invariants of adding tokens; the union vocabulary. *)
From Coq Require Import Permutation.
From Verif.Base Require Import Py PyFacts.
From Verif.Tokenizer Require Import Model Spec.
Local Open Scope string_scope.
Local Open Scope list_scope.
Local Open Scope Z_scope.

Lemma zmax_spec l m : zmax l = Some m -> In m l /\ forall x, In x l -> x <= m.
Proof.
  destruct l as [|x l]; [discriminate|]. intros [= <-]. revert x.
  induction l as [|y l IH]; intros x; cbn [fold_right].
  - split; [left; reflexivity | intros z [->|[]]; lia].
  - destruct (IH x) as [Hi Hm]. split.
    + destruct (Z.max_spec y (fold_right Z.max x l)) as [[_ ->]|[_ ->]].
      * destruct Hi as [Hi|Hi]; [left; exact Hi | right; right; exact Hi].
      * right; left; reflexivity.
    + intros z [->|[->|Hz]].
      * specialize (Hm z (or_introl eq_refl)). lia.
      * lia.
      * specialize (Hm z (or_intror Hz)). lia.
Qed.

Lemma next_id_len t : well_numbered t -> next_id t = Z.of_nat (length (t_vocab t)).
Proof.
  intros (Hc & Hs & Hadd & Hrange). unfold next_id. set (n := Z.of_nat (length (t_vocab t))) in *.
  destruct (zmax (dkeys (t_added t))) as [m|] eqn:Em.
  - apply zmax_spec in Em as [Hi Hm]. specialize (Hrange _ Hi).
    assert (Hlast : t_size t < n -> m = n - 1).
    { intros Hlt. specialize (Hadd (n - 1) ltac:(lia)). specialize (Hm _ Hadd). lia. }
    destruct (t_size t <=? m) eqn:El; cbn.
    + apply Z.leb_le in El. lia.
    + apply Z.leb_gt in El. destruct (Z.eqb_spec (t_size t) 0); lia.
  - destruct (t_added t) eqn:Ea; [|discriminate Em].
    destruct (Z.eq_dec (t_size t) n); [assumption|].
    destruct (Hadd (t_size t) ltac:(lia)).
Qed.

Lemma contiguous_inj v a b i : contiguous v -> dget v a = Some i -> dget v b = Some i -> a = b.
Proof.
  intros (Hk & Hv & _) Ha Hb. apply dget_In in Ha. apply dget_In in Hb.
  clear Hk. induction v as [|[k x] v IH]; [destruct Ha|]. cbn in Hv. inversion Hv as [|? ? Hn Hv']; subst.
  destruct Ha as [[= -> ->]|Ha], Hb as [[= ->]|Hb]; subst; auto.
  - destruct Hn. apply (in_map snd) in Hb. exact Hb.
  - destruct Hn. apply (in_map snd) in Ha. exact Ha.
Qed.
Lemma dget_dvals {K V} `{Eqb K} (d : dict K V) k v : dget d k = Some v -> In v (dvals d).
Proof. intros Hd. apply dget_In in Hd. apply (in_map snd) in Hd. exact Hd. Qed.

Lemma add_token_wf t a : well_numbered t -> well_numbered (add_token t a).
Proof.
  intros W. pose proof W as (Hc & Hs & Hadd & Hrange). unfold add_token.
  destruct (eqb_spec (a_content a) "") as [_|Hemp]; [exact W|].
  destruct (dget (t_vocab t) (a_content a)) as [i|] eqn:Ed.
  - split; [exact Hc|]. split; [exact Hs|]. cbn. split.
    + intros j Hj. apply dkeys_dset_In. right. apply Hadd. exact Hj.
    + intros j Hj. apply dkeys_dset_In in Hj as [->|Hj]; [|apply Hrange in Hj; exact Hj].
      apply dget_dvals in Ed. apply Hc in Ed. exact Ed.
  - rewrite (next_id_len t W). set (n := Z.of_nat (length (t_vocab t))) in *.
    assert (Hf : dset (t_vocab t) (a_content a) n = t_vocab t ++ [(a_content a, n)])
      by (apply dset_fresh; apply dget_None; exact Ed).
    assert (Hlen : Z.of_nat (length (t_vocab t ++ [(a_content a, n)])) = n + 1)
      by (rewrite app_length; cbn; lia).
    destruct Hc as (Hk & Hv & Hi).
    unfold well_numbered; cbn. rewrite Hf, Hlen.
    split; [|split; [lia|split]].
    + split; [|split].
      * rewrite dkeys_app. apply NoDup_app_intro; auto.
        { repeat constructor; intros []. }
        { intros x Hx [E|[]]. cbn in E. subst x. apply dget_None in Ed. auto. }
      * unfold dvals. rewrite map_app. apply NoDup_app_intro; auto.
        { repeat constructor; intros []. }
        { intros x Hx [<-|[]]. apply Hi in Hx. cbn in Hx. lia. }
      * intros j. unfold dvals. rewrite map_app, in_app_iff. fold (dvals (t_vocab t)). rewrite Hi, Hlen.
        fold n. cbn. split; [intros [Hj|[<-|[]]]; lia|]. intros Hj.
        destruct (Z.eq_dec n j); [right; left; assumption | left; lia].
    + intros j Hj. apply dkeys_dset_In. destruct (Z.eq_dec j n); [left; assumption|right; apply Hadd; lia].
    + intros j Hj. apply dkeys_dset_In in Hj as [->|Hj]; [lia|]. apply Hrange in Hj. lia.
Qed.
Lemma add_token_keeps t a s i : dget (t_vocab t) s = Some i -> dget (t_vocab (add_token t a)) s = Some i.
Proof.
  intros Hd. unfold add_token. destruct (eqb (a_content a) ""); [exact Hd|].
  destruct (dget (t_vocab t) (a_content a)) eqn:E; cbn; [exact Hd|].
  rewrite dget_dset. destruct (eqb_spec s (a_content a)); [subst; congruence | exact Hd].
Qed.
Lemma add_token_keys t a s : In s (dkeys (t_vocab (add_token t a))) <->
  In s (dkeys (t_vocab t)) \/ (s = a_content a /\ s <> "").
Proof.
  unfold add_token. destruct (eqb_spec (a_content a) "") as [E|E].
  - split; [left; assumption | intros [Hs|[-> Hs]]; [assumption | contradiction]].
  - destruct (dget (t_vocab t) (a_content a)) eqn:Ed; cbn.
    + split; [left; assumption | intros [Hs|[-> Hs]]; [assumption|]].
      apply dget_Some_key. eauto.
    + rewrite dkeys_dset_In. split; intros [Hs|Hs]; auto.
      * subst. right. auto.
      * left. apply Hs.
Qed.

Lemma add_tokens_wf l t : well_numbered t -> well_numbered (fold_left add_token l t).
Proof. revert t; induction l; cbn; intros t W; [exact W|]. apply IHl, add_token_wf, W. Qed.
Lemma add_tokens_keeps l t s i : dget (t_vocab t) s = Some i -> dget (t_vocab (fold_left add_token l t)) s = Some i.
Proof. revert t; induction l; cbn; intros t Hd; [exact Hd|]. apply IHl, add_token_keeps, Hd. Qed.
Lemma add_tokens_keys l t s : In s (dkeys (t_vocab (fold_left add_token l t))) <->
  In s (dkeys (t_vocab t)) \/ (In s (map a_content l) /\ s <> "").
Proof.
  revert t; induction l as [|a l IH]; cbn; intros t; [tauto|].
  rewrite IH, add_token_keys. intuition congruence.
Qed.

(** ** the collected vocabulary *)
Lemma collect_vocab_In size vocab out s :
  In s (collect_vocab size out vocab) <-> In s out \/ exists i, In (s, i) vocab /\ i < size.
Proof.
  unfold collect_vocab. revert out; induction vocab as [|[k i] v IH]; cbn; intros out.
  - split; [auto | intros [Hs|(i & [] & _)]; exact Hs].
  - rewrite IH. destruct (Z.leb_spec size i) as [Hl|Hl].
    + split; intros [Hs|(j & Hj & Hlt)]; eauto.
      destruct Hj as [[= -> ->]|Hj]; [lia|]. eauto.
    + rewrite set_add_In. split.
      * intros [[->|Hs]|(j & Hj & Hlt)]; eauto.
      * intros [Hs|(j & [[= -> ->]|Hj] & Hlt)]; eauto.
Qed.
Lemma collect_added_keys size added out s :
  In s (dkeys (collect_added size out added)) <-> In s (dkeys out) \/ exists i a, In (i, a) added /\ a_content a = s /\ i < size.
Proof.
  unfold collect_added. revert out; induction added as [|[i a] v IH]; cbn; intros out.
  - split; [auto | intros [Hs|(i & a & [] & _)]; exact Hs].
  - rewrite IH. destruct (Z.leb_spec size i) as [Hl|Hl].
    + split; intros [Hs|(j & b & Hj & Hb & Hlt)]; eauto 7.
      destruct Hj as [[= -> ->]|Hj]; [lia|]. eauto 7.
    + destruct (dmem out (a_content a)) eqn:Em.
      * apply dmem_In in Em. split; intros [Hs|(j & b & Hj & Hb & Hlt)]; eauto 7.
        destruct Hj as [[= -> ->]|Hj]; [left; congruence|]. eauto 7.
      * rewrite dkeys_dset_In. split.
        { intros [[->|Hs]|(j & b & Hj & Hb & Hlt)]; eauto 8. }
        { intros [Hs|(j & b & [[= -> ->]|Hj] & Hb & Hlt)]; eauto 7. }
Qed.
(** keys of the collected added tokens are their contents *)
Lemma collect_added_vals size added out :
  (forall s a, In (s, a) out -> a_content a = s) -> forall s a, In (s, a) (collect_added size out added) -> a_content a = s.
Proof.
  unfold collect_added. revert out; induction added as [|[i a] v IH]; cbn; intros out Ho; [exact Ho|].
  apply IH. destruct (size <=? i); [exact Ho|]. destruct (dmem out (a_content a)) eqn:Em; [exact Ho|].
  apply dmem_nIn in Em. rewrite (dset_fresh _ _ _ Em). intros s b Hb.
  apply in_app_iff in Hb as [Hb|[[= <- <-]|[]]]; auto.
Qed.

Definition known (toks : dict string (tok * option Z)) (s : string) : Prop :=
  exists m t cfg i, In (m, (t, cfg)) toks /\ dget (t_vocab t) s = Some i /\ i < size_or cfg (t_size t).

Definition gather (toks : dict string (tok * option Z)) oa :=
  fold_left (fun oa mt =>
        let '(t, cfg) := snd mt in
        let size := size_or cfg (t_size t) in
        (collect_vocab size (fst oa) (t_vocab t), collect_added size (snd oa) (t_added t))) toks (oa : list string * dict string info).

Lemma gather_vocab toks oa s :
  (forall m t cfg, In (m, (t, cfg)) toks -> NoDup (dkeys (t_vocab t))) ->
  In s (fst (gather toks oa)) <-> In s (fst oa) \/ known toks s.
Proof.
  revert oa; induction toks as [|[m [t cfg]] toks IH]; intros oa Hn; cbn.
  - unfold known. split; [auto | intros [Hs|(m & t & cfg & i & [] & _)]; exact Hs].
  - fold (gather toks (collect_vocab (size_or cfg (t_size t)) (fst oa) (t_vocab t), collect_added (size_or cfg (t_size t)) (snd oa) (t_added t))).
    rewrite IH by (intros; eapply Hn; right; eassumption). cbn. rewrite collect_vocab_In. split.
    + intros [[Hs|(i & Hi & Hlt)]|(m' & t' & cfg' & i & Hin & Hd & Hlt)]; auto.
      * right. exists m, t, cfg, i. repeat split; cbn; auto.
        apply dget_In_NoDup; [eapply Hn; left; reflexivity | exact Hi].
      * right. exists m', t', cfg', i. cbn; auto.
    + intros [Hs|(m' & t' & cfg' & i & [[= <- <- <-]|Hin] & Hd & Hlt)]; auto.
      * left; right. exists i. split; [apply dget_In, Hd | exact Hlt].
      * right. exists m', t', cfg', i; auto.
Qed.
Lemma gather_added toks oa s :
  (forall m t cfg, In (m, (t, cfg)) toks -> coherent t) ->
  In s (dkeys (snd (gather toks oa))) -> In s (dkeys (snd oa)) \/ known toks s.
Proof.
  revert oa; induction toks as [|[m [t cfg]] toks IH]; intros oa Hn; cbn; [auto|].
  fold (gather toks (collect_vocab (size_or cfg (t_size t)) (fst oa) (t_vocab t), collect_added (size_or cfg (t_size t)) (snd oa) (t_added t))).
  intros Hs. apply IH in Hs; [|intros; eapply Hn; right; eassumption]. cbn in Hs. destruct Hs as [Hs|Hs].
  - apply collect_added_keys in Hs as [Hs|(i & a & Hi & <- & Hlt)]; [auto|].
    right. exists m, t, cfg, i. repeat split; cbn; auto. eapply Hn; [left; reflexivity | exact Hi].
  - right. destruct Hs as (m' & t' & cfg' & i & Hin & Hd & Hlt). exists m', t', cfg', i; cbn; auto.
Qed.
Lemma gather_vals toks oa :
  (forall s a, In (s, a) (snd oa) -> a_content a = s) -> forall s a, In (s, a) (snd (gather toks oa)) -> a_content a = s.
Proof.
  revert oa; induction toks as [|[m [t cfg]] toks IH]; intros oa Ho; cbn; [exact Ho|].
  apply IH. cbn. apply collect_added_vals, Ho.
Qed.

Lemma contents_keys (d : dict string info) : (forall s a, In (s, a) d -> a_content a = s) -> map a_content (dvals d) = dkeys d.
Proof.
  unfold dvals, dkeys. induction d as [|[s a] d IH]; cbn; intros Hd; [reflexivity|]. rewrite (Hd s a (or_introl eq_refl)). f_equal.
  apply IH. intros; apply Hd; right; assumption.
Qed.

(** the first loop over the collected vocabulary adds a filtered list *)
Lemma guarded_adds (g h : string -> bool) l t :
  fold_left (fun res s => if g s then res else if h s then res else add_token res (plain s)) l t =
  fold_left add_token (map plain (filter (fun s => negb (g s || h s)) l)) t.
Proof. revert t; induction l as [|s l IH]; intros t; cbn; [reflexivity|]. destruct (g s), (h s); cbn; apply IH. Qed.

Definition union_adds (base : tok) (oa : list string * dict string info) : list info :=
  map plain (filter (fun s => negb (dmem (snd oa) s || dmem (t_vocab base) s)) (fst oa)) ++ dvals (snd oa).
Lemma build_union_adds base toks : build_union base toks = fold_left add_token (union_adds base (gather toks ([], []))) base.
Proof.
  unfold build_union, gather.
  match goal with |- context[fold_left ?f toks ([], [])] => destruct (fold_left f toks ([], [])) as [ov oa] end.
  unfold union_adds; cbn [fst snd]. rewrite fold_left_app, <- guarded_adds. reflexivity.
Qed.

Lemma union_adds_In base toks s :
  (forall m t cfg, In (m, (t, cfg)) toks -> NoDup (dkeys (t_vocab t)) /\ coherent t) ->
  (In s (dkeys (t_vocab base)) \/ (In s (map a_content (union_adds base (gather toks ([], [])))) /\ s <> "")) <->
  (In s (dkeys (t_vocab base)) \/ (known toks s /\ s <> "")).
Proof.
  intros Ht. set (oa := gather toks ([], [])). unfold union_adds. rewrite map_app, map_map, in_app_iff.
  rewrite contents_keys by (apply gather_vals; intros ? ? []).
  assert (Hv : In s (fst oa) <-> known toks s).
  { unfold oa. rewrite gather_vocab by (intros; eapply Ht; eassumption). cbn. tauto. }
  assert (Ha : In s (dkeys (snd oa)) -> known toks s).
  { intros Hs. apply gather_added in Hs; [|intros; eapply Ht; eassumption]. destruct Hs as [[]|Hs]; exact Hs. }
  assert (Hm : In s (map (fun x => a_content (plain x)) (filter (fun s => negb (dmem (snd oa) s || dmem (t_vocab base) s)) (fst oa)))
    <-> In s (fst oa) /\ dmem (snd oa) s = false /\ dmem (t_vocab base) s = false).
  { cbn. rewrite map_id, filter_In, negb_true_iff, orb_false_iff. reflexivity. }
  rewrite Hm, Hv. split.
  - intros [Hs|[[(Hs & _)|Hs] Hne]]; auto.
  - intros [Hs|[Hs Hne]]; [auto|]. destruct (dmem (t_vocab base) s) eqn:Eb; [left; apply dmem_In, Eb|].
    destruct (dmem (snd oa) s) eqn:Ea; [right; split; [right; apply dmem_In, Ea | exact Hne] | right; split; auto].
Qed.

(** ** permutations *)
Lemma permutation_other l model_vocab size p i : ~ In i (map snd l) ->
  dget (fold_left (fun p ti =>
      match dget model_vocab (fst ti) with
      | None => dset p (snd ti) (-1)%Z
      | Some orig => if (size <=? orig)%Z then p else dset p (snd ti) orig
      end) (l : list (string * Z)) p) i = dget p i.
Proof.
  revert p; induction l as [|[s j] l IH]; intros p Hn; cbn; [reflexivity|].
  rewrite IH by (intros Hi; apply Hn; right; exact Hi).
  assert (i <> j) by (intros ->; apply Hn; left; reflexivity).
  destruct (dget model_vocab s) as [o|]; [destruct (size <=? o); [reflexivity|]|]; apply dget_dset_neq; assumption.
Qed.
Lemma permutation_spec vocab_out model_vocab size t i : contiguous vocab_out -> dget vocab_out t = Some i ->
  dget (permutation vocab_out model_vocab size) i =
  match dget model_vocab t with None => Some (-1) | Some j => if j <? size then Some j else None end.
Proof.
  intros (Hk & Hv & _) Hd. apply dget_In in Hd. unfold permutation.
  assert (Hp : dget ([] : dict Z Z) i = None) by reflexivity. revert Hp. generalize ([] : dict Z Z).
  clear Hk. induction vocab_out as [|[s j] l IH]; intros p Hp; [destruct Hd|].
  cbn in Hv. inversion Hv as [|? ? Hn Hv']; subst. destruct Hd as [[= -> ->]|Hd].
  - cbn [fold_left fst snd]. rewrite permutation_other by exact Hn.
    destruct (dget model_vocab t) as [o|]; [|apply dget_dset_eq].
    rewrite Z.leb_antisym. destruct (o <? size); cbn; [apply dget_dset_eq | exact Hp].
  - cbn [fold_left fst snd]. apply IH; auto.
    assert (i <> j) by (intros ->; apply Hn; apply (in_map snd) in Hd; exact Hd).
    destruct (dget model_vocab s) as [o|]; [destruct (size <=? o); [exact Hp|]|]; rewrite dget_dset_neq; assumption.
Qed.
