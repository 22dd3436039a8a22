(** Facts about the construction of the new matrix. *)
From Verif.Base Require Import Py PyFacts.
From Verif.TokenSurgeon Require Import Model Spec.
Local Open Scope string_scope.
Local Open Scope list_scope.

Section Rows.
Context {V : Type}.
Implicit Types (m res : list V).

Lemma nth_error_update m i v m' : update m i v = Ok m' ->
  i < length m /\ length m' = length m /\ nth_error m' i = Some v /\ forall j, j <> i -> nth_error m' j = nth_error m j.
Proof.
  unfold update. destruct (Nat.ltb_spec i (length m)) as [Hi|]; [|discriminate]. intros E. assert (E' : firstn i m ++ v :: skipn (S i) m = m') by congruence.
  clear E. subst m'. split; [exact Hi|].
  assert (Hf : length (firstn i m) = i) by (rewrite firstn_length; lia).
  split; [rewrite app_length; cbn [length]; rewrite Hf, skipn_length; lia|].
  split; [rewrite nth_error_app2 by lia; now rewrite Hf, Nat.sub_diag|].
  intros j Hj. destruct (Nat.lt_ge_cases j i).
  - rewrite nth_error_app1 by lia. rewrite <- (firstn_skipn i m) at 2. rewrite nth_error_app1 by lia. reflexivity.
  - rewrite nth_error_app2 by lia. rewrite Hf. destruct (j - i) as [|k] eqn:Ek; [lia|]. cbn [nth_error].
    rewrite <- (firstn_skipn (S i) m) at 2. rewrite nth_error_app2; rewrite firstn_length; [|lia].
    f_equal. lia.
Qed.
Lemma update_ok m i v : i < length m -> exists m', update m i v = Ok m'.
Proof. intros H. unfold update. apply Nat.ltb_lt in H. rewrite H. eauto. Qed.

Lemma rbind_Ok {A B} (r : result A) (f : A -> result B) b : rbind r f = Ok b -> exists a, r = Ok a /\ f a = Ok b.
Proof. destruct r; cbn; [eauto|discriminate]. Qed.

(** ** zeroing *)
Lemma zero_spec (zero : V) : forall l res res', rfold (fun res i => update res i zero) res l = Ok res' ->
  length res' = length res /\ (forall i, In i l -> nth_error res' i = Some zero) /\
  (forall i, ~ In i l -> nth_error res' i = nth_error res i).
Proof.
  induction l as [|x l IH]; intros res res' E; cbn [rfold] in E.
  - injection E as <-. repeat split; auto. intros i [].
  - apply rbind_Ok in E as (r1 & E1 & E). apply nth_error_update in E1 as (_ & L1 & N1 & O1). destruct (IH _ _ E) as (L2 & N2 & O2).
    split; [congruence|]. split.
    + intros i Hi. destruct (in_dec Nat.eq_dec i l) as [Hl|Hl]; [auto|]. destruct Hi as [->|Hi]; [|contradiction].
      rewrite O2 by exact Hl. exact N1.
    + intros i Hi. rewrite O2 by (intros H; apply Hi; now right). apply O1. intros ->. apply Hi. now left.
Qed.
Lemma zero_ok (zero : V) : forall l res, (forall i, In i l -> i < length res) ->
  exists res', rfold (fun res i => update res i zero) res l = Ok res'.
Proof.
  induction l as [|x l IH]; intros res H; cbn [rfold]; [eauto|].
  destruct (update_ok res x zero ltac:(apply H; now left)) as (r1 & E1). rewrite E1. cbn [rbind]. apply IH.
  apply nth_error_update in E1 as (_ & L & _). intros i Hi. rewrite L. apply H. now right.
Qed.

(** ** assignment *)
Section Assign.
Variables (ap ab : bool) (orig : dict ntok nat) (orig_embed : list V) (rows : nat).
Notation step := (assign_step ap ab orig orig_embed rows).
Notation mt := (match_token ap ab orig).

Lemma assign_spec : forall l res new res' new', rfold step (res, new) l = Ok (res', new') ->
  length res' = length res /\
  (forall i, (forall t, In (t, i) l -> i < rows -> mt t = Ok None) -> nth_error res' i = nth_error res i) /\
  (NoDup (map snd l) -> forall t i j, In (t, i) l -> i < rows -> mt t = Ok (Some j) -> j < length orig_embed /\ nth_error res' i = nth_error orig_embed j) /\
  new' = new ++ map fst (filter (fun ti => Nat.ltb (snd ti) rows && match mt (fst ti) with Ok None => true | _ => false end) l) /\
  (forall t i, In (t, i) l -> i < rows -> exists o, mt t = Ok o).
Proof.
  induction l as [|[t0 i0] l IH]; intros res new res' new' E; cbn [rfold] in E.
  - injection E as <- <-. cbn. rewrite app_nil_r. split; [reflexivity|]. split; [reflexivity|]. split; [intros _ ? ? ? []|]. split; [reflexivity|]. intros ? ? [].
  - apply rbind_Ok in E as ([r1 n1] & E1 & E). destruct (IH _ _ _ _ E) as (L & O & N & New & T). clear IH E.
    cbn [assign_step] in E1. cbn [filter map fst snd]. destruct (Nat.leb_spec rows i0) as [Hi0|Hi0].
    + injection E1 as <- <-. replace (i0 <? rows)%nat with false by (symmetry; apply Nat.ltb_ge; lia). cbn [andb].
      split; [exact L|]. split; [|split; [|split; [exact New|]]].
      * intros i Hi. apply O. intros t Ht. apply Hi. now right.
      * intros Hnd t i j Hin Hi Hm. inversion Hnd; subst. destruct Hin as [[= -> ->]|Hin]; [lia|]. eauto.
      * intros t i Hin Hi. destruct Hin as [[= -> ->]|Hin]; [lia|]. eauto.
    + replace (i0 <? rows)%nat with true by (symmetry; apply Nat.ltb_lt; lia). cbn [andb].
      apply rbind_Ok in E1 as (o & Em & E1). rewrite Em. destruct o as [j0|].
      * apply rbind_Ok in E1 as (v & Ev & E1). apply rbind_Ok in E1 as (r2 & Eu & E1). injection E1 as <- <-.
        apply nth_error_update in Eu as (_ & L2 & N2 & O2). unfold nthE in Ev. destruct (nth_error orig_embed j0) as [v'|] eqn:En; [|discriminate].
        injection Ev as <-. split; [congruence|]. split; [|split; [|split; [exact New|]]].
        -- intros i Hi. rewrite O by (intros t Ht; apply Hi; now right). apply O2. intros ->.
           specialize (Hi t0 (or_introl eq_refl) Hi0). congruence.
        -- intros Hnd t i j Hin Hi Hm. inversion Hnd as [|? ? Hni Hnd']; subst. destruct Hin as [[= -> ->]|Hin].
           ++ rewrite Em in Hm. injection Hm as <-. split; [apply nth_error_Some; congruence|]. rewrite O.
              ** congruence.
              ** intros t' Ht' _. exfalso. apply Hni. change i with (snd (t', i)). now apply in_map.
           ++ eauto.
        -- intros t i Hin Hi. destruct Hin as [[= -> ->]|Hin]; eauto.
      * injection E1 as <- <-. split; [exact L|]. split; [|split; [|split]].
        -- intros i Hi. apply O. intros t Ht. apply Hi. now right.
        -- intros Hnd t i j Hin Hi Hm. inversion Hnd; subst. destruct Hin as [[= -> ->]|Hin]; [congruence|]. eauto.
        -- cbn [map fst]. rewrite New, <- app_assoc. reflexivity.
        -- intros t i Hin Hi. destruct Hin as [[= -> ->]|Hin]; eauto.
Qed.

Lemma assign_ok : (forall t j, dget orig t = Some j -> j < length orig_embed) ->
  forall l res new, (forall t i, In (t, i) l -> i < length res) -> (forall t i, In (t, i) l -> i < rows -> exists o, mt t = Ok o) ->
  (forall t i j, In (t, i) l -> mt t = Ok (Some j) -> j < length orig_embed) ->
  exists st, rfold step (res, new) l = Ok st.
Proof.
  intros Hs. induction l as [|[t0 i0] l IH]; intros res new Hl Hm Hj; cbn [rfold]; [eauto|]. cbn [assign_step].
  destruct (Nat.leb_spec rows i0); cbn [rbind].
  - apply IH; intros; [eapply Hl; right; eassumption|eapply Hm; [right; eassumption|assumption]|eapply Hj; [right; eassumption|eassumption]].
  - destruct (Hm t0 i0 (or_introl eq_refl) ltac:(lia)) as ([j|] & Em); rewrite Em; cbn [rbind].
    + pose proof (Hj t0 i0 j (or_introl eq_refl) Em) as Hlt. unfold nthE. destruct (nth_error orig_embed j) as [v|] eqn:En; [|apply nth_error_None in En; lia].
      cbn [rbind]. destruct (update_ok res i0 v (Hl t0 i0 (or_introl eq_refl))) as (r1 & E1). rewrite E1. cbn [rbind].
      apply nth_error_update in E1 as (_ & L & _).
      apply IH; intros; [rewrite L; eapply Hl; right; eassumption|eapply Hm; [right; eassumption|assumption]|eapply Hj; [right; eassumption|eassumption]].
    + apply IH; intros; [eapply Hl; right; eassumption|eapply Hm; [right; eassumption|assumption]|eapply Hj; [right; eassumption|eassumption]].
Qed.
End Assign.

(** ** batches *)
Lemma chunks_concat {A} size : 0 < size -> forall fuel (l : list A), length l <= fuel -> concat (chunks fuel size l) = l.
Proof.
  intros Hs. induction fuel as [|fuel IH]; intros l Hl; [destruct l; [reflexivity|cbn in Hl; lia]|].
  cbn [chunks]. destruct l as [|x l]; [reflexivity|]. cbn [concat]. rewrite IH, firstn_skipn; [reflexivity|].
  rewrite skipn_length. cbn [length] in *. lia.
Qed.
Lemma batches_concat size new : concat (batches size new) = new.
Proof.
  unfold batches. destruct new as [|x new]; [destruct size; reflexivity|]. apply chunks_concat; [|reflexivity].
  destruct size as [n|]; [destruct (Z.leb_spec n 0)|]; cbn [length]; lia.
Qed.
Lemma chunks_nonempty {A} size : 0 < size -> forall fuel (l : list A), ~ In [] (chunks fuel size l).
Proof.
  intros Hs. induction fuel as [|fuel IH]; intros l; cbn [chunks]; [intros []|]. destruct l as [|x l]; [intros []|]. intros [E|H]; [|exact (IH _ H)].
  destruct size; [lia|discriminate E].
Qed.
Lemma batches_nonempty size new : ~ In [] (batches size new).
Proof.
  unfold batches. destruct new as [|x new]; [destruct size; intros []|]. apply chunks_nonempty. destruct size as [n|]; [|cbn; lia].
  destruct (Z.leb_spec n 0); [cbn; lia|]. lia.
Qed.

Section Batch.
Variable approx : list ntok -> result (list V).
Variable donor : dict ntok nat.
Hypothesis inj : forall t t' i, dget donor t = Some i -> dget donor t' = Some i -> t = t'.

Lemma writes_spec es : forall ts k res res',
  rfold (fun res (ki : nat * ntok) => let! i := dgetE donor (snd ki) in let! v := nthE es (fst ki) in update res i v)
    res (combine (seq k (length ts)) ts) = Ok res' -> NoDup ts ->
  length res' = length res /\
  (forall p t, nth_error ts p = Some t -> exists i v, dget donor t = Some i /\ nth_error es (k + p) = Some v /\ nth_error res' i = Some v) /\
  (forall i, (forall t, In t ts -> dget donor t <> Some i) -> nth_error res' i = nth_error res i).
Proof.
  induction ts as [|t0 ts IH]; intros k res res' E Hnd; cbn [length seq combine rfold] in E.
  - injection E as <-. split; [reflexivity|]. split; [intros [|p] t; discriminate|reflexivity].
  - apply rbind_Ok in E as (r1 & E1 & E). cbn [fst snd] in E1. unfold dgetE, nthE in E1.
    destruct (dget donor t0) as [i0|] eqn:Ed; [|discriminate]. cbn [rbind] in E1.
    destruct (nth_error es k) as [v0|] eqn:Ee; [|discriminate]. cbn [rbind] in E1.
    apply nth_error_update in E1 as (_ & L1 & N1 & O1). inversion Hnd as [|? ? Hni Hnd']; subst.
    destruct (IH _ _ _ E Hnd') as (L & N & O). split; [congruence|]. split.
    + intros [|p] t Hp.
      * injection Hp as <-. exists i0, v0. rewrite Nat.add_0_r. split; [exact Ed|]. split; [exact Ee|]. rewrite O; [exact N1|].
        intros t Ht Heq. apply Hni. now rewrite (inj t0 t i0 Ed Heq).
      * cbn [nth_error] in Hp. destruct (N p t Hp) as (i & v & H). exists i, v. now rewrite Nat.add_succ_r.
    + intros i Hi. rewrite O by (intros t Ht; apply Hi; now right). apply O1. intros ->. exact (Hi t0 (or_introl eq_refl) Ed).
Qed.

Lemma batch_phase : forall bs res res', rfold (batch_step approx donor) res bs = Ok res' -> NoDup (concat bs) ->
  length res' = length res /\
  (forall ts p t, In ts bs -> nth_error ts p = Some t ->
     exists es i v, approx ts = Ok es /\ dget donor t = Some i /\ nth_error es p = Some v /\ nth_error res' i = Some v) /\
  (forall i, (forall t, In t (concat bs) -> dget donor t <> Some i) -> nth_error res' i = nth_error res i).
Proof.
  induction bs as [|ts0 bs IH]; intros res res' E Hnd; cbn [rfold] in E.
  - injection E as <-. split; [reflexivity|]. split; [intros ? ? ? []|reflexivity].
  - apply rbind_Ok in E as (r1 & E1 & E). unfold batch_step in E1. apply rbind_Ok in E1 as (es & Ea & E1). cbn [concat] in Hnd.
    destruct (writes_spec es ts0 0 res r1 E1 (NoDup_app_remove_r _ _ Hnd)) as (L1 & N1 & O1).
    destruct (IH _ _ E (NoDup_app_remove_l _ _ Hnd)) as (L & N & O). split; [congruence|]. split.
    + intros ts p t [->|Hin] Hp; [|eauto]. destruct (N1 p t Hp) as (i & v & Ed & Ee & Er). exists es, i, v.
      split; [exact Ea|]. split; [exact Ed|]. split; [exact Ee|]. rewrite O; [exact Er|]. intros t' Ht' Ed'.
      rewrite (inj t' t i Ed' Ed) in Ht'. apply NoDup_app_inv in Hnd as (_ & _ & Hd). apply (Hd t); [eapply nth_error_In; eassumption|exact Ht'].
    + intros i Hi. rewrite O by (intros t Ht; apply Hi, in_app_iff; now right). apply O1. intros t Ht. apply Hi, in_app_iff. now left.
Qed.

Lemma writes_ok es : forall ts k res, (forall t, In t ts -> exists i, dget donor t = Some i /\ i < length res) -> k + length ts <= length es ->
  exists res', rfold (fun res (ki : nat * ntok) => let! i := dgetE donor (snd ki) in let! v := nthE es (fst ki) in update res i v)
    res (combine (seq k (length ts)) ts) = Ok res' /\ length res' = length res.
Proof.
  induction ts as [|t0 ts IH]; intros k res H Hk; cbn [length seq combine rfold]; [eauto|]. cbn [fst snd length] in *. unfold dgetE, nthE.
  destruct (H t0 (or_introl eq_refl)) as (i & Ed & Hi). rewrite Ed. cbn [rbind].
  destruct (nth_error es k) as [v|] eqn:Ee; [|apply nth_error_None in Ee; lia]. cbn [rbind].
  destruct (update_ok res i v Hi) as (r1 & E1). rewrite E1. cbn [rbind]. apply nth_error_update in E1 as (_ & L & _).
  destruct (IH (S k) r1) as (r2 & E2 & L2); [|lia|exists r2; split; [exact E2|congruence]].
  intros t Ht. destruct (H t (or_intror Ht)) as (i' & Hd & Hl). exists i'. split; [exact Hd|congruence].
Qed.
Lemma batch_ok : forall bs res, (forall t, In t (concat bs) -> exists i, dget donor t = Some i /\ i < length res) ->
  (forall ts, In ts bs -> exists es, approx ts = Ok es /\ length es = length ts) ->
  exists res', rfold (batch_step approx donor) res bs = Ok res' /\ length res' = length res.
Proof.
  induction bs as [|ts bs IH]; intros res H Ha; cbn [rfold]; [eauto|]. unfold batch_step at 1.
  destruct (Ha ts (or_introl eq_refl)) as (es & Ea & Le). rewrite Ea. cbn [rbind].
  destruct (writes_ok es ts 0 res) as (r1 & E1 & L1); [intros t Ht; apply H; cbn; apply in_app_iff; now left|lia|]. rewrite E1. cbn [rbind].
  destruct (IH r1) as (r2 & E2 & L2); [|intros; apply Ha; now right|exists r2; split; [exact E2|congruence]].
  intros t Ht. destruct (H t) as (i & Hd & Hi); [cbn; apply in_app_iff; now right|]. exists i. split; [exact Hd|congruence].
Qed.
End Batch.
End Rows.

(** ** vocabularies *)
Lemma dget_inj {K} `{Eqb K} (d : dict K nat) : is_vocab d -> forall t t' i, dget d t = Some i -> dget d t' = Some i -> t = t'.
Proof.
  intros [_ Hv] t t' i H1 H2. apply dget_In in H1, H2. revert Hv H1 H2. unfold dvals. induction d as [|[k v] d IH]; intros Hv H1 H2; [destruct H1|].
  cbn [map snd] in Hv. inversion Hv as [|? ? Hni Hnd]; subst. assert (Hno : forall x, ~ In (x, v) d).
  { intros x Hx. apply Hni. change v with (snd (x, v)). now apply in_map. }
  destruct H1 as [E1|H1], H2 as [E2|H2]; [congruence|inversion E1; subst; destruct (Hno _ H2)|inversion E2; subst; destruct (Hno _ H1)|auto].
Qed.
Lemma lmax_ge l x : In x l -> x <= lmax l.
Proof. induction l as [|y l IH]; intros []; cbn [lmax fold_right]; [lia|]. specialize (IH H). unfold lmax in IH. lia. Qed.

Lemma filter_map_NoDup {K W} (p : K * W -> bool) (d : dict K W) : NoDup (dkeys d) -> NoDup (dkeys (filter p d)).
Proof.
  unfold dkeys. induction d as [|[k v] d IH]; intros Hnd; [constructor|]. cbn [filter map fst] in *. inversion Hnd as [|? ? Hni Hnd']; subst.
  destruct (p (k, v)); [|auto]. cbn [map fst]. constructor; [|auto]. intros Hin. apply Hni. apply in_map_iff in Hin as ((k' & v') & <- & Hin).
  apply filter_In in Hin as [Hin _]. now apply in_map.
Qed.

Lemma safe_dget {V} (m : list V) (v : dict ntok nat) t i : NoDup (dkeys v) -> dget (safe (length m) v) t = Some i <-> known m v t i.
Proof.
  intros Hnd. assert (Hnd2 : NoDup (dkeys (safe (length m) v))) by now apply filter_map_NoDup.
  unfold known. split.
  - intros H. apply dget_In in H. apply filter_In in H as [H1 H2]. cbn [snd] in H2. apply Nat.ltb_lt in H2. auto.
  - intros [H1 H2]. apply dget_In_NoDup; [exact Hnd2|]. apply filter_In. split; [exact H1|]. cbn [snd]. now apply Nat.ltb_lt.
Qed.
