(** Lemmas for C89: matrices stored by rows, and what the permutation of embeddings gives. *)
From Coq Require Import Reals Lia Lra Permutation.
From Verif.Base Require Import Py PyFacts RList.
From Verif.Tokenizer Require Import Model Spec PropsEmbed.
From Verif.Tokenizer Require Model.
From Verif.Methods Require Import Model.
From Verif.Run Require Import Embed.
Local Open Scope string_scope.
Local Open Scope list_scope.
Local Open Scope R_scope.

Lemma concat_length_const {A} (ls : list (list A)) c : (forall r, In r ls -> length r = c) -> length (concat ls) = (length ls * c)%nat.
Proof.
  induction ls as [|l ls IH]; intros H; [reflexivity|]. cbn. rewrite app_length, (H l) by now left.
  rewrite IH by (intros; apply H; now right). reflexivity.
Qed.
Lemma nth_concat_const {A} (ls : list (list A)) c d : (forall r, In r ls -> length r = c) ->
  forall i r col, nth_error ls i = Some r -> (col < c)%nat -> nth (i * c + col) (concat ls) d = nth col r d.
Proof.
  induction ls as [|l ls IH]; intros H i r col Hi Hc; [destruct i; discriminate|].
  assert (Hl : length l = c) by (apply H; now left). destruct i as [|i]; cbn in *.
  - injection Hi as ->. rewrite app_nth1 by lia. reflexivity.
  - rewrite app_nth2 by lia. replace (c + i * c + col - length l)%nat with (i * c + col)%nat by lia.
    apply IH; auto using in_cons. 
Qed.

Lemma matrix_rows t rs c r : wf t -> shp t = [rs; c] -> In r (e_rows (matrix t)) -> length r = e_cols (matrix t).
Proof.
  unfold wf, matrix. intros Hw Hs. rewrite Hs in *. cbn in *. rewrite in_map_iff. intros (i & <- & Hi).
  apply in_seq in Hi. rewrite firstn_length, skipn_length, Hw. 
  assert (i * c + c <= rs * c)%nat by (replace (i * c + c)%nat with (S i * c)%nat by (cbn; lia); apply Nat.mul_le_mono_r; lia). lia.
Qed.

Lemma to_matrix_Ok t e : to_matrix t = Ok e -> e = matrix t /\ exists rs c, shp t = [rs; c].
Proof.
  unfold to_matrix. destruct (Nat.eqb_spec (length (shp t)) 2) as [E|]; [|discriminate]. intros [= <-]. split; auto.
  destruct (shp t) as [|a [|b [|? ?]]]; try discriminate. eauto.
Qed.
Lemma matrices_Ok (ds : dict string tensor) es : rmapM (fun mt => let! e := to_matrix (snd mt) in Ok (fst mt, e)) ds = Ok es ->
  es = map (fun mt => (fst mt, matrix (snd mt))) ds /\ forall m t, In (m, t) ds -> exists rs c, shp t = [rs; c].
Proof.
  revert es. induction ds as [|[m t] ds IH]; cbn; intros es; [intros [= <-]; split; [auto|intros ? ? []]|].
  destruct (to_matrix t) as [e|] eqn:E; cbn; [|discriminate]. destruct (rmapM _ ds) as [es'|] eqn:E'; cbn; [|discriminate].
  intros [= <-]. destruct (IH _ eq_refl) as [-> H]. apply to_matrix_Ok in E as [-> Hs]. split; [reflexivity|].
  intros m' t' [[= <- <-]|Hin]; eauto.
Qed.

(** the tensors of the models, as matrices *)
Definition matrices (ds : dict string tensor) : dict string emb := map (fun mt => (fst mt, matrix (snd mt))) ds.
Lemma dkeys_matrices ds : dkeys (matrices ds) = dkeys ds.
Proof. unfold dkeys, matrices. rewrite map_map. reflexivity. Qed.

Lemma token_row_models ti es a b base cfgs cols m t id r : (forall x, In x a <-> In x b) ->
  token_row ti es a base cfgs cols m t id r -> token_row ti es b base cfgs cols m t id r.
Proof.
  intros H [Hl|[Hf Hd]]; [now left|right; split; auto]. unfold default_row in *. destruct (dget cfgs t); auto.
  destruct Hd as [Hd|(Hb & holders & H1 & H2 & H3)]; [now left|right]. split; auto. exists holders. split; auto. split; auto.
  intros x. rewrite H2, H. reflexivity.
Qed.

Lemma execute_models ti tensors models base cfgs pad res m :
  Tokenizer.Model.execute ti tensors models base cfgs pad = Ok res -> In m models -> In m (dkeys tensors).
Proof.
  intros Hx Hm. apply execute_inv in Hx as (cols & assigned & defaults & _ & _ & _ & Hr).
  destruct (In_nth_error _ _ Hm) as (n & Hn). clear Hm. revert models res Hr Hn.
  induction n as [|n IH]; intros [|m0 models] res Hr Hn; try discriminate; cbn in Hn, Hr.
  - injection Hn as ->. unfold permute_model, dgetE in Hr. destruct (dget tensors m) eqn:E; [|discriminate].
    apply dget_In in E. apply (in_map fst) in E. exact E.
  - destruct (permute_model _ _ _ _ _ _ _ m0); cbn in Hr; [|discriminate].
    destruct (rmapM _ models) as [res'|] eqn:E; cbn in Hr; [|discriminate]. exact (IH models res' E Hn).
Qed.

Section Permuted.
Variables (order : list string -> list string) (cfgs : dict string tcfg) (pad : option Z).
Hypothesis Horder : forall l, Permutation (order l) l.

Lemma permuted base ti ds ds' :
  contiguous (t_vocab (ti_tok ti)) -> (forall m x, In (m, x) ds -> wf x) -> NoDup (dkeys ds) ->
  permute_task order cfgs pad base ti ds = Ok ds' ->
  let n := length (t_vocab (ti_tok ti)) in
  (forall b, base = Some b -> In b (dkeys ds)) /\
  Permutation (dkeys ds') (dkeys ds) /\
  exists rows cols, Z.of_nat rows = padded (Z.of_nat n) pad /\ (forall m x, In (m, x) ds -> exists rs, shp x = [rs; cols]) /\
  forall m x, In (m, x) ds' ->
    shp x = [rows; cols] /\ wf x /\
    (forall t id, dget (t_vocab (ti_tok ti)) t = Some id ->
       exists r, token_row ti (matrices ds) (dkeys ds) base cfgs cols m t id r /\
         (0 <= id)%Z /\ (Z.to_nat id < rows)%nat /\
         forall c, (c < cols)%nat -> nth (Z.to_nat id * cols + c) (dat x) 0 = nth c r 0) /\
    (forall i c, (n <= i < rows)%nat -> n <> 0%nat -> (c < cols)%nat ->
       nth (i * cols + c) (dat x) 0 = rsum (map (fun k => nth (k * cols + c) (dat x) 0) (seq 0 n)) / INR n).
Proof.
  intros Hc Hwf HN Hp n. unfold permute_task in Hp.
  destruct (rmapM _ ds) as [es|] eqn:Ees; cbn [rbind] in Hp; [|discriminate].
  destruct (Tokenizer.Model.execute _ _ _ _ _ _) as [res|] eqn:Ex; cbn [rbind] in Hp; [|discriminate].
  assert (Ed : ds' = map (fun me => (fst me, of_matrix (snd me))) res) by congruence. clear Hp.
  apply matrices_Ok in Ees as [-> Hdim]. change (map _ ds) with (matrices ds) in Ex.
  set (models := all_models order base (dkeys ds)) in *.
  assert (Hmod : forall m, In m models -> In m (dkeys ds)).
  { intros m Hm. rewrite <- dkeys_matrices. exact (execute_models _ _ _ _ _ _ _ _ Ex Hm). }
  assert (Hbase : forall b, base = Some b -> In b models).
  { intros b ->. unfold models, all_models. apply (Permutation_in _ (Permutation_sym (Horder _))), set_add_In. now left. }
  assert (Hb : forall b, base = Some b -> In b (dkeys ds)) by auto.
  assert (Hadd : match base with Some b => set_add b (dkeys ds) | None => dkeys ds end = dkeys ds).
  { destruct base as [b|]; [|reflexivity]. unfold set_add. destruct (mem_spec b (dkeys ds)) as [_|Hn]; [reflexivity|]. destruct Hn. auto. }
  assert (Hperm : Permutation models (dkeys ds)). { unfold models, all_models. rewrite Hadd. apply Horder. }
  assert (HNm : NoDup models) by (eapply Permutation_NoDup; [apply Permutation_sym; exact Hperm|exact HN]).
  assert (Hrect : rectangular (matrices ds)).
  { intros m e Hin r Hr. apply in_map_iff in Hin as ([m' t] & [= <- <-] & Hin). destruct (Hdim _ _ Hin) as (rs & c & Hs).
    exact (matrix_rows t rs c r (Hwf _ _ Hin) Hs Hr). }
  destruct (C35_rows _ _ _ _ _ _ _ Hc Hrect HNm Hbase Ex) as (Hkeys & cols & Hcols & Hrows).
  split; [exact Hb|]. split.
  { rewrite Ed. unfold dkeys. rewrite map_map. cbn [fst]. change (map (fun x => fst x) res) with (map fst res). rewrite Hkeys. exact Hperm. }
  assert (Hne : models <> []). { intros E0. rewrite E0 in Ex. discriminate Ex. }
  assert (Hpad : exists rows, Z.of_nat rows = padded (Z.of_nat n) pad).
  { destruct models as [|m0 ms]; [now destruct Hne|]. destruct res as [|[m1 e1] res]; [discriminate Hkeys|].
    destruct (Hrows m1 e1 (or_introl eq_refl)) as (_ & Hl & _). eauto. }
  destruct Hpad as (rows & Hrw). exists rows, cols. split; [exact Hrw|]. split.
  { intros m x Hin. destruct (Hdim _ _ Hin) as (rs & c & Hs). exists rs. rewrite Hs. 
    assert (E : e_cols (matrix x) = cols). { apply (Hcols m). unfold matrices. apply in_map_iff. exists (m, x). auto. }
    unfold matrix in E. cbn in E. rewrite Hs in E. cbn in E. now subst. }
  intros m x Hin. rewrite Ed in Hin. apply in_map_iff in Hin as ([m' e] & [= <- <-] & Hin).
  destruct (Hrows _ _ Hin) as (Hec & Hlen & Htok & Hpd).
  change (length (t_vocab (ti_tok ti))) with n in Hlen, Hpd. assert (Hlr : length (e_rows e) = rows) by lia.
  (* the rows of the result all have [cols] entries *)
  assert (Hlens : forall r, In r (e_rows e) -> length r = cols).
  { intros r Hr. destruct (In_nth_error _ _ Hr) as (i & Hi). assert (Hil : (i < rows)%nat) by (rewrite <- Hlr; apply nth_error_Some; congruence).
    destruct (Nat.lt_ge_cases i n) as [Hlt|Hge].
    - destruct Hc as (HNk & _ & Hvals). assert (Hiv : In (Z.of_nat i) (dvals (t_vocab (ti_tok ti)))) by (apply Hvals; lia).
      apply in_map_iff in Hiv as ([t id] & Eid & Ht). cbn in Eid. subst id.
      destruct (Htok t (Z.of_nat i)) as (r' & Hr' & Hrow); [now apply dget_In_NoDup|]. rewrite Nat2Z.id in Hr'.
      assert (r' = r) by congruence. subst r'. clear -Hrow Hrect Hcols.
      assert (Hv : forall m j, vector (matrices ds) m j r -> length r = cols).
      { intros mm j (e & He & Hn). apply dget_In in He. rewrite <- (Hcols _ _ He). apply (Hrect _ _ He), (nth_error_In _ _ Hn). }
      destruct Hrow as [(_ & j & _ & Hj)|(_ & Hd)]; [eauto|]. unfold default_row in Hd. destruct (dget cfgs t) as [c|].
      + destruct (tc_source c).
        * destruct Hd.
        * destruct Hd as [_ Hd]. eauto.
        * destruct Hd as (? & ? & _ & _ & _ & Hd). eauto.
        * destruct Hd as (? & _ & Hd). eauto.
        * destruct Hd.
      + destruct Hd as [(? & j & _ & _ & Hd)|(_ & h & _ & _ & _ & _ & Hl & _)]; eauto.
    - destruct (Nat.eq_dec n 0) as [E0|Hn0].
      + exfalso. assert (Hz : length (t_vocab (ti_tok ti)) = 0%nat) by exact E0.
        unfold padded in Hrw. rewrite E0 in Hrw. change (Z.of_nat 0) with 0%Z in Hrw.
        destruct pad as [p|]; [|lia]. destruct (p =? 0)%Z; [lia|]. try rewrite Zmod_0_l in Hrw. cbn in Hrw. lia.
      + destruct (Hpd i ltac:(lia) Hn0) as (r' & Hr' & _ & Hl & _). assert (r' = r) by congruence. now subst. }
  unfold of_matrix. cbn [shp dat]. rewrite Hlr, Hec. split; [reflexivity|]. split.
  { unfold wf. cbn. rewrite (concat_length_const _ cols Hlens). rewrite Hlr. lia. }
  split.
  - intros t id Ht. destruct (Htok t id Ht) as (r & Hr & Hrow). exists r. split.
    { eapply token_row_models; [|exact Hrow]. intros y. split; apply Permutation_in; [exact Hperm|now apply Permutation_sym]. }
    split. { destruct Hc as (_ & _ & Hv). apply dget_In in Ht. apply (in_map snd) in Ht. apply Hv in Ht. cbn in Ht. lia. }
    split; [rewrite <- Hlr; apply nth_error_Some; congruence|]. intros c Hcc. now apply nth_concat_const.
  - intros i c Hi Hn0 Hcc. destruct (Hpd i ltac:(lia) Hn0) as (r & Hr & Hne' & Hl & Hmean).
    rewrite (nth_concat_const _ cols 0 Hlens i r c Hr Hcc), (Hmean c Hcc).
    rewrite firstn_length_le by lia. f_equal. f_equal.
    assert (Hg : forall k, (k <= length (e_rows e))%nat ->
      map (fun x => nth c x 0) (firstn k (e_rows e)) = map (fun k => nth (k * cols + c) (concat (e_rows e)) 0) (seq 0 k)).
    { induction k as [|k IHk]; intros Hk; [reflexivity|]. rewrite seq_S, map_app, <- IHk by lia. cbn [map plus].
      destruct (nth_error (e_rows e) k) as [rk|] eqn:Ek; [|apply nth_error_None in Ek; lia].
      rewrite (nth_concat_const _ cols 0 Hlens k rk c Ek Hcc).
      assert (Ef : firstn (S k) (e_rows e) = firstn k (e_rows e) ++ [rk]).
      { clear -Ek. revert Ek. generalize (e_rows e) as l. induction k as [|k IH]; intros [|a l] Ek; try discriminate; cbn in *; [congruence|].
        f_equal. now apply IH. }
      rewrite Ef, map_app. reflexivity. }
    apply Hg. lia.
Qed.
End Permuted.
