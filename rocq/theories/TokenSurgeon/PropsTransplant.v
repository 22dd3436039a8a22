(** * C81: the rows that token surgery gives to new tokens *)
From Coq Require Import Reals Lra Permutation.
From Verif.Base Require Import LinAlg RList Py PyFacts.
From Verif.TokenSurgeon Require Import Model Spec Proofs Approx ApproxSpec ApproxInst ApproxProofs OmpProofs LeastSquares Weights Rope
  PropsApprox PropsOmp PropsWeights PropsPca PropsPursuit Transplant TransplantSpec TransplantProofs.
From Verif.TokenSurgeon Require Props.
Local Open Scope list_scope.
Local Open Scope R_scope.

(** from positions in the list of shared tokens to tokens *)
Definition tokens_at (s : list ntok) (sel : list nat) : list ntok := map (fun i => nth i s (TPlain [])) sel.
Lemma tokens_rows m v s sel j : (forall i, In i sel -> (i < length s)%nat) -> (j < length sel)%nat ->
  nth j (map (row_of m v) (tokens_at s sel)) rzero = nth (nth j sel 0%nat) (map (row_of m v) s) rzero.
Proof.
  intros H Hj. unfold tokens_at. rewrite (map_nth_in _ _ _ (TPlain [])) by (now rewrite map_length). rewrite (map_nth_in _ _ _ 0%nat) by exact Hj.
  rewrite (map_nth_in _ _ _ (TPlain [])); [reflexivity|]. apply H, nth_In, Hj.
Qed.
Lemma tokens_length s sel : length (tokens_at s sel) = length sel.
Proof. apply map_length. Qed.
Lemma tokens_In s sel u : (forall i, In i sel -> (i < length s)%nat) -> In u (tokens_at s sel) -> In u s.
Proof. intros H Hu. unfold tokens_at in Hu. apply in_map_iff in Hu as (i & <- & Hi). apply nth_In, H, Hi. Qed.
Lemma tokens_NoDup s sel : NoDup s -> NoDup sel -> (forall i, In i sel -> (i < length s)%nat) -> NoDup (tokens_at s sel).
Proof.
  intros Ns. induction 1 as [|i sel Hi N IH]; intros H; cbn; [constructor|]. constructor; [|apply IH; intros; apply H; now right].
  intros Hin. apply in_map_iff in Hin as (j & E & Hj). apply Hi. rewrite (proj1 (NoDup_nth s (TPlain [])) Ns i j); auto; apply H; [now left|now right].
Qed.
Lemma tokens_comb m v s sel cs x : (forall i, In i sel -> (i < length s)%nat) ->
  token_comb m v (tokens_at s sel) cs x = Sum (length sel) (fun j => nth j cs 0 * nth (nth j sel 0%nat) (map (row_of m v) s) rzero x).
Proof. intros H. unfold token_comb. rewrite tokens_length. apply Sum_ext. intros j Hj. now rewrite tokens_rows. Qed.

Section C81.
Variables (w : world) (o : options) (dd dor : nat) (head : bool) (orig_embed donor_embed : list row) (orig donor : dict ntok nat).
Hypothesis Hlist : is_listing (w_listing w).
Hypothesis Ho : is_vocab orig.
Hypothesis Hd : is_vocab donor.
Hypothesis Hwo : within orig_embed orig.
Hypothesis Hwd : within donor_embed donor.
Notation compute := (compute_new w o dd dor head orig_embed donor_embed orig donor).
Notation DR := (row_of donor_embed donor).
Notation OR := (row_of orig_embed orig).
Notation s := (shared_vocab w orig donor).

(** only donor tokens are ever approximated *)
Lemma compute_known ts es : compute ts = Ok es -> forall t, In t ts -> In t (dkeys donor).
Proof.
  unfold compute_new. destruct (forallb (dmem donor) ts) eqn:E; [|discriminate]. intros _ t Ht. rewrite forallb_forall in E. now apply dmem_In, E.
Qed.
Lemma compute_pointwise ts es : by_shared (op_method o) = true -> compute ts = Ok es -> 
  Forall2 (fun t v => approximate w o dd dor (map DR s) (map OR s) (DR t) = Ok v) ts es /\ exists t, in_both orig donor t.
Proof.
  intros Hm E. pose proof (compute_known ts es E) as Hk.
  assert (Hex : exists t, in_both orig donor t).
  { destruct s as [|u l] eqn:Es.
    - rewrite compute_none in E; auto; [discriminate|]. intros t Ht. apply (shared_In w orig donor Hlist) in Ht. rewrite Es in Ht. destruct Ht.
    - exists u. apply (shared_In w orig donor Hlist). rewrite Es. now left. }
  split; [|exact Hex]. destruct ts as [|t ts].
  - exfalso. unfold compute_new in E. cbn [forallb negb] in E. destruct (op_method o); try discriminate Hm; cbv zeta in E;
      apply rbind_Ok in E as (? & _ & E); apply rbind_Ok in E as (? & _ & E); apply rbind_Ok in E as (? & E & _); discriminate E.
  - rewrite compute_shared in E; auto; [|discriminate]. now apply rmapM_Ok_Forall2.
Qed.
Lemma shared_both u : In u s -> in_both orig donor u.
Proof. apply shared_In, Hlist. Qed.
Lemma chosen_tokens sel k : length sel = k -> NoDup sel -> (forall i, In i sel -> (i < length s)%nat) -> some_shared orig donor k (tokens_at s sel).
Proof.
  intros L N I. split; [now rewrite tokens_length|]. split; [apply tokens_NoDup; auto; now apply shared_NoDup|]. intros u Hu. apply shared_both. eapply tokens_In; eassumption.
Qed.

(** ** orthogonal matching pursuit *)
Section Pursuit.
Hypothesis Hpick : forall pts, is_pick dd pts (w_pick w pts).
Hypothesis Hqr : is_qr dd (w_qr w).
Hypothesis Hsolve : is_solve (w_solve w).
Hypothesis Hm : op_method o = AOmp.
Lemma eps_pos : 0 < eps_omp.
Proof. unfold eps_omp. apply Rinv_0_lt_compat, pow_lt. lra. Qed.

(** The new row of every token is a combination of the original model's rows of k different shared tokens. The coefficients are those
    that come nearest to the donor's row of the token when applied to the donor's rows of the same tokens. *)
Theorem C81_omp ts es : compute ts = Ok es -> Forall2 (fun t v => exists used cs,
  some_shared orig donor (op_k o) used /\ length cs = op_k o /\ (forall y, v y = token_comb orig_embed orig used cs y) /\
  (independent dd eps_omp (op_k o) (token_rows donor_embed donor used) ->
   forall ds, miss dd donor_embed donor t used cs <= miss dd donor_embed donor t used ds)) ts es.
Proof.
  intros E. destruct (compute_pointwise ts es ltac:(now rewrite Hm) E) as (HF & _). eapply Forall2_impl; [|exact HF]. clear HF E.
  intros t v E. unfold approximate in E. rewrite Hm in E. set (P := map DR s) in *. set (k := op_k o) in *.
  apply rbind_Ok in E as ((sel & cs) & E & E2). apply rbind_Ok in E2 as (rs & E2 & Ev). cbn [fst snd] in *. injection Ev as <-.
  assert (Hk : (k <= length P)%nat) by (unfold omp in E; destruct (Nat.ltb_spec (length P) k); [discriminate|lia]).
  destruct (C53_distinct dd P eps_omp 256 (DR t) (w_pick w P) (w_qr w) (w_solve w) (Hpick P) k Hk) as (sel' & cs' & E' & L1 & L2 & N & I).
  rewrite E in E'. injection E' as <- <-.
  assert (I' : forall i, In i sel -> (i < length s)%nat) by (intros i Hi; apply I in Hi; unfold P in Hi; now rewrite map_length in Hi).
  exists (tokens_at s sel), cs. split; [now apply chosen_tokens|]. split; [exact L2|]. split.
  - intros y. rewrite tokens_comb by exact I'. rewrite (rmapM_nthE _ _ rzero) in E2 by (intros i Hi; rewrite map_length; now apply I'). injection E2 as <-.
    rewrite wsum_Sum by (rewrite map_length; lia). rewrite L1, L2. apply Sum_ext. intros j Hj. f_equal. now rewrite (map_nth_in _ _ _ 0%nat) by lia.
  - intros Hi ds. unfold miss.
    assert (Ec : forall j, (j < k)%nat -> token_rows donor_embed donor (tokens_at s sel) j = chosen P sel j) by (intros j Hj; unfold token_rows, chosen; rewrite tokens_rows by (auto; lia); reflexivity).
    assert (Hi' : independent dd eps_omp k (chosen P sel)).
    { intros j d Hj. pose proof (Hi j d Hj) as H. rewrite (nrm_ext dd _ (fun x => chosen P sel j x - Sum j (fun i => d i * chosen P sel i x))) in H; [exact H|].
      intros x _. rewrite Ec by exact Hj. f_equal. apply Sum_ext. intros i Hij. rewrite Ec by lia. reflexivity. }
    pose proof (C53_least_squares dd P eps_omp 256 (DR t) (w_pick w P) (w_qr w) (w_solve w) (Hpick P) Hqr Hsolve eps_pos k sel cs E Hi' (fun j => nth j ds 0)) as H.
    rewrite (nrm_ext dd (fun x => DR t x - token_comb donor_embed donor (tokens_at s sel) cs x) (fun x => DR t x - combine_rows P sel cs x)).
    2:{ intros x _. rewrite tokens_comb by exact I'. unfold combine_rows. now rewrite L1, L2. }
    rewrite (nrm_ext dd (fun x => DR t x - token_comb donor_embed donor (tokens_at s sel) ds x) (fun x => DR t x - Sum k (fun j => nth j ds 0 * chosen P sel j x))); [exact H|].
    intros x _. rewrite tokens_comb by exact I'. now rewrite L1.
Qed.

(** When the original rows are a linear image of the donor's on the shared tokens, the new row is the image of the donor's row: if that is
    a combination of the rows chosen, or if there are as many chosen as the donor's space has dimensions. *)
Lemma exact_linear f t used cs ds : linear_image dd f orig_embed donor_embed orig donor -> (forall u, In u used -> in_both orig donor u) ->
  (forall ds, miss dd donor_embed donor t used cs <= miss dd donor_embed donor t used ds) ->
  (forall x, (x < dd)%nat -> DR t x = token_comb donor_embed donor used ds x) ->
  forall y, token_comb orig_embed orig used cs y = Sum dd (fun x => f y x * DR t x).
Proof.
  intros Hf Hu Hb Hx y. specialize (Hb ds). unfold miss in Hb. apply nrm_le_sq in Hb.
  rewrite (ip_ext dd (fun x => DR t x - token_comb donor_embed donor used ds x) _ (fun _ => 0) (fun _ => 0)) in Hb by (intros x Hx'; rewrite Hx by exact Hx'; ring).
  replace (ip dd (fun _ => 0) (fun _ => 0)) with 0 in Hb by (symmetry; apply Sum_0; intros; ring).
  set (r := fun x => DR t x - token_comb donor_embed donor used cs x) in *. pose proof (ip_nonneg dd r). assert (Z : ip dd r r = 0) by lra.
  pose proof (ip_zero dd r Z) as Zr. unfold r in Zr. cbv beta in Zr.
  rewrite (Sum_ext dd _ (fun x => f y x * token_comb donor_embed donor used cs x)) by (intros x Hx'; specialize (Zr x Hx'); f_equal; lra).
  unfold token_comb. rewrite (Sum_ext dd _ (fun x => Sum (length used) (fun j => f y x * (nth j cs 0 * nth j (map DR used) rzero x)))) by (intros; now rewrite <- Sum_scal).
  rewrite Sum_swap. apply Sum_ext. intros j Hj. rewrite !(map_nth_in _ _ _ (TPlain [])) by exact Hj. rewrite Hf by (apply Hu, nth_In, Hj).
  rewrite <- Sum_scal. apply Sum_ext. intros. ring.
Qed.
Theorem C81_omp_linear ts es f : compute ts = Ok es -> linear_image dd f orig_embed donor_embed orig donor ->
  Forall2 (fun t v => exists used, some_shared orig donor (op_k o) used /\
    (independent dd eps_omp (op_k o) (token_rows donor_embed donor used) ->
     op_k o = dd \/ (exists ds, forall x, (x < dd)%nat -> DR t x = token_comb donor_embed donor used ds x) ->
     forall y, v y = Sum dd (fun x => f y x * DR t x))) ts es.
Proof.
  intros E Hf. eapply Forall2_impl; [|exact (C81_omp ts es E)]. intros t v (used & cs & Hu & Lc & Hv & Hb). exists used. split; [exact Hu|].
  intros Hi Hx y. rewrite Hv. destruct Hu as (Lu & _ & Hu).
  assert (Hex : exists ds, forall x, (x < dd)%nat -> DR t x = token_comb donor_embed donor used ds x).
  { destruct Hx as [Ek|Hx]; [|exact Hx]. rewrite Ek in *. set (c := lsq dd dd (token_rows donor_embed donor used) (DR t)).
    exists (map c (seq 0 dd)). intros x Hx. rewrite (full_span dd eps_omp (token_rows donor_embed donor used) (DR t) eps_pos Hi x Hx). fold c.
    unfold token_comb. rewrite Lu. apply Sum_ext. intros j Hj. now rewrite nth_seq_map. }
  destruct Hex as (ds & Hx'). eapply exact_linear; eauto.
Qed.
End Pursuit.

(** ** interpolation between the nearest shared tokens *)
Section Interpolation.
Variables (sch : scheme) (cosine : bool).
Hypothesis Htopk : is_topk (w_topk w).
Hypothesis Hlstsq : is_lstsq (w_lstsq w).
Hypothesis Hm : op_method o = ACommon sch cosine.
(** what the weights of each scheme are, the distances being those of the donor's rows *)
Definition weights_of (t : ntok) (used : list ntok) (cs : list R) : Prop :=
  match sch with
  | LeastSquares => forall ds, length ds = op_k o -> miss dd donor_embed donor t used cs <= miss dd donor_embed donor t used ds
  | Barycentric => rsum cs = 1 /\ forall ds, length ds = op_k o -> rsum ds = 1 -> miss dd donor_embed donor t used cs <= miss dd donor_embed donor t used ds
  | DistanceProportional =>
      (cosine = false -> (forall c, In c cs -> 0 < c) /\
        (forall p q a b, nth_error used p = Some a -> nth_error used q = Some b ->
           distance false dd (DR t) (DR a) <= distance false dd (DR t) (DR b) -> nth q cs 0 <= nth p cs 0) /\
        forall a, In a used -> distance false dd (DR t) (DR a) <= 10 ^ 6 -> rsum cs = 1) /\
      (cosine = true -> let similarity u := 1 - distance true dd (DR t) (DR u) in
        forall p a, nth_error used p = Some a -> nth p cs 0 = similarity a / Rmax (rsum (map similarity used)) (/ 10 ^ 6))
  end.
Lemma near_tokens t k idx : nearest cosine dd k (DR t) (map DR s) idx ->
  some_shared orig donor k (tokens_at s idx) /\ nearest_tokens cosine dd donor_embed orig donor t (tokens_at s idx) /\ forall i, In i idx -> (i < length s)%nat.
Proof.
  intros (L & N & I & B). assert (I' : forall i, In i idx -> (i < length s)%nat) by (intros i Hi; apply I in Hi; now rewrite map_length in Hi).
  split; [now apply chosen_tokens|]. split; [|exact I']. intros a b Ha Hb Hnb. unfold tokens_at in Ha. apply in_map_iff in Ha as (i & <- & Hi).
  apply (shared_In w orig donor Hlist) in Hb. destruct (In_nth _ _ (TPlain []) Hb) as (j & Hj & <-).
  assert (Hnj : ~ In j idx) by (intros Hin; apply Hnb; unfold tokens_at; apply in_map_iff; eauto).
  specialize (B i j Hi). rewrite map_length in B. specialize (B Hj Hnj). rewrite !(map_nth_in _ _ _ (TPlain [])) in B by auto. exact B.
Qed.
Lemma comb_tokens m v ws idx x : length ws = length idx -> (forall i, In i idx -> (i < length s)%nat) ->
  comb ws idx (map (row_of m v) s) x = token_comb m v (tokens_at s idx) ws x.
Proof. intros L I. rewrite comb_Sum by exact L. rewrite tokens_comb by exact I. now rewrite L. Qed.
Theorem C81_interpolation ts es : compute ts = Ok es -> Forall2 (fun t v => exists used cs,
  some_shared orig donor (op_k o) used /\ length cs = op_k o /\ nearest_tokens cosine dd donor_embed orig donor t used /\
  (forall y, v y = token_comb orig_embed orig used cs y) /\ weights_of t used cs) ts es.
Proof.
  intros E. destruct (compute_pointwise ts es ltac:(now rewrite Hm) E) as (HF & _). eapply Forall2_impl; [|exact HF]. clear HF E.
  intros t v E. unfold approximate in E. rewrite Hm in E. set (P := map DR s) in *. set (Q := map OR s) in *. set (k := op_k o) in *.
  assert (LPQ : length Q = length P) by (unfold P, Q; now rewrite !map_length).
  assert (Hk : (0 < k <= length P)%nat) by (apply (C75_fails (w_lstsq w) (w_topk w) Htopk sch cosine dd k P Q (DR t) LPQ); eauto).
  unfold weights_of. destruct sch eqn:Es.
  - (* distance_proportional *)
    destruct (interp_ok (w_lstsq w) (w_topk w) Htopk DistanceProportional cosine dd k P Q (DR t) LPQ Hk) as (Hn & Ei). rewrite E in Ei.
    set (idx := w_topk w _ k) in *. injection Ei as Ev. destruct (near_tokens t k idx Hn) as (A & B & I). destruct Hn as (Li & _ & IP & _).
    exists (tokens_at s idx), (landmark_weights cosine (map (fun i => distance cosine dd (DR t) (nth i P rzero)) idx)).
    assert (Et : forall p a, nth_error (tokens_at s idx) p = Some a -> (p < length idx)%nat /\ nth (nth p idx 0%nat) P rzero = DR a).
    { intros p a Hp. assert (Hl : (p < length idx)%nat) by (rewrite <- (tokens_length s idx); apply nth_error_Some; congruence). split; [exact Hl|].
      unfold tokens_at in Hp. rewrite nth_error_map, (nth_error_nth' idx 0%nat Hl) in Hp. injection Hp as <-. unfold P. rewrite (map_nth_in _ _ _ (TPlain [])); [reflexivity|]. apply I, nth_In, Hl. }
    split; [exact A|]. split; [rewrite weights_length, map_length; exact Li|]. split; [exact B|]. split; [|split].
    + intros y. rewrite Ev. unfold Q. apply comb_tokens; [rewrite weights_length; apply map_length|exact I].
    + intros Hc. rewrite Hc. set (ds := map _ idx). split; [intros c; apply weights_pos|]. split.
      * intros p q a b Hp Hq Hle. apply Et in Hp as (Hp & Ep). apply Et in Hq as (Hq & Eq). apply weights_mono; [unfold ds; now rewrite map_length..|].
        unfold ds. rewrite !(map_nth_in _ idx _ 0%nat) by assumption. now rewrite Ep, Eq.
      * intros a Ha Hle. apply (weights_sum ds (distance false dd (DR t) (DR a))); [|exact Hle]. apply In_nth_error in Ha as (p & Hp). apply Et in Hp as (Hp & Ep).
        unfold ds. apply in_map_iff. exists (nth p idx 0%nat). split; [now rewrite Ep|now apply nth_In].
    + intros Hc p a Hp. rewrite Hc. apply Et in Hp as (Hp & Ep). unfold landmark_weights. cbv zeta. rewrite !map_map.
      rewrite (map_nth_in _ idx _ 0%nat) by exact Hp. rewrite Ep. unfold tiny. f_equal. f_equal. f_equal. unfold tokens_at. rewrite map_map. apply map_ext_in.
      intros i Hi. unfold P. rewrite (map_nth_in _ _ _ (TPlain [])) by now apply I. reflexivity.
  - destruct (C75_barycentric (w_lstsq w) (w_topk w) Hlstsq Htopk cosine dd k P Q (DR t) LPQ Hk) as (idx & ws & Ei & Hn & Lw & Hs & Hb). rewrite E in Ei. injection Ei as ->.
    destruct (near_tokens t k idx Hn) as (A & B & I). destruct Hn as (Li & _). exists (tokens_at s idx), ws. split; [exact A|]. split; [exact Lw|]. split; [exact B|]. split.
    + intros y. apply comb_tokens; [congruence|exact I].
    + split; [exact Hs|]. intros ds Ld Sd. fold k in Ld. specialize (Hb ds Ld Sd). unfold error in Hb. unfold miss.
      rewrite (nrm_ext dd (fun x => DR t x - token_comb _ _ _ ws x) (fun x => DR t x - comb ws idx P x)) by (intros x _; unfold P; rewrite comb_tokens by (auto; congruence); reflexivity).
      erewrite (nrm_ext dd (fun x => DR t x - token_comb _ _ _ ds x)); [exact Hb|]. intros x _. unfold P. now rewrite comb_tokens by (auto; congruence).
  - destruct (C75_least_squares (w_lstsq w) (w_topk w) Hlstsq Htopk cosine dd k P Q (DR t) LPQ Hk) as (idx & ws & Ei & Hn & Lw & Hb). rewrite E in Ei. injection Ei as ->.
    destruct (near_tokens t k idx Hn) as (A & B & I). destruct Hn as (Li & _). exists (tokens_at s idx), ws. split; [exact A|]. split; [exact Lw|]. split; [exact B|]. split.
    + intros y. apply comb_tokens; [congruence|exact I].
    + intros ds Ld. fold k in Ld. specialize (Hb ds Ld). unfold error in Hb. unfold miss.
      rewrite (nrm_ext dd (fun x => DR t x - token_comb _ _ _ ws x) (fun x => DR t x - comb ws idx P x)) by (intros x _; unfold P; rewrite comb_tokens by (auto; congruence); reflexivity).
      erewrite (nrm_ext dd (fun x => DR t x - token_comb _ _ _ ds x)); [exact Hb|]. intros x _. unfold P. now rewrite comb_tokens by (auto; congruence).
Qed.
End Interpolation.

Lemma shared_same S : shared_list orig donor S -> s = S.
Proof. intros H. eapply shared_unique; [exact Hd|exact Hd| | |now apply shared_is|exact H]; reflexivity. Qed.

(** ** landmark PCA: a rotation and a shift that take the donor's rows of the shared tokens to the original model's are found again and
    applied to the new token *)
Theorem C81_rigid (q : nat -> nat -> R) (c : row) (S : list ntok) (variance variance' : nat -> R) ts es :
  op_method o = APca -> dor = dd -> shared_list orig donor S -> orthogonal dd q ->
  (forall u j, in_both orig donor u -> (j < dd)%nat -> OR u j = Sum dd (fun l => DR u l * q l j) + c j) ->
  (let centred := fun l => center (mean_row l) l in
   principal dd (centred (map DR S)) (w_pca w dd (centred (map DR S)) dd) variance /\
   principal dd (centred (map OR S)) (w_pca w dd (centred (map OR S)) dd) variance') ->
  (forall l m, (l < m)%nat -> (m < dd)%nat -> variance m < variance l) -> spanning dd (map DR S) ->
  is_svd (w_svd w) dd (procrustes (w_pca w) dd dd (map DR S) (map OR S)) ->
  compute ts = Ok es -> Forall2 (fun t (v : row) => forall j, (j < dd)%nat -> v j = Sum dd (fun l => DR t l * q l j) + c j) ts es.
Proof.
  intros Hm Edor HS Hq Hrow (Hp & Hp') Hvar Hspan Hsvd E.
  destruct (compute_pointwise ts es ltac:(now rewrite Hm) E) as (HF & (u & Hu)). eapply Forall2_impl; [|exact HF]. clear HF E.
  intros t v E j Hj. unfold approximate in E. rewrite Hm, Edor in E. rewrite (shared_same S HS) in E. destruct (Nat.ltb _ _); [discriminate|]. injection E as <-.
  apply (C54_rigid_partial dd q c (map DR S) (map OR S) (w_pca w) (w_svd w) variance variance'); auto.
  - unfold moved. assert (HI : forall u, In u S -> in_both orig donor u) by (intros x; apply HS). clear -HI Hrow. induction S as [|x S IH]; constructor.
    + intros j Hj. apply Hrow; [apply HI; now left|exact Hj].
    + apply IH. intros; apply HI; now right.
  - intros Z. apply map_eq_nil in Z. subst S. apply HS in Hu. destruct Hu.
Qed.

(** ** rotary matching pursuit: a combination of turned original rows, with the coefficients that come nearest to the donor's row when
    applied to the donor's rows turned to the same positions *)
Theorem C81_rope ts es : (forall pts, is_pick dd pts (w_pick w pts)) -> is_lstsq (w_lstsq w) -> op_method o = ARope ->
  compute ts = Ok es -> Forall2 (fun t v => exists used pos cs,
  some_shared orig donor (op_k o) used /\ length pos = op_k o /\ length cs = op_k o /\
  let turn (base : R) (width heads : nat) (rows : nat -> row) (j : nat) : row := rope base (width / heads) (nth j pos 0) (rows j) in
  (forall y, v y = Sum (op_k o) (fun j => nth j cs 0 * turn (w_base_orig w) dor (w_heads_orig w) (token_rows orig_embed orig used) j y)) /\
  forall ds : nat -> R,
    nrm dd (fun x => DR t x - Sum (op_k o) (fun j => nth j cs 0 * turn (w_base_donor w) dd (w_heads_donor w) (token_rows donor_embed donor used) j x)) <=
    nrm dd (fun x => DR t x - Sum (op_k o) (fun j => ds j * turn (w_base_donor w) dd (w_heads_donor w) (token_rows donor_embed donor used) j x))) ts es.
Proof.
  intros Hpick Hlstsq Hm E. destruct (compute_pointwise ts es ltac:(now rewrite Hm) E) as (HF & _). eapply Forall2_impl; [|exact HF]. clear HF E.
  intros t v E. unfold approximate in E. rewrite Hm in E. apply rbind_Ok in E as ((((sel & cs) & result) & reached) & E & Ev). cbn [fst snd] in Ev. injection Ev as <-.
  set (P := map DR s) in *. set (Q := map OR s) in *. set (k := op_k o) in *.
  destruct (C77_rope_result _ _ _ _ _ _ _ _ _ _ _ _ _ _ _ _ _ _ (Hpick P) Hlstsq E) as (L1 & L2 & pos & coeffs & (Lp & _ & N & I & _) & _ & Hr & _ & _ & Hb).
  assert (I' : forall i, In i sel -> (i < length s)%nat) by (intros i Hi; apply I in Hi; unfold P in Hi; now rewrite map_length in Hi).
  exists (tokens_at s sel), pos, cs. split; [now apply chosen_tokens|]. split; [congruence|]. split; [exact L2|]. cbv zeta.
  assert (Et : forall m v base hd j, (j < k)%nat -> rope base hd (nth j pos 0) (token_rows m v (tokens_at s sel) j) = turned base hd (map (row_of m v) s) sel pos j).
  { intros m v base hd j Hj. unfold turned, token_rows, pt. now rewrite tokens_rows by (auto; lia). }
  split.
  - intros y. rewrite Hr. apply Sum_ext. intros j Hj. rewrite Et by exact Hj. reflexivity.
  - intros ds. specialize (Hb eq_refl ds). unfold left_over in Hb.
    eapply Rle_trans; [right; apply nrm_ext|eapply Rle_trans; [exact Hb|right; apply nrm_ext]].
    + intros x _. cbv beta. f_equal. apply Sum_ext. intros j Hj. rewrite Et by exact Hj. reflexivity.
    + intros x _. cbv beta. f_equal. apply Sum_ext. intros j Hj. rewrite Et by exact Hj. reflexivity.
Qed.

(** ** when the approximation succeeds *)
Lemma rope_ok lstsq pick d_a d_b heads_a heads_b base_a base_b eps final k (pa pb : list row) target : length pa = length pb ->
  (exists r, mp_rope lstsq pick d_a d_b heads_a heads_b base_a base_b eps final k pa pb target = Ok r) <->
  (k <= length pa)%nat /\ heads_a <> 0%nat /\ heads_b <> 0%nat /\ (exists i, d_a = heads_a * (2 * i))%nat /\ (exists i, d_b = heads_b * (2 * i))%nat.
Proof.
  intros L. unfold mp_rope. cbv zeta.
  assert (S : forall d h, h <> 0%nat -> splits d h (d / h) = true <-> exists n, d = (h * (2 * n))%nat).
  { intros d h Hh. unfold splits. rewrite andb_true_iff, Nat.eqb_eq, Nat.even_spec. split.
    - intros (E & n & En). exists n. rewrite En in E. exact E.
    - intros (n & ->). rewrite (Nat.mul_comm h (2 * n)), Nat.div_mul by exact Hh. split; [ring|exists n; reflexivity]. }
  rewrite (proj2 (Nat.eqb_eq _ _) L). cbn [negb]. destruct (Nat.ltb_spec (length pa) k); [split; [intros (? & [=])|lia]|].
  destruct (Nat.eqb_spec heads_a 0) as [E3|E3]; [cbn [orb]|destruct (Nat.eqb_spec heads_b 0) as [E4|E4]; cbn [orb]].
  1,2: split; [intros (? & [=])|tauto].
  rewrite <- !S by assumption. destruct (splits d_a heads_a (d_a / heads_a)), (splits d_b heads_b (d_b / heads_b)); cbn [andb negb];
    (split; [intros (? & E); try discriminate E; auto 6|intros (_ & _ & _ & E & E'); try discriminate; eauto]).
Qed.
Definition enough (n : nat) : Prop :=
  match op_method o with
  | ACommon _ _ => (0 < op_k o <= n)%nat
  | AOmp => (op_k o <= n)%nat
  | APca => (dd <= n \/ dor <= n)%nat
  | ARope => (op_k o <= n)%nat /\ w_heads_donor w <> 0%nat /\ w_heads_orig w <> 0%nat /\
      (exists i, dd = w_heads_donor w * (2 * i))%nat /\ (exists i, dor = w_heads_orig w * (2 * i))%nat
  | _ => False
  end.
Theorem C81_succeeds S ts : is_topk (w_topk w) -> (forall pts, is_pick dd pts (w_pick w pts)) -> by_shared (op_method o) = true -> shared_list orig donor S -> ts <> [] ->
  ((exists es, compute ts = Ok es) <-> (forall t, In t ts -> In t (dkeys donor)) /\ S <> [] /\ enough (length S)).
Proof.
  intros Htopk Hpick Hm HS Hne.
  assert (Hone : forall t, (exists v, approximate w o dd dor (map DR S) (map OR S) (DR t) = Ok v) <-> enough (length S)).
  { intros t. unfold approximate, enough. destruct (op_method o) as [sch c| | | | | | | | |] eqn:Em; try discriminate Hm.
    - rewrite (C75_fails (w_lstsq w) (w_topk w) Htopk) by (now rewrite !map_length). now rewrite map_length.
    - split.
      + intros (v & E). apply rbind_Ok in E as (r & E & _). unfold omp in E. destruct (Nat.ltb_spec (length (map DR S)) (op_k o)); [discriminate|]. rewrite map_length in *. lia.
      + intros Hk. destruct (C53_distinct dd (map DR S) eps_omp 256 (DR t) (w_pick w (map DR S)) (w_qr w) (w_solve w) (Hpick _) (op_k o)) as (sel & cs & E & _ & _ & _ & I); [rewrite map_length; exact Hk|].
        rewrite E. cbn [rbind fst snd]. rewrite (rmapM_nthE _ _ rzero) by (intros i Hi; apply I in Hi; rewrite map_length in *; exact Hi). cbn [rbind]. eauto.
    - rewrite map_length. destruct (Nat.ltb_spec (length S) (Nat.min dd dor)); split; eauto; try lia. intros (v & [=]).
    - rewrite <- (map_length DR S). rewrite <- (rope_ok (w_lstsq w) (w_pick w (map DR S)) dd dor (w_heads_donor w) (w_heads_orig w) (w_base_donor w) (w_base_orig w) eps_omp true (op_k o) (map DR S) (map OR S) (DR t)) by (now rewrite !map_length).
      split; [intros (v & E); apply rbind_Ok in E as (r & E & _); eauto|]. intros (r & E). rewrite E. cbn [rbind]. eauto. }
  split.
  - intros (es & E). split; [exact (compute_known ts es E)|]. destruct (compute_pointwise ts es Hm E) as (HF & (u & Hu)). split.
    + intros Z. apply (proj1 (proj2 HS)) in Hu. rewrite Z in Hu. destruct Hu.
    + rewrite (shared_same S HS) in HF. destruct HF as [|t v ts' es' Hv _]; [congruence|]. apply (Hone t). eauto.
  - intros (Hk & HSne & He). rewrite compute_shared; auto.
    + rewrite (shared_same S HS). clear -Hone He. induction ts as [|t ts (es & IH)]; cbn [rmapM]; [eauto|]. destruct (proj2 (Hone t) He) as (v & E). rewrite E. cbn [rbind]. rewrite IH. cbn [rbind]. eauto.
    + destruct S as [|u S']; [congruence|]. exists u. apply HS. now left.
Qed.
End C81.

(** ** The numbering of the tokens, the order of the vocabularies and rows of tokens only one model has make no difference. *)
Definition relist (w : world) (l : list ntok -> list ntok) : world :=
  {| w_topk := w_topk w; w_lstsq := w_lstsq w; w_pick := w_pick w; w_qr := w_qr w; w_solve := w_solve w; w_pca := w_pca w; w_svd := w_svd w;
     w_randn := w_randn w; w_definite := w_definite w; w_normal := w_normal w; w_ids := w_ids w; w_heads_donor := w_heads_donor w;
     w_heads_orig := w_heads_orig w; w_base_donor := w_base_donor w; w_base_orig := w_base_orig w; w_listing := l |}.
Theorem C81_numbering w l l' o dd dor head orig_embed orig_embed' donor_embed orig orig' donor donor' ts :
  is_listing l -> is_listing l' -> is_vocab orig -> is_vocab orig' -> is_vocab donor -> is_vocab donor' ->
  within orig_embed orig -> within orig_embed' orig' -> within donor_embed donor -> by_shared (op_method o) = true ->
  (forall t i, In (t, i) donor <-> In (t, i) donor') -> (forall t, in_both orig donor t <-> in_both orig' donor' t) ->
  (forall t, in_both orig donor t -> row_of orig_embed orig t = row_of orig_embed' orig' t) ->
  compute_new (relist w l) o dd dor head orig_embed donor_embed orig donor ts =
  compute_new (relist w l') o dd dor head orig_embed' donor_embed orig' donor' ts.
Proof.
  intros Hl Hl' Ho Ho' Hd Hd' Hwo Hwo' Hwd Hm Hdd Hb Hr.
  assert (Hwd' : within donor_embed donor') by (intros t i Hi; apply Hdd in Hi; eapply Hwd; eassumption).
  assert (Hkeys : forall t, In t (dkeys donor) <-> In t (dkeys donor')).
  { intros t. split; intros Ht; apply key_In in Ht as (i & Hi); apply Hdd in Hi; unfold dkeys; change t with (fst (t, i)); now apply in_map. }
  assert (Hrow : forall t, row_of donor_embed donor t = row_of donor_embed donor' t).
  { intros t. unfold row_of. destruct (dget donor t) as [i|] eqn:E.
    - apply dget_In in E. apply Hdd in E. now rewrite (dget_In_NoDup _ _ _ (proj1 Hd') E).
    - apply dget_None in E. destruct (dget donor' t) as [i|] eqn:E'; [|reflexivity]. exfalso. apply E, Hkeys, dget_Some_key. eauto. }
  assert (Es : shared_vocab (relist w l) orig donor = shared_vocab (relist w l') orig' donor').
  { eapply (shared_unique orig donor orig' donor'); auto; apply shared_is; auto. }
  assert (Ef : forallb (dmem donor) ts = forallb (dmem donor') ts).
  { apply eq_true_iff_eq. rewrite !forallb_forall. split; intros H t Ht; apply dmem_In, Hkeys, dmem_In, H, Ht. }
  assert (Hin : forall (m : list row) (v v' : dict ntok nat) (m' : list row) us, is_vocab v -> is_vocab v' -> within m v -> within m' v' ->
     (forall t, In t us -> In t (dkeys v) /\ In t (dkeys v') /\ row_of m v t = row_of m' v' t) -> rows_of m v us = rows_of m' v' us).
  { intros m v v' m' us V V' W W' H. destruct us as [|u us']; [reflexivity|]. rewrite !rows_of_ok; auto; try discriminate; try (intros t Ht; now apply H).
    f_equal. apply map_ext_in. intros t Ht. now apply H. }
  assert (HIs : forall t, In t (shared_vocab (relist w l) orig donor) -> in_both orig donor t) by (intros t; now apply shared_In).
  unfold compute_new. rewrite <- Ef. destruct (forallb (dmem donor) ts) eqn:Et; [|reflexivity]. cbn [negb].
  assert (Eq : (let s := shared_vocab (relist w l) orig donor in
      let! a := rows_of donor_embed donor s in let! b := rows_of orig_embed orig s in let! c := rows_of donor_embed donor ts in rmapM (approximate (relist w l) o dd dor a b) c) =
      (let s := shared_vocab (relist w l') orig' donor' in
      let! a := rows_of donor_embed donor' s in let! b := rows_of orig_embed' orig' s in let! c := rows_of donor_embed donor' ts in rmapM (approximate (relist w l') o dd dor a b) c)).
  { cbv zeta. rewrite <- Es. set (S := shared_vocab (relist w l) orig donor) in *.
    rewrite (Hin donor_embed donor donor' donor_embed S) by (auto; intros t Ht; apply HIs in Ht as [_ Ht]; repeat split; auto; now apply Hkeys).
    assert (R2 : rows_of orig_embed orig S = rows_of orig_embed' orig' S).
    { apply Hin; try assumption. intros t Ht. apply HIs in Ht. split; [apply Ht|]. split; [exact (proj1 (proj1 (Hb t) Ht))|]. now apply Hr. }
    rewrite R2.
    rewrite (Hin donor_embed donor donor' donor_embed ts) by (auto; intros t Ht; rewrite forallb_forall in Et; specialize (Et t Ht); apply dmem_In in Et; repeat split; auto; now apply Hkeys).
    reflexivity. }
  destruct (op_method o); try discriminate Hm; exact Eq.
Qed.

(** ** the methods without shared tokens *)
Theorem C81_mean w o dd dor head orig_embed donor_embed orig donor ts es : op_method o = AMean -> orig_embed <> [] ->
  compute_new w o dd dor head orig_embed donor_embed orig donor ts = Ok es -> length es = length ts /\
  forall v y, In v es -> INR (length orig_embed) * v y = rsum (map (fun r : row => r y) orig_embed).
Proof.
  intros Hm Hne E. unfold compute_new in E. rewrite Hm in E. destruct (negb _); [discriminate|]. injection E as <-. split; [apply map_length|].
  intros v y Hv. apply in_map_iff in Hv as (_ & <- & _). unfold mean_row. field. apply not_0_INR. destruct orig_embed; [congruence|discriminate].
Qed.
Theorem C81_zero w o dd dor head orig_embed donor_embed orig donor ts es : op_method o = AZero ->
  compute_new w o dd dor head orig_embed donor_embed orig donor ts = Ok es -> length es = length ts /\ forall v y, In v es -> v y = 0.
Proof.
  intros Hm E. unfold compute_new in E. rewrite Hm in E. destruct (negb _); [discriminate|]. injection E as <-. split; [apply map_length|].
  intros v y Hv. apply in_map_iff in Hv as (_ & <- & _). reflexivity.
Qed.
(** the mean of the original rows of the token's subwords; the other ways of combining them: C51 *)
Theorem C81_subword w o dd dor head orig_embed donor_embed orig donor ts es : op_method o = ASubword SMean ->
  (forall t, In t ts -> w_ids w (unnormalize t) <> []) ->
  compute_new w o dd dor head orig_embed donor_embed orig donor ts = Ok es ->
  Forall2 (fun t (v : row) => let ids := w_ids w (unnormalize t) in (forall i, In i ids -> (i < length orig_embed)%nat) /\
    forall y, INR (length ids) * v y = rsum (map (fun i => nth i orig_embed rzero y) ids)) ts es.
Proof.
  intros Hm Hne E. unfold compute_new in E. rewrite Hm in E. destruct (negb _); [discriminate|]. apply rmapM_Ok_Forall2 in E.
  assert (E' : Forall2 (fun t v => In t ts /\ subword SMean head orig_embed (w_ids w (unnormalize t)) = Ok v) ts es).
  { clear Hne. induction E; constructor; [split; [now left|assumption]|]. eapply Forall2_impl; [|exact IHE]. intros ? ? []. split; [now right|assumption]. }
  eapply Forall2_impl; [|exact E']. clear E E'. intros t v (Hin & E). cbv zeta. set (ids := w_ids w (unnormalize t)) in *. specialize (Hne t Hin). fold ids in Hne.
  assert (Hi : forall i, In i ids -> (i < length orig_embed)%nat).
  { intros i Hi. destruct (Nat.lt_ge_cases i (length orig_embed)); [assumption|]. rewrite (C51_out_of_range SMean head orig_embed ids i) in E by (auto; discriminate). discriminate. }
  split; [exact Hi|]. intros y. destruct (C51_mean head orig_embed ids Hne Hi) as (r & Er & Hr). rewrite E in Er. injection Er as <-. rewrite Hr. unfold subword_coords.
  field. apply not_0_INR. destruct ids; [congruence|discriminate].
Qed.

(** ** noise and scale *)
(** without noise, the rows are multiplied by the scale; a scale of zero is taken for none *)
Theorem C81_scaled w o dd dor head orig_embed donor_embed orig donor ts es : given (op_noise o) = None ->
  new_rows w o dd dor head orig_embed donor_embed orig donor ts = Ok es ->
  exists es0, compute_new w o dd dor head orig_embed donor_embed orig donor ts = Ok es0 /\
  Forall2 (fun v0 v : row => forall y, v y = (match op_scale o with Some c => if Req_EM_T c 0 then 1 else c | None => 1 end) * v0 y) es0 es.
Proof.
  intros Hn E. unfold new_rows in E. apply rbind_Ok in E as (es0 & E0 & E). exists es0. split; [exact E0|]. unfold finish in E. rewrite Hn in E. cbn [rbind] in E.
  assert (Hsame : Forall2 (fun v0 v : row => forall y, v y = 1 * v0 y) es0 es0) by (clear; induction es0; constructor; auto; intros; ring).
  unfold given in E. destruct (op_scale o) as [c|]; [|injection E as <-; exact Hsame]. destruct (Req_EM_T c 0); [injection E as <-; exact Hsame|].
  assert (Ee : es = map (rscale c) es0) by (unfold in_place in E; destruct (op_method o); try (injection E as <-; reflexivity); destruct (Nat.ltb _ _); [discriminate|injection E as <-; reflexivity]).
  subst es. clear. induction es0; constructor; auto.
Qed.
Definition scales (o : options) : Prop := exists c, op_scale o = Some c /\ c <> 0.
(** the mean cannot be scaled when a batch has more than one token *)
Theorem C81_mean_scaled_refuted w o dd dor head orig_embed donor_embed orig donor t u ts : op_method o = AMean -> scales o -> given (op_noise o) = None ->
  (forall x, In x (t :: u :: ts) -> In x (dkeys donor)) -> new_rows w o dd dor head orig_embed donor_embed orig donor (t :: u :: ts) = Err RuntimeError.
Proof.
  intros Hm (c & Hc & Hc0) Hn Hk. unfold new_rows, compute_new.
  assert (Ef : forallb (dmem donor) (t :: u :: ts) = true) by (apply forallb_forall; intros x Hx; now apply dmem_In, Hk).
  rewrite Ef, Hm. cbn [negb rbind]. unfold finish. rewrite Hn. cbn [rbind]. rewrite Hc. unfold given. destruct (Req_EM_T c 0); [contradiction|]. unfold in_place. rewrite Hm. reflexivity.
Qed.
(** john_hewitt has no fallback when the covariance is not positive definite *)
Theorem C81_fallback_refuted w o dd dor head orig_embed donor_embed orig donor ts : op_method o = AHewitt -> w_definite w orig_embed = false ->
  exists e, new_rows w o dd dor head orig_embed donor_embed orig donor ts = Err e.
Proof. intros Hm Hw. unfold new_rows, compute_new. rewrite Hm, Hw. destruct (negb _); cbn [rbind]; eauto. Qed.

(** ** the whole matrix *)
Lemma filter_map_NoDup {A B} (g : A -> B) (p : A -> bool) l : NoDup (map g l) -> NoDup (map g (filter p l)).
Proof.
  induction l as [|a l IH]; intros N; cbn [filter map] in *; [constructor|]. inversion N as [|? ? H N']; subst. destruct (p a); cbn [map]; auto. constructor; auto.
  intros Hin. apply H. apply in_map_iff in Hin as (x & <- & Hx). apply filter_In in Hx as [Hx _]. now apply in_map.
Qed.
Lemma safe_vocab n v : is_vocab v -> is_vocab (safe n v).
Proof. intros (N1 & N2). split; now apply filter_map_NoDup. Qed.
Lemma safe_within m v : within m (safe (length m) v).
Proof. intros t i H. apply filter_In in H as [_ H]. cbn [snd] in H. now apply Nat.ltb_lt. Qed.
Lemma safe_In n (v : dict ntok nat) t i : In (t, i) (safe n v) <-> In (t, i) v /\ (i < n)%nat.
Proof. unfold safe. rewrite filter_In. cbn [snd]. now rewrite Nat.ltb_lt. Qed.

(** no random numbers are drawn *)
Definition repeatable (o : options) : Prop := op_method o <> ARandn /\ op_method o <> AHewitt /\ given (op_noise o) = None.
Lemma alone w o dd dor head oe de orig donor ts es k t v : is_listing (w_listing w) -> is_vocab orig -> is_vocab donor -> within oe orig -> within de donor -> repeatable o ->
  new_rows w o dd dor head oe de orig donor ts = Ok es -> nth_error ts k = Some t -> nth_error es k = Some v ->
  new_rows w o dd dor head oe de orig donor [t] = Ok [v].
Proof.
  intros Hl Ho Hd Hwo Hwd (Hr1 & Hr2 & Hn) E Ht Hv. unfold new_rows in *. apply rbind_Ok in E as (es0 & E0 & E).
  assert (H0 : exists v0, nth_error es0 k = Some v0 /\ compute_new w o dd dor head oe de orig donor [t] = Ok [v0]).
  { pose proof (compute_known w o dd dor head oe de orig donor ts es0 E0 t (nth_error_In _ _ Ht)) as Hk.
    assert (Ef : forallb (dmem donor) [t] = true) by (cbn; rewrite andb_true_r; now apply dmem_In).
    destruct (by_shared (op_method o)) eqn:Eb.
    - destruct (compute_pointwise w o dd dor head oe de orig donor Hl Ho Hd Hwo Hwd ts es0 Eb E0) as (HF & Hex).
      assert (Hnth : exists v0, nth_error es0 k = Some v0 /\ approximate w o dd dor (map (row_of de donor) (shared_vocab w orig donor)) (map (row_of oe orig) (shared_vocab w orig donor)) (row_of de donor t) = Ok v0).
      { clear -HF Ht. revert k Ht. induction HF; intros [|k] Ht; cbn in *; try discriminate; eauto. injection Ht as ->. eauto. }
      destruct Hnth as (v0 & H1 & H2). exists v0. split; [exact H1|]. rewrite compute_shared; auto; [|intros x [<-|[]]; exact Hk|discriminate]. cbn [rmapM]. now rewrite H2.
    - unfold compute_new in *. rewrite Ef. destruct (negb (forallb (dmem donor) ts)); [discriminate|]. cbn [negb].
      destruct (op_method o); try discriminate Eb; try congruence.
      + apply rmapM_Ok_Forall2 in E0. cbn [rmapM]. clear -E0 Ht. revert k Ht. induction E0; intros [|k] Ht; cbn in *; try discriminate; eauto. injection Ht as ->. rewrite H. eauto.
      + injection E0 as <-. rewrite nth_error_map, Ht. cbn. eauto.
      + injection E0 as <-. rewrite nth_error_map, Ht. cbn. eauto. }
  destruct H0 as (v0 & H0 & ->). cbn [rbind]. unfold finish in *. rewrite Hn in *. cbn [rbind] in *.
  destruct (given (op_scale o)) as [c|].
  - assert (Ee : es = map (rscale c) es0) by (unfold in_place in E; destruct (op_method o); try (injection E as <-; reflexivity); destruct (Nat.ltb _ _); [discriminate|injection E as <-; reflexivity]).
    subst es. rewrite nth_error_map, H0 in Hv. injection Hv as <-. unfold in_place. destruct (op_method o); reflexivity.
  - injection E as <-. congruence.
Qed.

Lemma Forall2_hd {A B} (P : A -> B -> Prop) a b l m : Forall2 P (a :: l) (b :: m) -> P a b.
Proof. intros H. now inversion H. Qed.
Section Whole.
Variables (w : world) (o : options) (dd dor : nat) (head : bool) (oe de : list row) (ov dv : dict ntok nat).
Variables (bs : option Z) (ap ab : bool) (junk : list nat) (out : list row).
Hypothesis Hlist : is_listing (w_listing w).
Hypothesis Ho : is_vocab ov.
Hypothesis Hd : is_vocab dv.
Notation ov' := (safe (length oe) ov).
Notation dv' := (safe (length de) dv).
Hypothesis Hrun : build rzero (new_rows w o dd dor head oe de ov' dv') false bs ap ab oe (length de) ov dv junk = Ok out.

(** a new token's row is the one computed for the token on its own, whatever the batches *)
Theorem C81_alone t i : repeatable o -> ab = false \/ no_byte_form t -> ap = false \/ (forall p j, proper_prefix p t -> ~ known oe ov p j) ->
  In (t, i) dv -> (i < length de)%nat -> ~ In i junk -> (forall j, ~ known oe ov t j) ->
  exists v, nth_error out i = Some v /\ new_rows w o dd dor head oe de ov' dv' [t] = Ok [v].
Proof.
  intros Hr Hb Hp Hin Hi Hj Hn.
  destruct (Props.C47_approximated rzero _ bs ap ab oe (length de) ov dv junk Ho Hd out Hrun t i Hb Hp Hin Hi Hj Hn) as (ts & es & k & v & E & H1 & H2 & H3).
  exists v. split; [exact H3|]. eapply alone; eauto using safe_vocab, safe_within.
Qed.
Lemma row_at t i : In (t, i) dv -> (i < length de)%nat -> row_of de dv' t = nth i de rzero.
Proof. intros Hin Hi. unfold row_of. rewrite (dget_In_NoDup dv' t i); [reflexivity|apply safe_vocab, Hd|now apply safe_In]. Qed.
Lemma row_at_orig t j : known oe ov t j -> row_of oe ov' t = nth j oe rzero.
Proof. intros [Hin Hi]. unfold row_of. rewrite (dget_In_NoDup ov' t j); [reflexivity|apply safe_vocab, Ho|now apply safe_In]. Qed.
Lemma known_dec t : (exists j, known oe ov t j) \/ forall j, ~ known oe ov t j.
Proof.
  destruct (dget ov' t) as [j|] eqn:E.
  - left. exists j. apply dget_In, safe_In in E. exact E.
  - right. intros j Hk. apply dget_None in E. apply E. unfold dkeys. change t with (fst (t, j)). apply in_map, safe_In. exact Hk.
Qed.
Lemma both_known t i j : In (t, i) dv -> (i < length de)%nat -> known oe ov t j -> in_both ov' dv' t.
Proof. intros Hin Hi Hk. split; unfold dkeys; [change t with (fst (t, j))|change t with (fst (t, i))]; apply in_map, safe_In; [exact Hk|now split]. Qed.

Hypothesis Hap : ap = false.
Hypothesis Hab : ab = false.
Hypothesis Hnoise : given (op_noise o) = None.
Hypothesis Hscale : given (op_scale o) = None.
Lemma whole (good : row -> row -> Prop) : op_method o <> ARandn -> op_method o <> AHewitt ->
  (forall t, in_both ov' dv' t -> good (row_of de dv' t) (row_of oe ov' t)) ->
  (forall t v, compute_new w o dd dor head oe de ov' dv' [t] = Ok [v] -> good (row_of de dv' t) v) ->
  forall t i, In (t, i) dv -> (i < length de)%nat -> ~ In i junk -> exists v, nth_error out i = Some v /\ good (nth i de rzero) v.
Proof.
  intros M1 M2 Hshared Hnew t i Hin Hi Hj. rewrite <- (row_at t i Hin Hi). destruct (known_dec t) as [(j & Hk)|Hn].
  - destruct (Props.C47_exact rzero _ bs ap ab oe (length de) ov dv junk Ho Hd out Hrun t i j Hin Hi Hj Hk) as (E & _).
    exists (row_of oe ov' t). split; [|apply Hshared; eapply both_known; eassumption]. rewrite E, (row_at_orig t j Hk). apply nth_error_nth', Hk.
  - destruct (C81_alone t i) as (v & H1 & H2); auto; [now split|]. exists v. split; [exact H1|]. apply Hnew. unfold new_rows in H2. apply rbind_Ok in H2 as (es & E & Ef).
    unfold finish in Ef. rewrite Hnoise, Hscale in Ef. cbn [rbind] in Ef. congruence.
Qed.

(** Orthogonal matching pursuit: when the original model's rows are a linear image of the donor's on the shared tokens, k is the width of the
    donor's rows and the donor's rows of any k shared tokens are independent, then the new matrix is the image of the donor's matrix. *)
Theorem C81_whole_linear f : (forall pts, is_pick dd pts (w_pick w pts)) -> is_qr dd (w_qr w) -> is_solve (w_solve w) ->
  op_method o = AOmp -> op_k o = dd -> linear_image dd f oe de ov' dv' ->
  (forall used, some_shared ov' dv' dd used -> independent dd eps_omp dd (token_rows de dv' used)) ->
  forall t i, In (t, i) dv -> (i < length de)%nat -> ~ In i junk -> exists v, nth_error out i = Some v /\ forall y, v y = Sum dd (fun x => f y x * nth i de rzero x).
Proof.
  intros Hpick Hqr Hsolve Hm Hk Hf Hind. apply (whole (fun a b => forall y, b y = Sum dd (fun x => f y x * a x))); try (rewrite Hm; discriminate).
  - intros t Ht y. now apply Hf.
  - intros t v E y. assert (HF := C81_omp_linear w o dd dor head oe de ov' dv' Hlist (safe_vocab _ _ Ho) (safe_vocab _ _ Hd) (safe_within _ _) (safe_within _ _) Hpick Hqr Hsolve Hm [t] [v] f E Hf).
    rewrite Hk in HF. assert (H0 := Forall2_hd _ _ _ _ _ HF). destruct H0 as (used & Hu & H). apply H; auto.
Qed.
(** Landmark PCA: when the original model's rows are the donor's turned and shifted, so is the new matrix. *)
Theorem C81_whole_rigid q c S variance variance' : op_method o = APca -> dor = dd -> shared_list ov' dv' S -> orthogonal dd q ->
  (forall u j, in_both ov' dv' u -> (j < dd)%nat -> row_of oe ov' u j = Sum dd (fun l => row_of de dv' u l * q l j) + c j) ->
  (let centred := fun l => center (mean_row l) l in
   principal dd (centred (map (row_of de dv') S)) (w_pca w dd (centred (map (row_of de dv') S)) dd) variance /\
   principal dd (centred (map (row_of oe ov') S)) (w_pca w dd (centred (map (row_of oe ov') S)) dd) variance') ->
  (forall l m, (l < m)%nat -> (m < dd)%nat -> variance m < variance l) -> spanning dd (map (row_of de dv') S) ->
  is_svd (w_svd w) dd (procrustes (w_pca w) dd dd (map (row_of de dv') S) (map (row_of oe ov') S)) ->
  forall t i, In (t, i) dv -> (i < length de)%nat -> ~ In i junk ->
  exists v, nth_error out i = Some v /\ forall j, (j < dd)%nat -> v j = Sum dd (fun l => nth i de rzero l * q l j) + c j.
Proof.
  intros Hm Edor HS Hq Hrow Hp Hvar Hspan Hsvd. apply (whole (fun a b => forall j, (j < dd)%nat -> b j = Sum dd (fun l => a l * q l j) + c j)); try (rewrite Hm; discriminate).
  - intros t Ht j Hj. now apply Hrow.
  - intros t v E j Hj. assert (HF := C81_rigid w o dd dor head oe de ov' dv' Hlist (safe_vocab _ _ Ho) (safe_vocab _ _ Hd) (safe_within _ _) (safe_within _ _) q c S variance variance' [t] [v] Hm Edor HS Hq Hrow Hp Hvar Hspan Hsvd E).
    exact (Forall2_hd _ _ _ _ _ HF j Hj).
Qed.
End Whole.

Section Runs.
Variables (w : world) (o : options) (dd dor : nat) (head : bool) (oe de : list row) (ov dv : dict ntok nat) (S : list ntok).
Hypothesis Hlist : is_listing (w_listing w).
Hypothesis Ho : is_vocab ov.
Hypothesis Hd : is_vocab dv.
Hypothesis Hdv : dv <> [].
Hypothesis Htopk : is_topk (w_topk w).
Hypothesis Hpick : forall pts, is_pick dd pts (w_pick w pts).
Hypothesis Hm : by_shared (op_method o) = true.
Hypothesis HS : shared_list (safe (length oe) ov) (safe (length de) dv) S.
(** with enough shared tokens the whole matrix is built; the batch size does not matter *)
Theorem C81_runs bs : S <> [] -> enough w o dd dor (length S) -> given (op_noise o) = None ->
  exists out, build rzero (new_rows w o dd dor head oe de (safe (length oe) ov) (safe (length de) dv)) false bs false false oe (length de) ov dv [] = Ok out.
Proof.
  intros HSne He Hn. apply Props.C47_succeeds; auto; [intros i []|]. intros ts Hne Hts.
  assert (Hk : forall t, In t ts -> In t (dkeys (safe (length de) dv))).
  { intros t Ht. destruct (Hts t Ht) as (i & Hi & Hr). unfold dkeys. change t with (fst (t, i)). apply in_map, safe_In. now split. }
  destruct (proj2 (C81_succeeds w o dd dor head oe de _ _ Hlist (safe_vocab _ _ Ho) (safe_vocab _ _ Hd) (safe_within _ _) (safe_within _ _) S ts Htopk Hpick Hm HS Hne)) as (es & E); [auto|].
  destruct (compute_pointwise w o dd dor head oe de _ _ Hlist (safe_vocab _ _ Ho) (safe_vocab _ _ Hd) (safe_within _ _) (safe_within _ _) ts es Hm E) as (HF & _).
  assert (L : length es = length ts) by (symmetry; clear -HF; induction HF; cbn; congruence). clear HF. unfold new_rows. rewrite E. cbn [rbind]. unfold finish. rewrite Hn. cbn [rbind]. destruct (given (op_scale o)) as [c|]; [|eauto].
  exists (map (rscale c) es). rewrite map_length. split; [|auto]. unfold in_place. destruct (op_method o); try reflexivity. discriminate Hm.
Qed.
End Runs.

(** ** examples *)
Definition ex_world : world :=
  {| w_topk := sort_topk; w_lstsq := lsq; w_pick := greedy_pick 2; w_qr := same_qr; w_solve := back_solve; w_pca := oval_pca; w_svd := oval_svd;
     w_randn := map (fun _ => rzero); w_definite := fun _ => false; w_normal := fun _ => map (fun _ => rzero); w_ids := fun _ => [];
     w_heads_donor := 1; w_heads_orig := 1; w_base_donor := 10000; w_base_orig := 10000; w_listing := @rev ntok |}.
Lemma ex_listing : is_listing (w_listing ex_world).
Proof. intros l. symmetry. apply Permutation_rev. Qed.
Definition ta : ntok := TPlain [97%N].
Definition tb : ntok := TPlain [98%N].
Definition tc : ntok := TPlain [99%N].
Definition ex_orig : dict ntok nat := [(ta, 1%nat); (tb, 0%nat)].
Definition ex_donor : dict ntok nat := [(tc, 1%nat); (ta, 0%nat); (tb, 2%nat)].
Definition ex_f (y x : nat) : R := match y, x with 0%nat, 1%nat => 1 | S _, 0%nat => 2 | _, _ => 0 end.
Definition ex_image (a b : R) : row := fun y => match y with 0%nat => b | _ => 2 * a end.
Definition ex_oe : list row := [ex_image 1 1; ex_image 1 0].
Definition ex_de : list row := [nth 0 ex_pts rzero; ex_target; nth 1 ex_pts rzero].
Definition omp_options : options := {| op_method := AOmp; op_k := 2; op_noise := None; op_scale := None |}.
Lemma ex_shared : shared_list (safe (length ex_oe) ex_orig) (safe (length ex_de) ex_donor) [ta; tb].
Proof. rewrite <- (eq_refl : shared_vocab ex_world (safe (length ex_oe) ex_orig) (safe (length ex_de) ex_donor) = [ta; tb]). apply shared_is; [exact ex_listing|..]; split; repeat constructor; cbn; intuition discriminate. Qed.
Lemma independent_ext {D eps k} a b : (forall j, (j < k)%nat -> a j = b j) -> independent D eps k a -> independent D eps k b.
Proof.
  intros H Hi j d Hj. eapply Rle_trans; [apply (Hi j d Hj)|right; apply nrm_ext]. intros x _. cbv beta. rewrite (H j Hj). f_equal. apply Sum_ext. intros i Hij.
  now rewrite (H i) by lia.
Qed.
(** the shared tokens (1,0) and (1,1) have the rows (0,2) and (1,2); the new token (3,2) gets (2,6) *)
Example C81_nonvacuous : exists out v,
  build rzero (new_rows ex_world omp_options 2 2 false ex_oe ex_de (safe (length ex_oe) ex_orig) (safe (length ex_de) ex_donor)) false (Some 1%Z) false false
    ex_oe (length ex_de) ex_orig ex_donor [] = Ok out /\ nth_error out 1 = Some v /\ v 0%nat = 2 /\ v 1%nat = 6.
Proof.
  assert (Hov : is_vocab ex_orig) by (split; repeat constructor; cbn; intuition discriminate).
  assert (Hdv : is_vocab ex_donor) by (split; repeat constructor; cbn; intuition discriminate).
  assert (Hs := ex_shared).
  destruct (C81_runs ex_world omp_options 2 2 false ex_oe ex_de ex_orig ex_donor [ta; tb] ex_listing Hov Hdv ltac:(discriminate) sort_is_topk (greedy_is_pick 2) eq_refl Hs (Some 1%Z)) as (out & E); [discriminate|cbn; lia|reflexivity|].
  destruct (C81_whole_linear ex_world omp_options 2 2 false ex_oe ex_de ex_orig ex_donor _ _ _ _ out ex_listing Hov Hdv E eq_refl eq_refl eq_refl eq_refl ex_f (greedy_is_pick 2) (same_is_qr 2) back_is_solve eq_refl eq_refl) with (t := tc) (i := 1%nat)
    as (v & H1 & H2); [| |now left|cbn; lia|intros []|].
  - intros u y Hu. assert (Hu' : In u [ta; tb]) by now apply Hs. destruct Hu' as [<-|[<-|[]]].
    + change (ex_image 1 0 y = Sum 2 (fun x => ex_f y x * nth 0 ex_pts rzero x)). destruct y; cbn; ring.
    + change (ex_image 1 1 y = Sum 2 (fun x => ex_f y x * nth 1 ex_pts rzero x)). destruct y; cbn; ring.
  - intros used (L & N & I).
    assert (Hi : forall u, In u used -> u = ta \/ u = tb) by (intros u Hu; apply I in Hu; apply Hs in Hu; destruct Hu as [<-|[<-|[]]]; auto).
    destruct used as [|a [|b [|]]]; try discriminate L. apply NoDup_cons_iff in N as (N & _).
    assert (Hab : a = ta /\ b = tb \/ a = tb /\ b = ta).
    { destruct (Hi a) as [->| ->], (Hi b) as [->| ->]; cbn; auto; exfalso; apply N; now left. }
    destruct Hab as [[-> ->]|[-> ->]].
    + apply (independent_ext (chosen ex_pts [0%nat; 1%nat])); [intros [|[|]] ?; try lia; reflexivity|].
      apply ex_independent; [reflexivity|repeat constructor; cbn; lia|cbn; intros; lia].
    + apply (independent_ext (chosen ex_pts [1%nat; 0%nat])); [intros [|[|]] ?; try lia; reflexivity|].
      apply ex_independent; [reflexivity|repeat constructor; cbn; lia|cbn; intros; lia].
  - exists out, v. split; [exact E|]. split; [exact H1|]. rewrite !H2. split; cbn; unfold ex_target; cbn; ring.
Qed.
(** four shared tokens turned by 90 degrees and moved by (5,7): the new token (3,4) gets (1,10) *)
Definition td : ntok := TStart [97%N].
Definition te : ntok := TStart [98%N].
Definition oval_orig : dict ntok nat := [(ta, 0%nat); (tb, 1%nat); (tc, 2%nat); (td, 3%nat)].
Definition oval_donor : dict ntok nat := (te, 4%nat) :: oval_orig.
Definition oval_de : list row := oval_a ++ [pt2 3 4].
Definition pca_options : options := {| op_method := APca; op_k := 1; op_noise := None; op_scale := None |}.
Example C81_rigid_nonvacuous : exists out v,
  build rzero (new_rows ex_world pca_options 2 2 true oval_b oval_de (safe (length oval_b) oval_orig) (safe (length oval_de) oval_donor)) false None false false
    oval_b (length oval_de) oval_orig oval_donor [] = Ok out /\ nth_error out 4 = Some v /\ v 0%nat = 1 /\ v 1%nat = 10.
Proof.
  assert (Hov : is_vocab oval_orig) by (split; repeat constructor; cbn; intuition discriminate).
  assert (Hdv : is_vocab oval_donor) by (split; repeat constructor; cbn; intuition discriminate).
  assert (Hs : shared_list (safe (length oval_b) oval_orig) (safe (length oval_de) oval_donor) [ta; tb; tc; td]).
  { rewrite <- (eq_refl : shared_vocab ex_world (safe (length oval_b) oval_orig) (safe (length oval_de) oval_donor) = [ta; tb; tc; td]).
    apply shared_is; [exact ex_listing|..]; split; repeat constructor; cbn; intuition discriminate. }
  destruct (C81_runs ex_world pca_options 2 2 true oval_b oval_de oval_orig oval_donor _ ex_listing Hov Hdv ltac:(discriminate) sort_is_topk (greedy_is_pick 2) eq_refl Hs None) as (out & E); [discriminate|cbn; lia|reflexivity|].
  destruct (C81_whole_rigid ex_world pca_options 2 2 true oval_b oval_de oval_orig oval_donor _ _ _ _ out ex_listing Hov Hdv E eq_refl eq_refl eq_refl eq_refl
    oval_turn (pt2 5 7) _ oval_variance oval_variance eq_refl eq_refl Hs) with (t := te) (i := 4%nat) as (v & H1 & H2); [| | | | | |now left|cbn; lia|intros []|].
  - split; intros [|[|]] [|[|]] ? ?; try lia; cbn; ring.
  - intros u j Hu Hj. assert (Hu' : In u [ta; tb; tc; td]) by now apply Hs.
    assert (Hk : exists k, (k < 4)%nat /\ row_of oval_b (safe (length oval_b) oval_orig) u = nth k oval_b rzero /\ row_of oval_de (safe (length oval_de) oval_donor) u = nth k oval_a rzero).
    { destruct Hu' as [<-|[<-|[<-|[<-|[]]]]]; [exists 0%nat|exists 1%nat|exists 2%nat|exists 3%nat]; repeat split; lia. }
    destruct Hk as (k & Hk & -> & ->). destruct k as [|[|[|[|]]]]; try lia; destruct j as [|[|]]; try lia; cbn; ring.
  - change (map (row_of oval_de (safe (length oval_de) oval_donor)) [ta; tb; tc; td]) with oval_a. change (map (row_of oval_b (safe (length oval_b) oval_orig)) [ta; tb; tc; td]) with oval_b.
    cbv beta zeta. change (w_pca ex_world) with oval_pca. rewrite oval_pca_a, oval_pca_b. split.
    + split; [apply orthogonal_eye|]. split.
      * intros [|[|]] [|[|]] ? ?; try lia; unfold center, mean_row, rsum; cbn; field.
      * intros [|[|]] [|[|]] ? ?; try lia; cbn; lra.
    + split; [split; intros [|[|]] [|[|]] ? ?; try lia; cbn; ring|]. split.
      * intros [|[|]] [|[|]] ? ?; try lia; unfold center, mean_row, rsum; cbn; field.
      * intros [|[|]] [|[|]] ? ?; try lia; cbn; lra.
  - intros [|[|]] [|[|]] ? ?; try lia; cbn; lra.
  - change (map (row_of oval_de (safe (length oval_de) oval_donor)) [ta; tb; tc; td]) with oval_a.
    intros z H. pose proof (H _ (or_introl eq_refl)) as H0. pose proof (H _ (or_intror (or_intror (or_introl eq_refl)))) as H1.
    unfold mean_row, rsum in H0, H1. cbn in H0, H1. intros [|[|]] ?; try lia; lra.
  - change (map (row_of oval_de (safe (length oval_de) oval_donor)) [ta; tb; tc; td]) with oval_a. change (map (row_of oval_b (safe (length oval_b) oval_orig)) [ta; tb; tc; td]) with oval_b.
    split; [|split]; [split; intros [|[|]] [|[|]] ? ?; try lia; cbn; ring..|]. exists oval_variance. split; [intros [|]; cbn; intros; lra|].
    intros i j Hi Hj. unfold procrustes. cbv zeta. change (Nat.min 2 2) with 2%nat. change (w_pca ex_world) with oval_pca. rewrite oval_pca_a, oval_pca_b.
    destruct i as [|[|]], j as [|[|]]; try lia; unfold center, mean_row, rmul, rsum; cbn; field.
  - exists out, v. split; [exact E|]. split; [exact H1|]. rewrite (H2 0%nat), (H2 1%nat) by lia. split; cbn; ring.
Qed.
Print Assumptions C81_whole_linear.
Print Assumptions C81_whole_rigid.
Print Assumptions C81_runs.
