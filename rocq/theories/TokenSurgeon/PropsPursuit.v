(** * C77: the matching pursuits of token surgery (batch_mp_rope, batch_mp_resets) *)
From Coq Require Import Reals Lra Lia FunctionalExtensionality.
From Verif.Base Require Import LinAlg RList Py PyFacts.
From Verif.TokenSurgeon Require Import Approx OmpProofs ApproxSpec ApproxInst LeastSquares Rope RopeProofs.
Local Open Scope list_scope.
Local Open Scope R_scope.

(** [torch.max] of the signed inner products of the points not in use *)
Definition is_pick_signed (D : nat) (pts : list row) (pick : row -> list nat -> nat) : Prop :=
  forall res sel, NoDup sel -> (forall i, In i sel -> (i < length pts)%nat) -> (length sel < length pts)%nat ->
  (pick res sel < length pts)%nat /\ ~ In (pick res sel) sel /\
  forall i, (i < length pts)%nat -> ~ In i sel -> ip D res (pt pts i) <= ip D res (pt pts (pick res sel)).
(** the coefficients in a list *)
Definition entry (cs : list R) (j : nat) : R := nth j cs 0.

(** ** A coefficient that is the projection, or smaller, never makes the residual longer *)
Lemma shrink D (r p : row) (c n : R) : c = ip D r p / n -> 0 < n -> ip D p p <= n ->
  ip D (fun i => r i - c * p i) (fun i => r i - c * p i) <= ip D r r.
Proof.
  intros Ec Hn Hp. rewrite ip_minus_l, !ip_minus_r, !ip_scal_l, !ip_scal_r. rewrite (ip_comm D p r). set (x := ip D r p) in *. set (q := ip D p p) in *.
  assert (Ex : x = c * n) by (rewrite Ec; field; lra). rewrite Ex. clear Ec Ex x. generalize (ip D r r); intros s. clearbody q. assert (0 <= c * c) by apply Rle_0_sqr. nra.
Qed.
Lemma shrink_zero D (r p : row) (c : R) : ip D p p = 0 -> ip D (fun i => r i - c * p i) (fun i => r i - c * p i) = ip D r r.
Proof. intros Z. apply ip_ext; intros i Hi; rewrite (ip_zero D p Z i Hi); ring. Qed.

(** ** The pursuit with rotations *)
Section Mp.
Variables (D heads hd : nat) (base : R) (pts : list row) (eps : R) (target : row) (pick : row -> list nat -> nat).
Hypothesis Hpick : is_pick D pts pick.
Let run := mp_run D heads hd base pts eps target pick.
Lemma run_lengths k : length (mp_sel (run k)) = k /\ length (mp_pos (run k)) = k /\ length (mp_coeff (run k)) = k.
Proof. induction k as [|k (A & B & C)]; [auto|]. unfold run in *. cbn [mp_run mp_step mp_sel mp_pos mp_coeff]. rewrite !app_length, A, B, C. cbn. lia. Qed.
Lemma run_prefix k j : (j <= k)%nat -> exists s p c, mp_sel (run k) = mp_sel (run j) ++ s /\ mp_pos (run k) = mp_pos (run j) ++ p /\ mp_coeff (run k) = mp_coeff (run j) ++ c.
Proof.
  induction 1 as [|k Hk (s & p & c & A & B & C)]; [exists [], [], []; now rewrite !app_nil_r|].
  unfold run in *. cbn [mp_run mp_step mp_sel mp_pos mp_coeff]. rewrite A, B, C, <- !app_assoc. do 3 eexists. repeat split; reflexivity.
Qed.
Let idx k := pick (mp_res (run k)) (mp_sel (run k)).
Let pos k := best_position heads hd base (pt pts (idx k)) (mp_res (run k)).
Let atom k := rope base hd (pos k) (pt pts (idx k)).
Let coeff k := ip D (mp_res (run k)) (atom k) / Rmax (ip D (atom k) (atom k)) eps.
Lemma run_S k : mp_sel (run (S k)) = mp_sel (run k) ++ [idx k] /\ mp_pos (run (S k)) = mp_pos (run k) ++ [pos k] /\
  mp_coeff (run (S k)) = mp_coeff (run k) ++ [coeff k] /\ mp_res (run (S k)) = fun i => mp_res (run k) i - coeff k * atom k i.
Proof. repeat split; reflexivity. Qed.
Lemma run_nth k j : (j < k)%nat -> nth j (mp_sel (run k)) 0%nat = idx j /\ nth j (mp_pos (run k)) 0 = pos j /\ entry (mp_coeff (run k)) j = coeff j /\
  turned base hd pts (mp_sel (run k)) (mp_pos (run k)) j = atom j.
Proof.
  intros Hj. destruct (run_prefix k (S j) Hj) as (s & p & c & A & B & C). destruct (run_lengths j) as (L1 & L2 & L3). destruct (run_S j) as (S1 & S2 & S3 & _).
  rewrite S1 in A. rewrite S2 in B. rewrite S3 in C. rewrite <- app_assoc in A, B, C. cbn [app] in A, B, C.
  assert (N1 : nth j (mp_sel (run k)) 0%nat = idx j) by (rewrite A, <- L1 at 1; apply nth_middle).
  assert (N2 : nth j (mp_pos (run k)) 0 = pos j) by (rewrite B, <- L2 at 1; apply nth_middle).
  assert (N3 : entry (mp_coeff (run k)) j = coeff j) by (unfold entry; rewrite C, <- L3 at 1; apply nth_middle).
  repeat split; try assumption. unfold turned. rewrite N1, N2. reflexivity.
Qed.
Lemma run_res k : forall n, (k <= n)%nat -> forall i, mp_res (run k) i = left_over k (turned base hd pts (mp_sel (run n)) (mp_pos (run n))) (entry (mp_coeff (run n))) target i.
Proof.
  induction k as [|k IH]; intros n Hn i; [unfold run, left_over; cbn; ring|]. destruct (run_S k) as (_ & _ & _ & ->). rewrite (IH n ltac:(lia)). destruct (run_nth n k ltac:(lia)) as (_ & _ & C & T).
  unfold left_over. cbn [Sum]. rewrite C, T. ring.
Qed.
Lemma run_distinct k : (k <= length pts)%nat -> NoDup (mp_sel (run k)) /\ forall i, In i (mp_sel (run k)) -> (i < length pts)%nat.
Proof.
  induction k as [|k IH]; intros Hk; [split; [constructor|intros ? []]|]. destruct (IH ltac:(lia)) as (N & I). destruct (run_lengths k) as (L & _ & _).
  destruct (Hpick (mp_res (run k)) (mp_sel (run k)) N I ltac:(lia)) as (P1 & P2 & _). destruct (run_S k) as (-> & _). split.
  - apply NoDup_snoc; assumption.
  - intros i Hi. apply in_app_iff in Hi as [|[<-|[]]]; auto.
Qed.
Lemma run_shrinks k : 0 < eps -> nrm D (mp_res (run (S k))) <= nrm D (mp_res (run k)).
Proof.
  intros He. apply nrm_le_sq. destruct (run_S k) as (_ & _ & _ & ->). eapply shrink; [reflexivity| |apply Rmax_l]. pose proof (Rmax_r (ip D (atom k) (atom k)) eps). lra.
Qed.
Lemma run_shorter k : 0 < eps -> nrm D (mp_res (run k)) <= nrm D target.
Proof. intros He. induction k as [|k IH]; [apply Rle_refl|]. eapply Rle_trans; [apply run_shrinks, He|exact IH]. Qed.
End Mp.

(** exactly four things go wrong *)
Theorem C77_rope_fails : forall lstsq pick d_a d_b heads_a heads_b base_a base_b eps final k pa pb target e,
  mp_rope lstsq pick d_a d_b heads_a heads_b base_a base_b eps final k pa pb target = Err e <->
  (length pa <> length pb /\ e = AssertionError) \/
  (length pa = length pb /\ (length pa < k)%nat /\ e = ValueError) \/
  (length pa = length pb /\ (k <= length pa)%nat /\ (heads_a = 0 \/ heads_b = 0)%nat /\ e = ZeroDivisionError) \/
  (length pa = length pb /\ (k <= length pa)%nat /\ heads_a <> 0%nat /\ heads_b <> 0%nat /\
   ~ ((exists n, d_a = heads_a * (2 * n))%nat /\ (exists n, d_b = heads_b * (2 * n))%nat) /\ e = RuntimeError).
Proof.
  intros. unfold mp_rope. cbv zeta.
  assert (S : forall d h, h <> 0%nat -> splits d h (d / h) = true <-> exists n, d = (h * (2 * n))%nat).
  { intros d h Hh. unfold splits. rewrite andb_true_iff, Nat.eqb_eq, Nat.even_spec. split.
    - intros (E & n & En). exists n. rewrite En in E. exact E.
    - intros (n & ->). rewrite (Nat.mul_comm h (2 * n)), Nat.div_mul by exact Hh. split; [ring|exists n; reflexivity]. }
  destruct (Nat.eqb_spec (length pa) (length pb)) as [E1|E1]; cbn [negb].
  2: { split; [intros [= <-]; now left|]. intros [(_ & ->)|[(? & _)|[(? & _)|(? & _)]]]; try contradiction. reflexivity. }
  destruct (Nat.ltb_spec (length pa) k) as [E2|E2].
  { split; [intros [= <-]; right; left; auto|]. intros [(? & _)|[(_ & _ & ->)|[(_ & ? & _)|(_ & ? & _)]]]; try contradiction; try lia. reflexivity. }
  destruct (Nat.eqb_spec heads_a 0) as [E3|E3]; [cbn [orb]|destruct (Nat.eqb_spec heads_b 0) as [E4|E4]; cbn [orb]].
  { split; [intros [= <-]; right; right; left; auto|]. intros [(? & _)|[(_ & ? & _)|[(_ & _ & _ & ->)|(_ & _ & ? & _)]]]; try contradiction; try lia. reflexivity. }
  { split; [intros [= <-]; right; right; left; auto|]. intros [(? & _)|[(_ & ? & _)|[(_ & _ & _ & ->)|(_ & _ & _ & ? & _)]]]; try contradiction; try lia. reflexivity. }
  rewrite <- !S by assumption. rewrite <- andb_true_iff. destruct (splits d_a heads_a (d_a / heads_a) && splits d_b heads_b (d_b / heads_b)); cbn [negb].
  - split; [discriminate|]. intros [(? & _)|[(_ & ? & _)|[(_ & _ & ? & _)|(_ & _ & _ & _ & ? & _)]]]; try contradiction; try lia; exfalso; tauto.
  - split; [intros [= <-]; right; right; right; repeat split; auto; discriminate|]. intros [(? & _)|[(_ & ? & _)|[(_ & _ & ? & _)|(_ & _ & _ & _ & _ & ->)]]]; try contradiction; try lia. reflexivity.
Qed.

(** the positions and coefficients of a pursuit: point after point, the one with the largest inner product with what is left of the
    target, turned to the smaller of the positions estimated for it and for its opposite, with its projection as coefficient *)
Definition pursues (D heads hd : nat) (base eps : R) (pts : list row) (target : row) (sel : list nat) (pos cs : list R) : Prop :=
  length pos = length sel /\ length cs = length sel /\ NoDup sel /\ (forall i, In i sel -> (i < length pts)%nat) /\
  forall j, (j < length sel)%nat ->
    let atoms := turned base hd pts sel pos in
    let left := left_over j atoms (entry cs) target in
    let point := pt pts (nth j sel 0%nat) in
    (forall i, (i < length pts)%nat -> ~ In i (firstn j sel) -> Rabs (ip D left (pt pts i)) <= Rabs (ip D left point)) /\
    (let p := estimate_position heads hd base point left in
     let q := estimate_position heads hd base point (fun i => - left i) in
     (Rabs p < Rabs q -> nth j pos 0 = p) /\ (Rabs q <= Rabs p -> nth j pos 0 = q)) /\
    entry cs j = ip D left (atoms j) / Rmax (ip D (atoms j) (atoms j)) eps /\
    (0 < eps -> nrm D (left_over (S j) atoms (entry cs) target) <= nrm D left).

Theorem C77_rope_result : forall lstsq pick d_a d_b heads_a heads_b base_a base_b eps final k pa pb target sel cs result reached,
  is_pick d_a pa pick -> is_lstsq lstsq ->
  mp_rope lstsq pick d_a d_b heads_a heads_b base_a base_b eps final k pa pb target = Ok (sel, cs, result, reached) ->
  length sel = k /\ length cs = k /\ exists pos coeffs,
    pursues d_a heads_a (d_a / heads_a) base_a eps pa target sel pos coeffs /\
    (forall i, reached i = Sum k (fun j => entry coeffs j * turned base_a (d_a / heads_a) pa sel pos j i)) /\
    (forall i, result i = Sum k (fun j => entry cs j * turned base_b (d_b / heads_b) pb sel pos j i)) /\
    (0 < eps -> nrm d_a (fun i => target i - reached i) <= nrm d_a target) /\
    (final = false -> cs = coeffs) /\
    (final = true -> forall ds, nrm d_a (left_over k (turned base_a (d_a / heads_a) pa sel pos) (entry cs) target) <=
                                nrm d_a (left_over k (turned base_a (d_a / heads_a) pa sel pos) ds target)).
Proof.
  intros lstsq pick d_a d_b heads_a heads_b base_a base_b eps final k pa pb target sel cs result reached Hp Hl H. unfold mp_rope in H. cbv zeta in H.
  destruct (Nat.eqb (length pa) (length pb)); [|discriminate]. destruct (Nat.ltb_spec (length pa) k) as [|Hk]; [discriminate|]. cbn [negb] in H. destruct (Nat.eqb heads_a 0 || Nat.eqb heads_b 0); [discriminate|].
  destruct (splits d_a heads_a (d_a / heads_a) && splits d_b heads_b (d_b / heads_b)); [|discriminate]. cbn [negb] in H.
  set (hd := (d_a / heads_a)%nat) in *. set (run := mp_run d_a heads_a hd base_a pa eps target pick) in *.
  set (c := if final then _ else _) in H. injection H as <- <- <- <-. destruct (run_lengths d_a heads_a hd base_a pa eps target pick k) as (L1 & L2 & L3). fold run in L1, L2, L3.
  assert (Ec : forall j, (j < k)%nat -> entry (map c (seq 0 k)) j = c j).
  { intros j Hj. unfold entry. rewrite (nth_indep _ 0 (c 0%nat)) by (rewrite map_length, seq_length; exact Hj). rewrite (map_nth c), seq_nth by exact Hj. reflexivity. }
  split; [exact L1|]. split; [rewrite map_length; apply seq_length|]. exists (mp_pos (run k)), (mp_coeff (run k)).
  assert (R : forall j, (j <= k)%nat -> forall i, mp_res (run j) i = left_over j (turned base_a hd pa (mp_sel (run k)) (mp_pos (run k))) (entry (mp_coeff (run k))) target i) by (intros j Hj i; now apply run_res).
  split; [|split; [|split; [|split; [|split]]]].
  - split; [congruence|]. split; [congruence|]. destruct (run_distinct d_a heads_a hd base_a pa eps target pick Hp k Hk) as (N & I). split; [exact N|]. split; [exact I|].
    intros j Hj. rewrite L1 in Hj. cbv zeta. destruct (run_nth d_a heads_a hd base_a pa eps target pick k j Hj) as (E1 & E2 & E3 & E4). fold run in E1, E2, E3, E4.
    assert (El : left_over j (turned base_a hd pa (mp_sel (run k)) (mp_pos (run k))) (entry (mp_coeff (run k))) target = mp_res (run j)) by (apply functional_extensionality; intros i; symmetry; apply R; lia).
    assert (El' : left_over (S j) (turned base_a hd pa (mp_sel (run k)) (mp_pos (run k))) (entry (mp_coeff (run k))) target = mp_res (run (S j))) by (apply functional_extensionality; intros i; symmetry; apply R; lia).
    rewrite El, El', E1, E2, E3, E4. split; [|split; [|split; [reflexivity|]]].
    + intros i Hi Hn. destruct (run_prefix d_a heads_a hd base_a pa eps target pick k j ltac:(lia)) as (s & _ & _ & A & _). fold run in A. destruct (run_lengths d_a heads_a hd base_a pa eps target pick j) as (Lj & _). fold run in Lj.
      rewrite A in Hn. replace j with (length (mp_sel (run j)) + 0)%nat in Hn at 1 by lia. rewrite firstn_app_2, app_nil_r in Hn.
      destruct (run_distinct d_a heads_a hd base_a pa eps target pick Hp j ltac:(lia)) as (Nj & Ij). fold run in Nj, Ij. now apply (Hp (mp_res (run j)) (mp_sel (run j)) Nj Ij ltac:(lia)).
    + unfold best_position. destruct (Rlt_dec _ _); split; intros; reflexivity || lra.
    + apply run_shrinks.
  - intros i. rewrite (R k (le_n k)). unfold left_over. ring.
  - intros i. apply Sum_ext. intros j Hj. rewrite Ec by exact Hj. ring.
  - intros He. assert (E : nrm d_a (fun i => target i - (target i - mp_res (run k) i)) = nrm d_a (mp_res (run k))) by (unfold nrm; f_equal; apply ip_ext; intros; ring). rewrite E. now apply run_shorter.
  - intros ->. unfold c. apply nth_ext with (d := 0) (d' := 0); rewrite map_length, seq_length; [congruence|]. intros j Hj. exact (Ec j Hj).
  - intros -> ds. rewrite (nrm_ext d_a (left_over k (turned base_a hd pa (mp_sel (run k)) (mp_pos (run k))) (entry (map c (seq 0 k))) target) (left_over k (turned base_a hd pa (mp_sel (run k)) (mp_pos (run k))) c target)).
    + apply Hl.
    + intros i _. unfold left_over. f_equal. apply Sum_ext. intros j Hj. now rewrite Ec.
Qed.

(** in the space of the target itself, the result is at least as near to it as nothing *)
Corollary C77_rope_same_space : forall lstsq pick d heads base eps final k pts target sel cs result reached,
  is_pick d pts pick -> is_lstsq lstsq -> 0 < eps ->
  mp_rope lstsq pick d d heads heads base base eps final k pts pts target = Ok (sel, cs, result, reached) ->
  nrm d (fun i => target i - result i) <= nrm d (fun i => target i - reached i) /\ nrm d (fun i => target i - reached i) <= nrm d target.
Proof.
  intros lstsq pick d heads base eps final k pts target sel cs result reached Hp Hl He H.
  destruct (C77_rope_result _ _ _ _ _ _ _ _ _ _ _ _ _ _ _ _ _ _ Hp Hl H) as (_ & _ & pos & coeffs & _ & R1 & R2 & R3 & R4 & R5). split; [|now apply R3].
  assert (E1 : (fun i => target i - result i) = left_over k (turned base (d / heads) pts sel pos) (entry cs) target) by (apply functional_extensionality; intros i; unfold left_over; now rewrite R2).
  assert (E2 : (fun i => target i - reached i) = left_over k (turned base (d / heads) pts sel pos) (entry coeffs) target) by (apply functional_extensionality; intros i; unfold left_over; now rewrite R1).
  rewrite E1, E2. destruct final; [now apply R5|]. rewrite R4 by reflexivity. apply Rle_refl.
Qed.

(** ** The pursuit with resets *)
Lemma used_in (f : nat -> option nat) l x : In x (flat_map (fun t => match f t with Some i => [i] | None => [] end) l) <-> exists t, In t l /\ f t = Some x.
Proof.
  rewrite in_flat_map. split; intros (t & Ht & H); exists t; (split; [exact Ht|]).
  - destruct (f t); [destruct H as [->|[]]; reflexivity|destruct H].
  - rewrite H. now left.
Qed.
Lemma used_nodup (f : nat -> option nat) l : NoDup l -> (forall s t x, In s l -> In t l -> f s = Some x -> f t = Some x -> s = t) ->
  NoDup (flat_map (fun t => match f t with Some i => [i] | None => [] end) l).
Proof.
  induction 1 as [|a l Ha Hl IH]; intros Hi; cbn; [constructor|].
  assert (IH' : NoDup (flat_map (fun t => match f t with Some i => [i] | None => [] end) l)) by (apply IH; intros; eapply Hi; eauto; now right).
  destruct (f a) as [x|] eqn:E; cbn; [|exact IH']. constructor; [|exact IH']. intros Hx. apply used_in in Hx as (t & Ht & Et). apply Ha.
  now rewrite (Hi a t x (or_introl eq_refl) (or_intror Ht) E Et).
Qed.
Lemma used_le (f : nat -> option nat) l : (length (flat_map (fun t => match f t with Some i => [i] | None => [] end) l) <= length l)%nat.
Proof. induction l as [|a l IH]; cbn; [lia|]. destruct (f a); cbn; lia. Qed.
Lemma used_lt (f : nat -> option nat) l t : In t l -> f t = None -> (length (flat_map (fun t => match f t with Some i => [i] | None => [] end) l) < length l)%nat.
Proof.
  induction l as [|a l IH]; intros Ht Hn; [destruct Ht|]. cbn. pose proof (used_le f l). destruct Ht as [->|Ht]; [rewrite Hn; cbn; lia|]. specialize (IH Ht Hn). destruct (f a); cbn; lia.
Qed.

(** the places in the order they are filled *)
Definition order (k n : nat) (perms : list nat) : list nat := firstn n (seq 0 k ++ perms).
Definition rounds (k : nat) (total : option nat) : nat := match total with Some n => n | None => (3 * k)%nat end.
Lemma order_lt k n perms : Forall (fun t => (t < k)%nat) perms -> Forall (fun t => (t < k)%nat) (order k n perms).
Proof.
  intros H. apply Forall_forall. intros t Ht. unfold order in Ht. assert (Ht' : In t (seq 0 k ++ perms)) by (rewrite <- (firstn_skipn n (seq 0 k ++ perms)); apply in_app_iff; now left).
  apply in_app_iff in Ht' as [Ht'|Ht']; [apply in_seq in Ht'; lia|]. rewrite Forall_forall in H. now apply H.
Qed.
Lemma nth_firstn_lt {A} (l : list A) n i d : (i < n)%nat -> nth i (firstn n l) d = nth i l d.
Proof. revert n i. induction l as [|a l IH]; intros [|n] [|i] H; try reflexivity; try lia. cbn. apply IH. lia. Qed.
Lemma firstn_S_nth (l : list nat) m : (m < length l)%nat -> firstn (S m) l = firstn m l ++ [nth m l 0%nat].
Proof.
  revert m. induction l as [|a p IH]; intros m Hm; [cbn in Hm; lia|]. destruct m as [|m]; [reflexivity|]. cbn in Hm. change (a :: firstn (S m) p = a :: (firstn m p ++ [nth m p 0%nat])). f_equal. apply IH. lia.
Qed.

Section Resets.
Variables (D k : nat) (pts : list row) (eps : R) (target : row) (pick : row -> list nat -> nat).
Hypothesis Hpick : is_pick_signed D pts pick.
Hypothesis Hk : (k <= length pts)%nat.
Let part (st : reset_state) (s i : nat) : R := match r_sel st s with Some x => r_coeff st s * pt pts x i | None => 0 end.
Let others (st : reset_state) (t : nat) : row := fun i => target i - Sum k (fun s => if Nat.eqb s t then 0 else part st s i).
Let step := reset_step D k pts eps pick.
Record inv (st : reset_state) : Prop := {
  inv_inj : forall s t x, (s < k)%nat -> (t < k)%nat -> r_sel st s = Some x -> r_sel st t = Some x -> s = t;
  inv_range : forall t x, (t < k)%nat -> r_sel st t = Some x -> (x < length pts)%nat;
  inv_res : forall i, r_res st i = target i - Sum k (fun s => part st s i) }.
Lemma sum_but f t : (t < k)%nat -> Sum k f = Sum k (fun s => if Nat.eqb s t then 0 else f s) + f t.
Proof.
  intros Ht. replace (f t) with (Sum k (fun s => if Nat.eqb s t then f s else 0)).
  - rewrite <- Sum_plus. apply Sum_ext. intros s _. destruct (Nat.eqb s t); ring.
  - rewrite (Sum_single k t); [now rewrite Nat.eqb_refl|exact Ht|]. intros s _ Hs. destruct (Nat.eqb_spec s t); [contradiction|reflexivity].
Qed.
Lemma inv_init : inv (reset_init target).
Proof. split; cbn; try discriminate. intros i. rewrite Sum_0; [ring|]. reflexivity. Qed.
(** what one step does *)
Lemma step_spec st t : inv st -> (t < k)%nat -> inv (step st t) /\
  (forall s, s <> t -> r_sel (step st t) s = r_sel st s /\ r_coeff (step st t) s = r_coeff st s) /\
  exists x, r_sel (step st t) t = Some x /\ (x < length pts)%nat /\ (forall s, (s < k)%nat -> s <> t -> r_sel st s <> Some x) /\
    (forall i, (i < length pts)%nat -> (forall s, (s < k)%nat -> s <> t -> r_sel st s <> Some i) -> ip D (others st t) (pt pts i) <= ip D (others st t) (pt pts x)) /\
    r_coeff (step st t) t = ip D (others st t) (pt pts x) / (ip D (pt pts x) (pt pts x) + eps).
Proof.
  intros [I1 I2 I3] Ht.
  assert (Rel : r_res (release pts t st) = others st t /\ r_sel (release pts t st) t = None /\ forall s, s <> t -> r_sel (release pts t st) s = r_sel st s /\ r_coeff (release pts t st) s = r_coeff st s).
  { unfold release. destruct (r_sel st t) as [old|] eqn:E; cbn [r_res r_sel r_coeff].
    - split; [|split].
      + apply functional_extensionality. intros i. rewrite I3, (sum_but _ t Ht). unfold others, part at 2. rewrite E. ring.
      + unfold put. now rewrite Nat.eqb_refl.
      + intros s Hs. unfold put. destruct (Nat.eqb_spec s t); [contradiction|auto].
    - split; [|split; [exact E|auto]]. apply functional_extensionality. intros i. rewrite I3, (sum_but _ t Ht). unfold others, part at 2. rewrite E. ring. }
  destruct Rel as (R1 & R2 & R3). set (st' := release pts t st) in *.
  assert (U : forall x, In x (in_use k st') <-> exists s, (s < k)%nat /\ s <> t /\ r_sel st s = Some x).
  { intros x. unfold in_use. rewrite used_in. split; intros (s & Hs & H).
    - apply in_seq in Hs. destruct (Nat.eq_dec s t) as [->|Hn]; [congruence|]. exists s. destruct (R3 s Hn) as (<- & _). split; [lia|auto].
    - exists s. destruct H as (Hn & H). split; [apply in_seq; lia|]. destruct (R3 s Hn) as (-> & _). exact H. }
  destruct (Hpick (r_res st') (in_use k st')) as (P1 & P2 & P3).
  { apply used_nodup; [apply seq_NoDup|]. intros s s' x Hs Hs' E E'. apply in_seq in Hs, Hs'.
    destruct (Nat.eq_dec s t) as [->|Hn]; [congruence|]. destruct (Nat.eq_dec s' t) as [->|Hn']; [congruence|]. destruct (R3 s Hn) as (F & _). destruct (R3 s' Hn') as (F' & _). apply (I1 s s' x); try lia; congruence. }
  { intros i Hi. apply U in Hi as (s & Hs & _ & E). now apply (I2 s i). }
  { eapply Nat.lt_le_trans; [apply (used_lt (r_sel st') (seq 0 k) t); [apply in_seq; lia|exact R2]|]. now rewrite seq_length. }
  set (x := pick (r_res st') (in_use k st')) in *. rewrite R1 in P3.
  assert (S1 : r_sel (step st t) t = Some x) by (unfold step, reset_step, choose; cbn; unfold put; now rewrite Nat.eqb_refl).
  assert (S2 : r_coeff (step st t) t = ip D (others st t) (pt pts x) / (ip D (pt pts x) (pt pts x) + eps)) by (unfold step, reset_step, choose; cbn; unfold put; rewrite Nat.eqb_refl; fold st'; rewrite <- R1; reflexivity).
  assert (S3 : forall s, s <> t -> r_sel (step st t) s = r_sel st s /\ r_coeff (step st t) s = r_coeff st s).
  { intros s Hs. unfold step, reset_step, choose; cbn; unfold put. destruct (Nat.eqb_spec s t); [contradiction|]. now apply R3. }
  assert (S4 : forall i, r_res (step st t) i = others st t i - r_coeff (step st t) t * pt pts x i) by (intros i; rewrite S2; unfold step, reset_step, choose; cbn; fold st'; rewrite <- R1; reflexivity).
  assert (S5 : forall s, (s < k)%nat -> s <> t -> r_sel st s <> Some x) by (intros s Hs Hn E; apply P2, U; eauto).
  split; [split|split; [exact S3|exists x; repeat split; auto]].
  - intros s s' y Hs Hs' E E'. destruct (Nat.eq_dec s t) as [->|Hn], (Nat.eq_dec s' t) as [->|Hn']; [reflexivity| | |].
    + destruct (S3 s' Hn') as (F & _). rewrite F in E'. rewrite S1 in E. injection E as <-. exfalso. now apply (S5 s' Hs' Hn').
    + destruct (S3 s Hn) as (F & _). rewrite F in E. rewrite S1 in E'. injection E' as <-. exfalso. now apply (S5 s Hs Hn).
    + destruct (S3 s Hn) as (F & _). destruct (S3 s' Hn') as (F' & _). rewrite F in E. rewrite F' in E'. now apply (I1 s s' y).
  - intros s y Hs E. destruct (Nat.eq_dec s t) as [->|Hn]; [rewrite S1 in E; injection E as <-; exact P1|]. destruct (S3 s Hn) as (F & _). rewrite F in E. now apply (I2 s y).
  - intros i. rewrite S4, (sum_but _ t Ht). unfold others. unfold part at 3. rewrite S1.
    rewrite (Sum_ext k (fun s => if Nat.eqb s t then 0 else part (step st t) s i) (fun s => if Nat.eqb s t then 0 else part st s i)); [ring|].
    intros s _. destruct (Nat.eqb_spec s t) as [|Hn]; [reflexivity|]. unfold part. destruct (S3 s Hn) as (-> & ->). reflexivity.
  - intros i Hi Hu. apply P3; [exact Hi|]. intros Hx. apply U in Hx as (s & Hs & Hn & E). now apply (Hu s Hs Hn).
Qed.
Definition after (l : list nat) : reset_state := fold_left step l (reset_init target).
Lemma after_snoc l t : after (l ++ [t]) = step (after l) t.
Proof. unfold after. now rewrite fold_left_app. Qed.
Lemma after_inv l : Forall (fun t => (t < k)%nat) l -> inv (after l) /\ forall t, In t l <-> exists x, r_sel (after l) t = Some x.
Proof.
  induction l as [|t l IH] using rev_ind; intros H.
  - split; [apply inv_init|]. intros t. split; [intros []|intros (x & [=])].
  - apply Forall_app in H as (H & Ht). apply Forall_inv in Ht. destruct (IH H) as (I & F). rewrite after_snoc. destruct (step_spec (after l) t I Ht) as (I' & O & x & X & _).
    split; [exact I'|]. intros s. rewrite in_app_iff, F. destruct (Nat.eq_dec s t) as [->|Hn].
    + split; [intros _; eauto|intros _; right; now left].
    + destruct (O s Hn) as (-> & _). split; [intros [H'|[H'|[]]]; [exact H'|congruence]|auto].
Qed.

Lemma result_inv total perms sel cs : Forall (fun t => (t < k)%nat) perms -> mp_resets D k pts eps target pick total perms = Ok (sel, cs) ->
  (k <= rounds k total)%nat /\ length sel = k /\ length cs = k /\
  forall t, (t < k)%nat -> r_sel (after (order k (rounds k total) perms)) t = Some (nth t sel 0%nat) /\ r_coeff (after (order k (rounds k total) perms)) t = entry cs t.
Proof.
  intros Hp. unfold mp_resets. cbv zeta. replace (match total with Some n => n | None => (k * 3)%nat end) with (rounds k total) by (unfold rounds; destruct total; lia).
  destruct (Nat.ltb_spec (rounds k total) k) as [|Hr]; [discriminate|]. destruct (Nat.ltb_spec (length pts) k); [discriminate|]. intros E. injection E as <- <-.
  change (fold_left (reset_step D k pts eps pick) (firstn (rounds k total) (seq 0 k ++ perms)) (reset_init target)) with (after (order k (rounds k total) perms)). set (st := after (order k (rounds k total) perms)).
  split; [exact Hr|]. split; [rewrite map_length; apply seq_length|]. split; [rewrite map_length; apply seq_length|]. intros t Ht.
  destruct (after_inv (order k (rounds k total) perms) (order_lt _ _ _ Hp)) as (_ & F). fold st in F. destruct (proj1 (F t)) as (x & X).
  { unfold order. rewrite firstn_app, seq_length, firstn_all2 by (rewrite seq_length; exact Hr). apply in_app_iff. left. apply in_seq. lia. }
  unfold entry. set (g := fun t => match r_sel st t with Some i => i | None => 0%nat end).
  rewrite (nth_indep (map g (seq 0 k)) 0%nat (g 0%nat)) by (rewrite map_length, seq_length; exact Ht). rewrite (nth_indep (map (r_coeff st) (seq 0 k)) 0 (r_coeff st 0%nat)) by (rewrite map_length, seq_length; exact Ht).
  rewrite !map_nth, !seq_nth by exact Ht. unfold g. cbn [Nat.add]. rewrite X. auto.
Qed.
End Resets.

Theorem C77_resets_fails : forall D k pts eps target pick total perms e,
  mp_resets D k pts eps target pick total perms = Err e <->
  e = ValueError /\ ((length pts < k)%nat \/ exists n, total = Some n /\ (n < k)%nat).
Proof.
  intros. unfold mp_resets. cbv zeta. destruct total as [n|].
  - destruct (Nat.ltb_spec n k); [split; [intros [= <-]; split; eauto|intros (-> & _); reflexivity]|].
    destruct (Nat.ltb_spec (length pts) k); [split; [intros [= <-]; auto|intros (-> & _); reflexivity]|]. split; [discriminate|]. intros (_ & [?|(n' & [= <-] & ?)]); lia.
  - destruct (Nat.ltb_spec (k * 3) k); [lia|]. destruct (Nat.ltb_spec (length pts) k); [split; [intros [= <-]; auto|intros (-> & _); reflexivity]|]. split; [discriminate|]. intros (_ & [?|(n' & [=] & ?)]); lia.
Qed.

(** the chosen points, and the coefficients without the one at place t *)
Definition points (pts : list row) (sel : list nat) (j : nat) : row := pt pts (nth j sel 0%nat).
Definition without (t : nat) (cs : list R) (j : nat) : R := if Nat.eqb j t then 0 else entry cs j.

(** the points are distinct; the last one chosen has the largest inner product, among the points not in use, with what the others leave
    of the target, and its (shortened) projection as coefficient *)
Theorem C77_resets_last : forall D k pts eps target pick total perms sel cs, is_pick_signed D pts pick -> Forall (fun t => (t < k)%nat) perms ->
  mp_resets D k pts eps target pick total perms = Ok (sel, cs) ->
  length sel = k /\ length cs = k /\ NoDup sel /\ (forall i, In i sel -> (i < length pts)%nat) /\
  ((0 < k)%nat -> let t := last (order k (rounds k total) perms) 0%nat in let left := left_over k (points pts sel) (without t cs) target in
    (t < k)%nat /\
    (forall i, (i < length pts)%nat -> (forall s, (s < k)%nat -> s <> t -> nth s sel 0%nat <> i) -> ip D left (pt pts i) <= ip D left (points pts sel t)) /\
    entry cs t = ip D left (points pts sel t) / (ip D (points pts sel t) (points pts sel t) + eps) /\
    (0 <= eps -> nrm D (left_over k (points pts sel) (entry cs) target) <= nrm D left)).
Proof.
  intros D k pts eps target pick total perms sel cs Hpick Hp H.
  assert (Hk : (k <= length pts)%nat) by (unfold mp_resets in H; cbv zeta in H; destruct (Nat.ltb _ k); [discriminate|]; destruct (Nat.ltb_spec (length pts) k); [discriminate|lia]).
  destruct (result_inv D k pts eps target pick Hpick Hk total perms sel cs Hp H) as (Hr & L1 & L2 & HF).
  set (l := order k (rounds k total) perms) in *. pose proof (order_lt k (rounds k total) perms Hp) as Hl. fold l in Hl. destruct (after_inv D k pts eps target pick Hpick Hk l Hl) as ([I1 I2 I3] & _).
  split; [exact L1|]. split; [exact L2|]. split.
  { apply (NoDup_nth sel 0%nat). intros i j Hi Hj E. rewrite L1 in Hi, Hj. destruct (HF i Hi) as (Ei & _). destruct (HF j Hj) as (Ej & _). rewrite <- E in Ej. now apply (I1 i j (nth i sel 0%nat)). }
  split.
  { intros i Hi. apply (In_nth sel i 0%nat) in Hi as (n & Hn & <-). rewrite L1 in Hn. apply (I2 n); [exact Hn|]. now apply HF. }
  intros Hk0. cbv zeta.
  assert (Hl0 : l <> []) by (unfold l, order; destruct k as [|k']; [lia|]; destruct (rounds (S k') total); [lia|]; discriminate).
  destruct (exists_last Hl0) as (l' & t & El). rewrite El in *. rewrite last_last. apply Forall_app in Hl as (Hl' & Ht). apply Forall_inv in Ht.
  destruct (after_inv D k pts eps target pick Hpick Hk l' Hl') as (I & _). rewrite after_snoc in HF. destruct (step_spec D k pts eps target pick Hpick Hk (after D k pts eps target pick l') t I Ht) as (_ & O & x & X & _ & _ & M & C).
  destruct (HF t Ht) as (E1 & E2). rewrite X in E1. injection E1 as E1. rewrite C in E2.
  assert (EL : left_over k (points pts sel) (without t cs) target = fun i => target i - Sum k (fun s => if Nat.eqb s t then 0 else match r_sel (after D k pts eps target pick l') s with Some x => r_coeff (after D k pts eps target pick l') s * pt pts x i | None => 0 end)).
  { apply functional_extensionality. intros i. unfold left_over. f_equal. apply Sum_ext. intros s Hs. unfold without, points. destruct (Nat.eqb_spec s t) as [|Hn]; [ring|].
    destruct (HF s Hs) as (F1 & F2). destruct (O s Hn) as (G1 & G2). rewrite G1 in F1. rewrite G2 in F2. rewrite F1, F2. reflexivity. }
  rewrite <- EL in E2, M. assert (EP : points pts sel t = pt pts x) by (unfold points; now rewrite <- E1). rewrite EP. split; [exact Ht|]. split; [|split].
  - intros i Hi Hu. apply M; [exact Hi|]. intros s Hs Hn F. apply (Hu s Hs Hn). destruct (HF s Hs) as (F1 & _). destruct (O s Hn) as (G1 & _). rewrite G1, F in F1. now injection F1 as ->.
  - symmetry. exact E2.
  - intros He. apply nrm_le_sq.
    assert (EF : left_over k (points pts sel) (entry cs) target = fun i => left_over k (points pts sel) (without t cs) target i - entry cs t * pt pts x i).
    { apply functional_extensionality. intros i. unfold left_over. rewrite (sum_but k (fun j => entry cs j * points pts sel j i) t Ht). rewrite EP.
      rewrite (Sum_ext k (fun s => if Nat.eqb s t then 0 else entry cs s * points pts sel s i) (fun j => without t cs j * points pts sel j i)); [ring|]. intros s _. unfold without. destruct (Nat.eqb s t); ring. }
    rewrite EF. pose proof (ip_nonneg D (pt pts x)) as Hx. destruct (Req_EM_T (ip D (pt pts x) (pt pts x)) 0) as [Z|Z].
    + rewrite shrink_zero by exact Z. apply Rle_refl.
    + eapply shrink; [symmetry; exact E2|lra|lra].
Qed.

(** one more round changes the place whose turn it is, and no other *)
Theorem C77_resets_step : forall D k pts eps target pick n perms sel cs sel' cs', is_pick_signed D pts pick -> Forall (fun t => (t < k)%nat) perms -> (n < k + length perms)%nat ->
  mp_resets D k pts eps target pick (Some n) perms = Ok (sel, cs) -> mp_resets D k pts eps target pick (Some (S n)) perms = Ok (sel', cs') ->
  forall s, (s < k)%nat -> s <> nth (n - k) perms 0%nat -> nth s sel' 0%nat = nth s sel 0%nat /\ entry cs' s = entry cs s.
Proof.
  intros D k pts eps target pick n perms sel cs sel' cs' Hpick Hp Hn H H' s Hs Hne.
  assert (Hk : (k <= length pts)%nat) by (unfold mp_resets in H; cbv zeta in H; destruct (Nat.ltb _ k); [discriminate|]; destruct (Nat.ltb_spec (length pts) k); [discriminate|lia]).
  destruct (result_inv D k pts eps target pick Hpick Hk (Some n) perms sel cs Hp H) as (Hr & _ & _ & HF). destruct (result_inv D k pts eps target pick Hpick Hk (Some (S n)) perms sel' cs' Hp H') as (_ & _ & _ & HF'). cbn [rounds] in *.
  destruct (HF s Hs) as (A & B). destruct (HF' s Hs) as (A' & B').
  assert (E : order k (S n) perms = order k n perms ++ [nth (n - k) perms 0%nat]).
  { assert (FA : forall m, (k <= m)%nat -> firstn m (seq 0 k) = seq 0 k) by (intros m Hm; apply firstn_all2; rewrite seq_length; exact Hm).
    unfold order. rewrite !firstn_app, seq_length, !FA by lia. rewrite <- app_assoc. f_equal. replace (S n - k)%nat with (S (n - k)) by lia. apply firstn_S_nth. lia. }
  assert (Ht : (nth (n - k) perms 0 < k)%nat) by (rewrite Forall_forall in Hp; apply Hp, nth_In; lia).
  rewrite E, after_snoc in A', B'. destruct (after_inv D k pts eps target pick Hpick Hk (order k n perms) (order_lt k n perms Hp)) as (I & _).
  destruct (step_spec D k pts eps target pick Hpick Hk _ _ I Ht) as (_ & O & _). destruct (O s Hne) as (O1 & O2). rewrite O1, A in A'. rewrite O2, B in B'. injection A' as A'. auto.
Qed.

(** the first k rounds are a plain pursuit of k points *)
Theorem C77_resets_start : forall D k pts eps target pick perms sel cs, is_pick_signed D pts pick -> 0 <= eps ->
  mp_resets D k pts eps target pick (Some k) perms = Ok (sel, cs) ->
  forall j, (j < k)%nat -> let left := left_over j (points pts sel) (entry cs) target in
    (forall i, (i < length pts)%nat -> ~ In i (firstn j sel) -> ip D left (pt pts i) <= ip D left (points pts sel j)) /\
    entry cs j = ip D left (points pts sel j) / (ip D (points pts sel j) (points pts sel j) + eps) /\
    nrm D (left_over (S j) (points pts sel) (entry cs) target) <= nrm D left.
Proof.
  intros D k pts eps target pick perms sel cs Hpick He H j Hj. cbv zeta.
  assert (Hk : (k <= length pts)%nat) by (unfold mp_resets in H; cbv zeta in H; destruct (Nat.ltb _ k); [discriminate|]; destruct (Nat.ltb_spec (length pts) k); [discriminate|lia]).
  assert (H0 : mp_resets D k pts eps target pick (Some k) [] = Ok (sel, cs)).
  { rewrite <- H. unfold mp_resets. cbv zeta. rewrite !firstn_app, seq_length, Nat.sub_diag, !firstn_O. reflexivity. }
  destruct (result_inv D k pts eps target pick Hpick Hk (Some k) [] sel cs (Forall_nil _) H0) as (_ & L1 & L2 & HF). cbn [rounds] in HF.
  assert (EO : order k k [] = seq 0 k) by (unfold order; rewrite app_nil_r; apply firstn_all2; rewrite seq_length; lia). rewrite EO in HF.
  assert (Hseq : forall m n, (m + n <= k)%nat -> Forall (fun t => (t < k)%nat) (seq m n)) by (intros m n Hmn; apply Forall_forall; intros t Ht; apply in_seq in Ht; lia).
  set (A := fun l => after D k pts eps target pick l) in *.
  assert (Keep : forall n m s, (m + n <= k)%nat -> (s < m)%nat -> r_sel (A (seq 0 (m + n))) s = r_sel (A (seq 0 m)) s /\ r_coeff (A (seq 0 (m + n))) s = r_coeff (A (seq 0 m)) s).
  { induction n as [|n IH]; intros m s Hm Hs; [rewrite Nat.add_0_r; auto|]. rewrite Nat.add_succ_r, seq_S. cbn [Nat.add]. unfold A. rewrite after_snoc.
    destruct (after_inv D k pts eps target pick Hpick Hk (seq 0 (m + n)) (Hseq 0%nat (m + n)%nat ltac:(lia))) as (I & _). destruct (step_spec D k pts eps target pick Hpick Hk _ (m + n)%nat I ltac:(lia)) as (_ & O & _).
    destruct (O s ltac:(lia)) as (-> & ->). apply IH; lia. }
  assert (Got : forall m s, (m <= k)%nat -> (s < m)%nat -> r_sel (A (seq 0 m)) s = Some (nth s sel 0%nat) /\ r_coeff (A (seq 0 m)) s = entry cs s).
  { intros m s Hm Hs. destruct (Keep (k - m)%nat m s ltac:(lia) Hs) as (K1 & K2). replace (m + (k - m))%nat with k in K1, K2 by lia. rewrite <- K1, <- K2. apply HF. lia. }
  destruct (after_inv D k pts eps target pick Hpick Hk (seq 0 j) (Hseq 0%nat j ltac:(lia))) as (I & F). destruct (step_spec D k pts eps target pick Hpick Hk _ j I Hj) as (_ & _ & x & X & _ & _ & M & C).
  rewrite <- after_snoc in X, C. replace (seq 0 j ++ [j]) with (seq 0 (S j)) in X, C by apply seq_S. fold A in X, C, F, M. change (after D k pts eps target pick) with A in X, C, F, M.
  destruct (Got (S j) j ltac:(lia) ltac:(lia)) as (G1 & G2). rewrite X in G1. injection G1 as G1. rewrite C in G2.
  assert (None_ : forall s, (j <= s)%nat -> r_sel (A (seq 0 j)) s = None).
  { intros s Hs. destruct (r_sel (A (seq 0 j)) s) as [y|] eqn:E; [|reflexivity]. exfalso. assert (In s (seq 0 j)) as Hin by (apply F; eauto). apply in_seq in Hin. lia. }
  assert (EL : left_over j (points pts sel) (entry cs) target = fun i => target i - Sum k (fun s => if Nat.eqb s j then 0 else match r_sel (A (seq 0 j)) s with Some x => r_coeff (A (seq 0 j)) s * pt pts x i | None => 0 end)).
  { apply functional_extensionality. intros i. unfold left_over. f_equal. rewrite (Sum_split k j) by lia. rewrite (Sum_0 (k - j)), Rplus_0_r.
    - apply Sum_ext. intros s Hs. destruct (Nat.eqb_spec s j); [lia|]. destruct (Got j s ltac:(lia) Hs) as (-> & ->). reflexivity.
    - intros s Hs. destruct (Nat.eqb (j + s) j); [reflexivity|]. rewrite None_ by lia. reflexivity. }
  rewrite <- EL in G2, M. assert (EP : points pts sel j = pt pts x) by (unfold points; now rewrite <- G1). rewrite EP. split; [|split].
  - intros i Hi Hu. apply M; [exact Hi|]. intros s Hs Hn E. apply Hu. destruct (Nat.lt_ge_cases s j) as [Hlt|Hge]; [|rewrite None_ in E by exact Hge; discriminate].
    destruct (Got j s ltac:(lia) Hlt) as (E' & _). rewrite E in E'. injection E' as ->. rewrite <- (nth_firstn_lt sel j s 0%nat) by exact Hlt. apply nth_In. rewrite firstn_length. lia.
  - symmetry. exact G2.
  - apply nrm_le_sq. assert (ES : left_over (S j) (points pts sel) (entry cs) target = fun i => left_over j (points pts sel) (entry cs) target i - entry cs j * pt pts x i).
    { apply functional_extensionality. intros i. unfold left_over. cbn [Sum]. rewrite EP. ring. }
    rewrite ES. pose proof (ip_nonneg D (pt pts x)) as Hx. destruct (Req_EM_T (ip D (pt pts x) (pt pts x)) 0) as [Z|Z].
    + rewrite shrink_zero by exact Z. apply Rle_refl.
    + eapply shrink; [symmetry; exact G2|lra|lra].
Qed.

(** among points of one length, with eps = 0, a replacement never makes the approximation worse, provided the point given back had a
    non-negative inner product with what the others leave of the target *)
Theorem C77_resets_improves : forall D k pts target pick n perms sel cs sel' cs' q, is_pick_signed D pts pick -> Forall (fun t => (t < k)%nat) perms -> (k <= n < k + length perms)%nat ->
  0 < q -> (forall i, (i < length pts)%nat -> ip D (pt pts i) (pt pts i) = q) ->
  mp_resets D k pts 0 target pick (Some n) perms = Ok (sel, cs) -> mp_resets D k pts 0 target pick (Some (S n)) perms = Ok (sel', cs') ->
  let t := nth (n - k) perms 0%nat in
  0 <= ip D (left_over k (points pts sel) (without t cs) target) (points pts sel t) ->
  nrm D (left_over k (points pts sel') (entry cs') target) <= nrm D (left_over k (points pts sel) (entry cs) target).
Proof.
  intros D k pts target pick n perms sel cs sel' cs' q Hpick Hp Hn Hq Hu H H' t Hpos.
  pose proof (C77_resets_step D k pts 0 target pick n perms sel cs sel' cs' Hpick Hp ltac:(lia) H H') as Same. fold t in Same.
  destruct (C77_resets_last D k pts 0 target pick (Some n) perms sel cs Hpick Hp H) as (L1 & _ & ND & I & _).
  destruct (C77_resets_last D k pts 0 target pick (Some (S n)) perms sel' cs' Hpick Hp H') as (L1' & _ & ND' & I' & Last).
  assert (Ht : (t < k)%nat) by (rewrite Forall_forall in Hp; apply Hp, nth_In; lia).
  assert (E : last (order k (rounds k (Some (S n))) perms) 0%nat = t).
  { cbn [rounds]. unfold order. rewrite firstn_app, seq_length, firstn_all2 by (rewrite seq_length; lia). replace (S n - k)%nat with (S (n - k)) by lia. rewrite firstn_S_nth by lia. rewrite app_assoc. apply last_last. }
  destruct (Last ltac:(lia)) as (_ & M & C & _). cbv zeta in M, C. rewrite E in M, C.
  assert (EL : left_over k (points pts sel') (without t cs') target = left_over k (points pts sel) (without t cs) target).
  { apply functional_extensionality. intros i. unfold left_over. f_equal. apply Sum_ext. intros s Hs. unfold without, points. destruct (Nat.eqb_spec s t) as [|Hne]; [ring|]. destruct (Same s Hs Hne) as (-> & ->). reflexivity. }
  rewrite EL in M, C. set (left := left_over k (points pts sel) (without t cs) target) in *.
  assert (Split : forall sl c, left_over k (points pts sl) (without t c) target = left -> left_over k (points pts sl) (entry c) target = fun i => left i - entry c t * points pts sl t i).
  { intros sl c <-. apply functional_extensionality. intros i. unfold left_over. rewrite (sum_but k (fun j => entry c j * points pts sl j i) t Ht).
    rewrite (Sum_ext k (fun s => if Nat.eqb s t then 0 else entry c s * points pts sl s i) (fun j => without t c j * points pts sl j i)); [ring|]. intros s _. unfold without. destruct (Nat.eqb s t); ring. }
  rewrite (Split sel' cs' EL), (Split sel cs eq_refl). apply nrm_le_sq.
  assert (Q : ip D (points pts sel t) (points pts sel t) = q) by (apply Hu, I, nth_In; lia). assert (Q' : ip D (points pts sel' t) (points pts sel' t) = q) by (apply Hu, I', nth_In; lia).
  assert (Hx : ip D left (points pts sel t) <= ip D left (points pts sel' t)).
  { apply M; [apply I, nth_In; lia|]. intros s Hs Hne Es. destruct (Same s Hs Hne) as (F & _). rewrite F in Es. apply Hne. apply (NoDup_nth sel 0%nat); [exact ND|lia|lia|exact Es]. }
  repeat (rewrite ?ip_minus_l, ?ip_minus_r, ?ip_scal_l, ?ip_scal_r). rewrite (ip_comm D (points pts sel' t) left), (ip_comm D (points pts sel t) left), Q, Q'. rewrite Q', Rplus_0_r in C.
  set (x' := ip D left (points pts sel' t)) in *. set (x := ip D left (points pts sel t)) in *. set (c := entry cs t). assert (Ex : x' = entry cs' t * q) by (rewrite C; field; lra). set (c' := entry cs' t) in *.
  generalize (ip D left left). intros w. clear - Hq Hpos Hx Ex. clearbody x x' c c'.
  (* w - x'^2/q <= w - x^2/q <= w - 2 c x + c^2 q *)
  enough (0 <= c * c * q - 2 * c * x + 2 * c' * x' - c' * c' * q) by lra. rewrite Ex in *. assert (0 <= (c * q - x) * (c * q - x)) by apply Rle_0_sqr. assert (x * x <= c' * q * (c' * q)) by (apply Rmult_le_compat; assumption).
  apply (Rmult_le_reg_l q); [exact Hq|]. rewrite Rmult_0_r. nra.
Qed.

(** an instance: the first of the best points *)
Definition signed_pick (D : nat) (pts : list row) (res : row) (sel : list nat) : nat :=
  argbest (fun i => ip D res (pt pts i)) (filter (fun i => negb (existsb (Nat.eqb i) sel)) (seq 0 (length pts))).
Lemma signed_is_pick D pts : is_pick_signed D pts (signed_pick D pts).
Proof.
  intros res sel N I L. unfold signed_pick. set (l := filter _ _).
  assert (Hl : forall i, In i l <-> (i < length pts)%nat /\ ~ In i sel).
  { intros i. unfold l. rewrite filter_In, in_seq, negb_true_iff. split.
    - intros (H & E). split; [lia|]. intros H'. enough (existsb (Nat.eqb i) sel = true) by congruence. apply existsb_exists. exists i. split; [exact H'|apply Nat.eqb_refl].
    - intros (H & E). split; [lia|]. destruct (existsb (Nat.eqb i) sel) eqn:X; [|reflexivity]. apply existsb_exists in X as (j & Hj & X). apply Nat.eqb_eq in X as ->. contradiction. }
  assert (Hne : l <> []).
  { intros E. assert (Hall : incl (seq 0 (length pts)) sel).
    { intros i Hi. apply in_seq in Hi. destruct (in_dec Nat.eq_dec i sel) as [|Hn]; [assumption|]. assert (H : In i l) by (apply Hl; split; [lia|exact Hn]). rewrite E in H. destruct H. }
    pose proof (NoDup_incl_length (seq_NoDup (length pts) 0) Hall) as X. rewrite seq_length in X. lia. }
  destruct (argbest_spec (fun i => ip D res (pt pts i)) l Hne) as (A & B). apply Hl in A as (A1 & A2). split; [exact A1|]. split; [exact A2|].
  intros i Hi Hn. apply (B i). now apply Hl.
Qed.

(** but in general a replacement can make the approximation worse: here the squared error goes from 9/50 to 121/100 *)
Definition of_pair (a b : R) : row := fun i => match i with O => a | S O => b | _ => 0 end.
Definition worse_points : list row := [of_pair (-2) (-2); of_pair 3 0; of_pair 2 (-1)].
Definition worse_target : row := of_pair 1 (-2).
Lemma ip2 x y : ip 2 x y = x 0%nat * y 0%nat + x 1%nat * y 1%nat.
Proof. unfold ip. cbn. ring. Qed.
Theorem C77_resets_worsen_refuted : forall pick, is_pick_signed 2 worse_points pick ->
  exists sel cs sel' cs', mp_resets 2 2 worse_points 0 worse_target pick (Some 2%nat) [0%nat] = Ok (sel, cs) /\ mp_resets 2 2 worse_points 0 worse_target pick (Some 3%nat) [0%nat] = Ok (sel', cs') /\
  ip 2 (left_over 2 (points worse_points sel) (entry cs) worse_target) (left_over 2 (points worse_points sel) (entry cs) worse_target) = 9 / 50 /\
  ip 2 (left_over 2 (points worse_points sel') (entry cs') worse_target) (left_over 2 (points worse_points sel') (entry cs') worse_target) = 121 / 100.
Proof.
  intros pick Hpick.
  destruct (mp_resets 2 2 worse_points 0 worse_target pick (Some 2%nat) [0%nat]) as [(sel, cs)|e] eqn:H; [|apply C77_resets_fails in H as (_ & [H|(n & [= <-] & H)]); cbn in H; lia].
  destruct (mp_resets 2 2 worse_points 0 worse_target pick (Some 3%nat) [0%nat]) as [(sel', cs')|e] eqn:H'; [|apply C77_resets_fails in H' as (_ & [H'|(n & [= <-] & H')]); cbn in H'; lia].
  exists sel, cs, sel', cs'. split; [reflexivity|]. split; [reflexivity|].
  assert (Hp : Forall (fun t => (t < 2)%nat) [0%nat]) by (repeat constructor).
  destruct (C77_resets_last _ _ _ _ _ _ _ _ _ _ Hpick Hp H) as (L & _ & N & I & _). destruct (C77_resets_last _ _ _ _ _ _ _ _ _ _ Hpick Hp H') as (L' & _ & N' & I' & Last).
  pose proof (C77_resets_start _ _ _ _ _ _ _ _ _ Hpick (Rle_refl 0) H) as Start. pose proof (C77_resets_step 2 2 worse_points 0 worse_target pick 2 [0%nat] sel cs sel' cs' Hpick Hp ltac:(cbn; lia) H H' 1%nat ltac:(lia) ltac:(cbn; lia)) as (S1 & S2). clear H H'. symmetry in S1. revert S1 S2.
  (* the first point *)
  destruct (Start 0%nat ltac:(lia)) as (M0 & C0 & _). cbv zeta in M0, C0.
  assert (EL0 : forall c, left_over 0 (points worse_points sel) c worse_target = worse_target) by (intros c; apply functional_extensionality; intros i; unfold left_over; cbn; ring). rewrite !EL0 in M0, C0.
  destruct sel as [|a [|b [|]]]; try discriminate. cbn [nth] in *. apply NoDup_cons_iff in N as (N & _). assert (Ha : (a < 3)%nat) by (apply I; now left). assert (Hb : (b < 3)%nat) by (apply I; right; now left). assert (Hab : a <> b) by (intros ->; apply N; now left).
  change (points worse_points [a; b] 0) with (pt worse_points a) in *.
  assert (Ea : a = 2%nat). { pose proof (M0 2%nat ltac:(cbn; lia) ltac:(cbn; tauto)) as X. rewrite !ip2 in X. destruct a as [|[|[|]]]; [| |reflexivity|lia]; exfalso; cbn in X; lra. } subst a.
  assert (Ec0 : entry cs 0 = 4 / 5) by (rewrite C0, !ip2; cbn; lra).
  (* the second *)
  destruct (Start 1%nat ltac:(lia)) as (M1 & C1 & _). cbv zeta in M1, C1. change (points worse_points [2%nat; b] 1) with (pt worse_points b) in *. cbn [firstn] in M1.
  assert (Eb : b = 0%nat). { pose proof (M1 0%nat ltac:(cbn; lia) ltac:(cbn; lia)) as X. rewrite !ip2 in X. unfold left_over in X. cbn [Sum] in X. rewrite Ec0 in X. change (points worse_points [2%nat; b] 0) with (of_pair 2 (-1)) in X.
    destruct b as [|[|[|]]]; [reflexivity| |lia|lia]; exfalso; cbn in X; lra. } subst b.
  assert (Ec1 : entry cs 1 = 9 / 20). { rewrite C1, !ip2. unfold left_over. cbn [Sum]. rewrite Ec0. change (points worse_points [2%nat; 0%nat] 0) with (of_pair 2 (-1)). cbn. lra. }
  (* the replacement *)
  intros S1 S2. cbn [nth] in S1.
  destruct (Last ltac:(lia)) as (_ & M & C & _). cbv zeta in M, C. change (last (order 2 (rounds 2 (Some 3%nat)) [0%nat]) 0%nat) with 0%nat in M, C.
  destruct sel' as [|a' [|b' [|]]]; try discriminate. cbn [nth] in *. subst b'. rewrite Ec1 in S2. apply NoDup_cons_iff in N' as (N' & _). assert (Ha' : (a' < 3)%nat) by (apply I'; now left). assert (a' <> 0%nat) by (intros ->; apply N'; now left).
  change (points worse_points [a'; 0%nat] 0) with (pt worse_points a') in *.
  assert (EL : forall i, left_over 2 (points worse_points [a'; 0%nat]) (without 0 cs') worse_target i = worse_target i - 9 / 20 * of_pair (-2) (-2) i).
  { intros i. unfold left_over. cbn [Sum]. unfold without. cbn [Nat.eqb]. rewrite S2. change (points worse_points [a'; 0%nat] 1) with (of_pair (-2) (-2)). ring. }
  assert (Ea' : a' = 1%nat). { pose proof (M 1%nat ltac:(cbn; lia)) as X. specialize (X ltac:(intros [|[|]] ? ?; cbn; lia)). rewrite !ip2, !EL in X. destruct a' as [|[|[|]]]; [congruence|reflexivity| |lia]; exfalso; cbn in X; lra. } subst a'.
  assert (Ec' : entry cs' 0 = 19 / 30) by (rewrite C, !ip2, !EL; cbn; lra).
  split; rewrite ip2; unfold left_over; cbn [Sum].
  - rewrite Ec0, Ec1. cbn. lra.
  - rewrite Ec', S2. cbn. lra.
Qed.

(** one head of two entries, three points, two of them chosen *)
Definition demo_points : list row := [of_pair 1 2; of_pair 3 (-1); of_pair 1 1].
Example C77_rope_nonvacuous : exists sel cs result reached,
  mp_rope lsq (greedy_pick 2 demo_points) 2 2 1 1 10000 10000 (/ 10 ^ 8) true 2 demo_points demo_points (of_pair 2 5) = Ok (sel, cs, result, reached) /\
  NoDup sel /\ length sel = 2%nat /\ nrm 2 (fun i => of_pair 2 5 i - result i) <= nrm 2 (of_pair 2 5).
Proof.
  destruct (mp_rope lsq (greedy_pick 2 demo_points) 2 2 1 1 10000 10000 (/ 10 ^ 8) true 2 demo_points demo_points (of_pair 2 5)) as [[[[sel cs] result] reached]|e] eqn:H.
  - exists sel, cs, result, reached. split; [reflexivity|]. assert (He : 0 < / 10 ^ 8) by (apply Rinv_0_lt_compat, pow_lt; lra).
    destruct (C77_rope_result _ _ _ _ _ _ _ _ _ _ _ _ _ _ _ _ _ _ (greedy_is_pick 2 demo_points) lsq_is_lstsq H) as (L & _ & pos & co & (_ & _ & N & _) & _). split; [exact N|]. split; [exact L|].
    destruct (C77_rope_same_space _ _ _ _ _ _ _ _ _ _ _ _ _ _ (greedy_is_pick 2 demo_points) lsq_is_lstsq He H). eapply Rle_trans; eassumption.
  - exfalso. apply C77_rope_fails in H as [(H & _)|[(_ & H & _)|[(_ & _ & H & _)|(_ & _ & _ & _ & H & _)]]]; try (cbn in H; lia). apply H. split; exists 1%nat; reflexivity.
Qed.
Example C77_resets_nonvacuous : is_pick_signed 2 worse_points (signed_pick 2 worse_points) /\ exists sel cs, mp_resets 2 2 worse_points (/ 10 ^ 8) worse_target (signed_pick 2 worse_points) None [1%nat; 0%nat; 0%nat; 1%nat] = Ok (sel, cs) /\ NoDup sel /\ length sel = 2%nat.
Proof.
  split; [apply signed_is_pick|]. destruct (mp_resets 2 2 worse_points (/ 10 ^ 8) worse_target (signed_pick 2 worse_points) None [1%nat; 0%nat; 0%nat; 1%nat]) as [(sel, cs)|e] eqn:H.
  - exists sel, cs. split; [reflexivity|]. assert (Hp : Forall (fun t => (t < 2)%nat) [1%nat; 0%nat; 0%nat; 1%nat]) by (repeat constructor). destruct (C77_resets_last _ _ _ _ _ _ _ _ _ _ (signed_is_pick 2 worse_points) Hp H) as (L & _ & N & _). auto.
  - apply C77_resets_fails in H as (_ & [H|(n & [=] & _)]). cbn in H. lia.
Qed.
Print Assumptions C77_rope_result.
Print Assumptions C77_resets_last.
Print Assumptions C77_resets_improves.
