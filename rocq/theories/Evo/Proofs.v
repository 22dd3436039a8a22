(** Lemmas about the genome model. *)
From Coq Require Import QArith Qabs Qminmax Lqa.
From Verif.Base Require Import Py PyFacts.
From Verif.Config Require Import Model Spec Proofs Props.
From Verif.Evo Require Import Model Spec.
Local Open Scope string_scope.
Local Open Scope list_scope.

Lemma zrange_app a b c : (a <= b)%Z -> (b <= c)%Z -> zrange a b ++ zrange b c = zrange a c.
Proof.
  intros H1 H2. unfold zrange. replace (Z.to_nat (c - a)) with (Z.to_nat (b - a) + Z.to_nat (c - b))%nat by lia.
  rewrite seq_app, map_app. f_equal. cbn [Nat.add]. rewrite <- (Nat.add_0_r (Z.to_nat (b - a))).
  assert (Hs : forall n m k, seq (m + k) n = map (fun x => (m + x)%nat) (seq k n)).
  { induction n as [|n IH]; intros m k; cbn; [reflexivity|]. f_equal. rewrite <- IH. f_equal. lia. }
  rewrite Hs, map_map. apply map_ext. intros k. lia.
Qed.
Lemma zrange_tiles step n : (0 <= step)%Z ->
  flat_map (fun k => zrange (Z.of_nat k * step) ((Z.of_nat k + 1) * step)) (seq 0 n) = zrange 0 (Z.of_nat n * step).
Proof.
  intros Hs. induction n as [|n IH]; [reflexivity|]. rewrite seq_S, flat_map_app, IH. cbn [flat_map]. rewrite app_nil_r.
  rewrite zrange_app by (cbn [Nat.add]; nia). f_equal. cbn [Nat.add]. lia.
Qed.

Lemma rmapM_nth {A B} (f : A -> result B) l out k x : rmapM f l = Ok out -> nth_error l k = Some x ->
  exists y, nth_error out k = Some y /\ f x = Ok y.
Proof.
  intros H. apply rmapM_Ok_Forall2 in H. revert k. induction H as [|a b l out Hab _ IH]; intros [|k]; cbn; try discriminate; auto.
  intros [= <-]. eauto.
Qed.
Lemma rmapM_In_inv {A B} (f : A -> result B) l out y : rmapM f l = Ok out -> In y out -> exists x, In x l /\ f x = Ok y.
Proof.
  intros H. apply rmapM_Ok_Forall2 in H. induction H as [|a b l out Hab _ IH]; cbn; [tauto|]. intros [->|Hy]; [eauto|].
  destruct (IH Hy) as (x & ? & ?). eauto.
Qed.
Lemma rmapM_map_eq {A B C} (f : A -> result B) (g : B -> C) (h : A -> C) l out : rmapM f l = Ok out ->
  (forall x y, In x l -> f x = Ok y -> g y = h x) -> map g out = map h l.
Proof.
  intros H. apply rmapM_Ok_Forall2 in H. induction H as [|a b l out Hab _ IH]; cbn; [reflexivity|]. intros Hg. f_equal; auto.
Qed.
Lemma combine_seq_nth {A} (l : list A) k x : nth_error l k = Some x -> nth_error (combine (seq 0 (List.length l)) l) k = Some (k, x).
Proof.
  assert (H : forall s, nth_error l k = Some x -> nth_error (combine (seq s (List.length l)) l) k = Some ((s + k)%nat, x)).
  { revert k. induction l as [|a l IH]; intros [|k] s; cbn; try discriminate.
    - intros [= ->]. now rewrite Nat.add_0_r.
    - intros Hk. rewrite (IH k (S s) Hk). do 2 f_equal. lia. }
  apply (H 0%nat).
Qed.
Lemma combine_seq_snd {A} (l : list A) : map snd (combine (seq 0 (List.length l)) l) = l.
Proof. generalize 0%nat. induction l as [|a l IH]; intros s; cbn; [reflexivity|]. now rewrite IH. Qed.
Lemma combine_seq_In {A} (l : list A) k x : In (k, x) (combine (seq 0 (List.length l)) l) -> nth_error l k = Some x.
Proof.
  assert (H : forall s, In (k, x) (combine (seq s (List.length l)) l) -> exists j, k = (s + j)%nat /\ nth_error l j = Some x).
  { induction l as [|a l IH]; intros s; cbn; [tauto|]. intros [[= <- <-]|Hin].
    - exists 0%nat. rewrite Nat.add_0_r. auto.
    - destruct (IH (S s) Hin) as (j & -> & Hj). exists (S j). split; [lia|auto]. }
  intros Hin. destruct (H 0%nat Hin) as (j & -> & Hj). exact Hj.
Qed.

(** ** Reading settings *)
Lemma always_num (P : Q -> Prop) q : P q -> always P (PNum q).
Proof. intros Hq tensor t r Ht [= <-]. eauto. Qed.
Lemma always_gradient (lo : Q) (hi : option Q) ps :
  (forall q, In q ps -> lo <= q /\ match hi with Some h => q <= h | None => True end)%Q ->
  always (fun q => lo <= q /\ match hi with Some h => q <= h | None => True end)%Q (PList (map PNum ps)).
Proof.
  intros Hp tensor t r Ht He. destruct ps as [|p0 ps0] eqn:Ep.
  - cbn [map] in He. rewrite (C08_empty_gradient_raises _ _ Ht) in He. discriminate.
  - rewrite <- Ep in *. assert (Hne : ps <> []) by (subst; discriminate).
    destruct (eval_gradient tensor ps t Hne Ht) as (v & Hv & i & a & b & Ha & Hb & H1 & H2 & Hval).
    rewrite Hv in He. injection He as <-. exists v. split; [reflexivity|]. cbn beta.
    apply nth_error_In, Hp in Ha. apply nth_error_In, Hp in Hb. destruct Ha as [Ha1 Ha2], Hb as [Hb1 Hb2].
    rewrite inject_S in H2. set (x := abscissa (List.length ps) t) in *. set (k := inject_Z (Z.of_nat i)) in *. clearbody x k.
    assert (E : (v == (1 - (x - k)) * a + (x - k) * b)%Q) by (rewrite Hval; ring).
    rewrite E. split; [nra|]. destruct hi as [h|]; [nra|auto].
Qed.
Lemma always_conds (P : Q -> Prop) (cs : list (pval * option string)) : cs <> [] ->
  (forall c, In c cs -> always P (fst c)) -> always P (PList (map (fun c => PCond (fst c) (snd c)) cs)).
Proof.
  intros Hne Hc tensor t r Ht He. rewrite (eval_conds _ _ _ Hne) in He.
  destruct (cond_loop_spec tensor t cs) as [(pre & v & f & post & -> & _ & _ & E)|[_ E]]; rewrite E in He; [|discriminate].
  eapply (Hc (v, f)); eauto. apply in_or_app. right. now left.
Qed.

Section G.
Context {M : Type} {E : Eqb M}.
Implicit Types g : genome M.

Definition filter_list g : list (option string) := map Some (filters g) ++ [None].

Lemma filter_at_ok g i f : filter_at g i = Ok f -> nth_error (filter_list g) i = Some f.
Proof.
  unfold filter_at, filter_list, filters. destruct (g_filters g) as [l|]; [|discriminate]. unfold nthE. destruct (nth_error _ i); congruence.
Qed.

(** what [settings] writes for one parameter *)
Definition written g (sets : nat) (value : nat -> pval) (v : pval) : Prop :=
  (sets = 1%nat /\ v = value 0%nat) \/
  ((1 < sets)%nat /\ exists cs, v = PList (map (fun c => PCond (fst c) (snd c)) cs) /\ List.length cs = sets /\
     forall i, (i < sets)%nat -> exists f, nth_error (filter_list g) i = Some f /\ nth_error cs i = Some (value i, f)).

Lemma settings_spec g sets ps value d : settings g sets ps value = Ok d ->
  map fst d = ps /\
  (forall k p, nth_error ps k = Some p -> exists v, nth_error d k = Some (p, v) /\ written g sets (fun i => value i k p) v).
Proof.
  unfold settings. destruct (Nat.ltb_spec 1 sets) as [Hs|Hs].
  - intros Hd. split.
    + transitivity (map snd (combine (seq 0 (List.length ps)) ps)); [|apply combine_seq_snd].
      eapply rmapM_map_eq; [exact Hd|]. intros [k p] y _ Hy. cbn [fst snd] in Hy |- *. destruct (rmapM _ (seq 0 sets)); cbn [rbind] in Hy; [|discriminate]. now injection Hy as <-.
    + intros k p Hk. destruct (rmapM_nth _ _ _ k (k, p) Hd (combine_seq_nth _ _ _ Hk)) as (y & Hy & Ey). cbn [fst snd] in Ey.
      destruct (rmapM _ (seq 0 sets)) as [conds|] eqn:Ec; cbn [rbind] in Ey; [|discriminate]. injection Ey as <-. exists (PList conds). split; auto.
      right. split; auto. exists (map (fun i => (value i k p, nth i (filter_list g) None)) (seq 0 sets)).
      split.
      { f_equal. rewrite map_map. cbn [fst snd]. rewrite <- (map_id conds). eapply rmapM_map_eq; [exact Ec|].
        intros i y _ Hy'. cbn beta in Hy'. destruct (filter_at g i) as [f|] eqn:Ef; cbn [rbind] in Hy'; [|discriminate]. injection Hy' as <-.
        apply filter_at_ok in Ef. now rewrite (nth_error_nth _ _ None Ef). }
      split; [rewrite map_length, seq_length; auto|]. intros i Hi.
      assert (Hsq : nth_error (seq 0 sets) i = Some i) by (rewrite (nth_error_nth' _ 0%nat) by (rewrite seq_length; auto); now rewrite seq_nth by auto).
      destruct (rmapM_nth _ _ _ i i Ec Hsq) as (y & Hy' & Ey).
      destruct (filter_at g i) as [f|] eqn:Ef; cbn [rbind] in Ey; [|discriminate]. apply filter_at_ok in Ef. exists f. split; auto.
      rewrite nth_error_map, Hsq. cbn. now rewrite (nth_error_nth _ _ None Ef).
  - destruct (Nat.eqb_spec sets 0) as [->|Hne].
    + destruct ps; [|discriminate]. intros [= <-]. split; [reflexivity|]. intros [|k]; discriminate.
    + assert (sets = 1)%nat as -> by lia. intros [= <-]. split.
      * rewrite map_map. cbn [fst]. apply combine_seq_snd.
      * intros k p Hk. exists (value 0%nat k p). split; [|left; auto]. rewrite nth_error_map, (combine_seq_nth _ _ _ Hk). reflexivity.
Qed.

Lemma written_always g sets value v (P : Q -> Prop) : written g sets value v -> (forall i, (i < sets)%nat -> always P (value i)) -> always P v.
Proof.
  intros [[-> ->]|(Hs & cs & -> & Hl & Hc)] Hv; [apply Hv; lia|]. apply always_conds.
  - intros ->. cbn in Hl. lia.
  - intros c Hin. apply In_nth_error in Hin as (i & Hi).
    assert (Hil : (i < sets)%nat) by (rewrite <- Hl; apply nth_error_Some; congruence).
    destruct (Hc i Hil) as (f & _ & Hi'). rewrite Hi in Hi'. injection Hi' as ->. cbn [fst]. auto.
Qed.

(** a setting with one entry per parameter set gives each tensor its own set's value *)
Lemma written_set g value v tensor t i : written g (S (List.length (filters g))) value v -> set_for (filters g) tensor i ->
  evaluate_setting tensor t v = evaluate_setting tensor t (value i).
Proof.
  intros Hw [Hno Hyes].
  assert (Hi : (i <= List.length (filters g))%nat).
  { destruct Hyes as [(f & Hf & _)| ->]; [|lia]. apply Nat.lt_le_incl, nth_error_Some. congruence. }
  destruct Hw as [[Hs ->]|(Hs & cs & -> & Hl & Hc)].
  - assert (i = 0)%nat as -> by lia. reflexivity.
  - rewrite eval_conds by (intros ->; discriminate).
    assert (Hfl : forall k, nth_error (filter_list g) k = if Nat.ltb k (List.length (filters g)) then option_map Some (nth_error (filters g) k)
                                                          else if Nat.eqb k (List.length (filters g)) then Some None else None).
    { intros k. unfold filter_list. destruct (Nat.ltb_spec k (List.length (filters g))) as [Hk|Hk].
      - rewrite nth_error_app1 by (rewrite map_length; auto). apply nth_error_map.
      - rewrite nth_error_app2 by (rewrite map_length; auto). rewrite map_length.
        destruct (Nat.eqb_spec k (List.length (filters g))) as [->|Hne]; [now rewrite Nat.sub_diag|].
        destruct (k - List.length (filters g))%nat as [|m] eqn:Em; [lia|]. now destruct m. }
    assert (Hap : forall k f, (k <= List.length (filters g))%nat -> nth_error (filter_list g) k = Some f ->
              (k < i)%nat /\ ~ applies tensor f \/ k = i /\ applies tensor f \/ (i < k)%nat).
    { intros k f Hk Hf. rewrite Hfl in Hf. destruct (Nat.ltb_spec k (List.length (filters g))) as [Hk'|Hk'].
      - destruct (nth_error (filters g) k) as [s|] eqn:Es; [|discriminate]. injection Hf as <-.
        destruct (Nat.lt_trichotomy k i) as [Hlt|[->|Hgt]]; [left; split; auto; eapply Hno; eauto| |auto].
        right; left. split; auto. destruct Hyes as [(s' & Hs' & Ha)|Hy]; [congruence|lia].
      - assert (k = List.length (filters g)) as -> by lia. rewrite Nat.eqb_refl in Hf. injection Hf as <-.
        destruct (Nat.eq_dec (List.length (filters g)) i) as [<-|Hne]; [right; left; split; auto; now left|]. right; right. lia. }
    destruct (cond_loop_spec tensor t cs) as [(pre & v & f & post & -> & Hpre & Haf & Ev)|[Hnone _]].
    + rewrite Ev. set (k := List.length pre).
      assert (Hk : (k < S (List.length (filters g)))%nat) by (rewrite <- Hl, app_length; cbn; lia).
      destruct (Hc k Hk) as (f' & Hf' & Hv). rewrite nth_error_app2 in Hv by auto. rewrite Nat.sub_diag in Hv. injection Hv as -> ->.
      destruct (Hap k f' ltac:(lia) Hf') as [[_ Hn]|[[-> _]|Hgt]]; [contradiction|reflexivity|].
      exfalso. destruct (Hc i ltac:(lia)) as (fi & Hfi & Hvi). destruct (Hap i fi Hi Hfi) as [[? _]|[[_ Ha]|?]]; try lia.
      rewrite nth_error_app1 in Hvi by auto. apply nth_error_In in Hvi. apply Hpre in Hvi. contradiction.
    + exfalso. destruct (Hc i ltac:(lia)) as (fi & Hfi & Hvi). destruct (Hap i fi Hi Hfi) as [[? _]|[[_ Ha]|?]]; try lia.
      apply nth_error_In, Hnone in Hvi. contradiction.
Qed.

(** ** Values *)
Lemma adjust_density g x : (0 <= adjust g "density" x <= 1)%Q.
Proof.
  unfold adjust. change (mem "density" ["weight"; "t"]) with false. rewrite andb_false_r. cbn [String.eqb Ascii.eqb Bool.eqb].
  split; [|apply Q.le_min_r]. apply Q.min_glb; [apply Q.le_max_r|discriminate].
Qed.
Lemma adjust_weight g x : adjust g "weight" x = if g_negative g then x else Qabs x.
Proof. unfold adjust. cbn. now destruct (g_negative g). Qed.
Lemma adjust_expressed g p x : In p ["weight"; "density"] -> expressed (g_negative g) p x (adjust g p x).
Proof.
  intros Hp. split.
  - intros ->. unfold adjust. change (mem "density" ["weight"; "t"]) with false. rewrite andb_false_r. cbn [String.eqb Ascii.eqb Bool.eqb].
    assert (Hm : (Qmax (Qabs x) 0 == Qabs x)%Q) by (apply Q.max_l, Qabs_nonneg). split; intros Hx; rewrite Hm; [now apply Q.min_l|now apply Q.min_r].
  - intros ->. apply adjust_weight.
Qed.
End G.
