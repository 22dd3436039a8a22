(** Proofs for C97: the parser on a command line, word by word. *)
From Verif.Base Require Import Py PyFacts.
From Verif.Common Require Import Model Spec Proofs.
From Verif.Devices Require Import Model.
From Verif.Options Require Import Model Spec.
Local Open Scope string_scope.
Local Open Scope list_scope.

Lemma dset_twice {V} (d : dict string V) k a b : dset (dset d k a) k b = dset d k b.
Proof.
  induction d as [|[k0 v0] d IH]; cbn [dset]; [now rewrite eqb_refl|].
  destruct (eqb k k0) eqn:E; cbn [dset]; rewrite E; [reflexivity|now rewrite IH].
Qed.

Definition count (d : stored) : nat := match dget d "verbosity" with Some (RCount n) => n | _ => 0 end.
Definition store (d : stored) (i : item) : stored :=
  match i with
  | Switch f _ on => dset d f (RBool on)
  | Value f _ s _ => dset d f (RText s)
  | Rich => dset d "gpu_rich" (RBool true)
  | Verbose n => dset d "verbosity" (RCount (count d + S n))
  | Jobs s _ => dset d "num_threads" (RText s)
  | Argument _ => d
  end.
Lemma count_dset d n : count (dset d "verbosity" (RCount n)) = n.
Proof. unfold count. now rewrite dget_dset_eq. Qed.
Lemma short_vs n : forall d, short_word (vs (S n)) d = Ok (dset d "verbosity" (RCount (count d + S n)), None).
Proof.
  induction n as [|n IH]; intros d.
  - cbn. unfold tally, count. now rewrite Nat.add_1_r.
  - change (short_word (vs (S (S n))) d) with (short_word (vs (S n)) (tally d "verbosity")). rewrite IH. unfold tally.
    fold (count d). rewrite count_dset, dset_twice. do 4 f_equal. lia.
Qed.

Lemma words_item i args d pos : good i ->
  words (written i ++ args) d pos = words args (store d i) (pos ++ match i with Argument s => [s] | _ => [] end).
Proof.
  destruct i as [f name on|f name s j| |n|s j|s]; cbn [good written store]; intros Hg; rewrite ?app_nil_r.
  - cbn [In switches] in Hg. destruct on; repeat (destruct Hg as [[= <- <-]|Hg]; [reflexivity|]); destruct Hg.
  - cbn [In texts numbers sizes app] in Hg. destruct j; repeat (destruct Hg as [[= <- <-]|Hg]; [reflexivity|]); destruct Hg.
  - reflexivity.
  - cbn [app]. assert (E : option_word (String "-" (vs (S n))) d = Ok (dset d "verbosity" (RCount (count d + S n)), None)).
    { rewrite <- short_vs. unfold option_word.
      assert (Hs : split_eq (String "-" (vs (S n))) = (String "-" (vs (S n)), None)).
      { assert (Hv : forall m, split_eq (vs m) = (vs m, None)) by (induction m as [|m IHm]; cbn; [reflexivity|now rewrite IHm]).
        cbn [split_eq]. change (Ascii.eqb "-" "=") with false. cbv iota. now rewrite Hv. }
      rewrite Hs. cbn [fst snd]. reflexivity. }
    change (words (String "-" (vs (S n)) :: args) d pos) with
      (let! p := option_word (String "-" (vs (S n))) d in
        match snd p with None => words args (fst p) pos | Some f => match args with [] => Err RuntimeError | v :: args => words args (dset (fst p) f (RText v)) pos end end).
    rewrite E. reflexivity.
  - destruct j; cbn [app]; [|reflexivity]. destruct s as [|c s]; [congruence|].
    assert (E : option_word (String "-" (String "j" (String c s))) d = Ok (dset d "num_threads" (RText (String c s)), None)).
    { unfold option_word. cbn [split_eq]. change (Ascii.eqb "-" "=") with false. change (Ascii.eqb "j" "=") with false. cbv iota. cbn [fst snd].
      set (q := fst (if Ascii.eqb c "=" then _ else _)). reflexivity. }
    change (words (String "-" (String "j" (String c s)) :: args) d pos) with
      (let! p := option_word (String "-" (String "j" (String c s))) d in
        match snd p with None => words args (fst p) pos | Some f => match args with [] => Err RuntimeError | v :: args => words args (dset (fst p) f (RText v)) pos end end).
    rewrite E. reflexivity.
  - cbn [app words]. assert (Ho : is_option s = false).
    { destruct s as [|c [|c' s]]; [reflexivity|now destruct c as [[|] [|] [|] [|] [|] [|] [|] [|]]|].
      destruct (Ascii.eqb_spec c "-") as [->|Hn]; [specialize (Hg _ eq_refl); discriminate|].
      destruct c as [[|] [|] [|] [|] [|] [|] [|] [|]]; try reflexivity. congruence. }
    assert (Hd : eqb s "--" = false) by (apply eqb_neq; intros ->; discriminate Ho). now rewrite Hd, Ho.
Qed.
Lemma words_line items : Forall good items -> forall args d pos,
  words (line items ++ args) d pos = words args (fold_left store items d) (pos ++ arguments items).
Proof.
  unfold line, arguments. induction 1 as [|i items Hi _ IH]; intros args d pos; cbn [map concat fold_left].
  - now rewrite app_nil_r.
  - rewrite <- app_assoc, words_item by exact Hi. rewrite IH. now rewrite app_assoc.
Qed.

Definition raw_of (s : said) : raw := match s with Text s => RText s | On b => RBool b end.
Lemma dget_store d i f : f <> "verbosity" -> dget (store d i) f = match says f i with Some x => Some (raw_of x) | None => dget d f end.
Proof.
  intros Hf. assert (Hs : forall g (r : raw), dget (dset d g r) f = if String.eqb g f then Some r else dget d f).
  { intros g r. destruct (String.eqb_spec g f) as [->|Hn]; [now rewrite dget_dset_eq|]. rewrite dget_dset_neq; congruence. }
  destruct i as [g name on|g name s j| |n|s j|s]; cbn [store says]; rewrite ?Hs; auto.
  - now destruct (String.eqb g f).
  - now destruct (String.eqb g f).
  - rewrite (String.eqb_sym f). now destruct (String.eqb "gpu_rich" f).
  - destruct (String.eqb_spec "verbosity" f) as [<-|]; [congruence|reflexivity].
  - rewrite (String.eqb_sym f). now destruct (String.eqb "num_threads" f).
Qed.
Lemma dget_stored f items : f <> "verbosity" -> forall d,
  dget (fold_left store items d) f = match last_said f items with Some x => Some (raw_of x) | None => dget d f end.
Proof.
  intros Hf. induction items as [|i items IH]; intros d; cbn [fold_left last_said]; [reflexivity|].
  rewrite IH. destruct (last_said f items); [reflexivity|]. apply dget_store, Hf.
Qed.
Lemma says_verbosity i : good i -> match i with Verbose _ => True | _ => forall d, count (store d i) = count d end.
Proof.
  assert (Hs : forall g (r : raw) (d : stored), g <> "verbosity" -> count (dset d g r) = count d).
  { intros g r d Hn. unfold count. rewrite dget_dset_neq by congruence. reflexivity. }
  destruct i as [g name on|g name s j| |n|s j|s]; cbn [good store]; intros Hg; auto; intros d; apply Hs; try discriminate; intros ->.
  - cbn in Hg. repeat destruct Hg as [Hg|Hg]; try discriminate; auto.
  - cbn in Hg. repeat destruct Hg as [Hg|Hg]; try discriminate; auto.
Qed.
Lemma count_stored items : Forall good items -> forall d, count (fold_left store items d) = count d + loudness items.
Proof.
  unfold loudness. induction 1 as [|i items Hi _ IH]; intros d; cbn [fold_left map list_sum fold_right]; [lia|].
  rewrite IH. change (fold_right Nat.add 0 (map (fun i => match i with Verbose n => S n | _ => 0 end) items)) with
    (list_sum (map (fun i => match i with Verbose n => S n | _ => 0 end) items)).
  pose proof (says_verbosity _ Hi) as Hv. destruct i; try (rewrite Hv; lia). cbn [store]. rewrite count_dset. lia.
Qed.
(** the verbosity is counted or not there *)
Lemma stored_verbosity items : Forall good items ->
  convert "verbosity" TInt (OInt 0) (dget (fold_left store items []) "verbosity") = Ok (OInt (Z.of_nat (loudness items))).
Proof.
  intros Hg. pose proof (count_stored _ Hg []) as Hc. change (count []) with 0 in Hc. rewrite Nat.add_0_l in Hc.
  assert (Hk : forall d : stored, (forall r, dget d "verbosity" = Some r -> exists n, r = RCount n) -> forall l, Forall good l -> forall r,
            dget (fold_left store l d) "verbosity" = Some r -> exists n, r = RCount n).
  { intros d Hd l Hl. revert d Hd. induction Hl as [|i l Hi _ IH]; intros d Hd; cbn [fold_left]; [exact Hd|]. apply IH.
    intros r Hr. destruct i as [g name on|g name s j| |n|s j|s]; cbn [store good] in *; try (apply Hd; exact Hr).
    - rewrite dget_dset_neq in Hr; [now apply Hd|]. intros <-. cbn in Hi. repeat destruct Hi as [Hi|Hi]; try discriminate; auto.
    - rewrite dget_dset_neq in Hr; [now apply Hd|]. intros <-. cbn in Hi. repeat destruct Hi as [Hi|Hi]; try discriminate; auto.
    - rewrite dget_dset_neq in Hr by discriminate. now apply Hd.
    - rewrite dget_dset_eq in Hr. injection Hr as <-. eauto.
    - rewrite dget_dset_neq in Hr by discriminate. now apply Hd. }
  specialize (Hk [] ltac:(discriminate) _ Hg). unfold count in Hc.
  destruct (dget (fold_left store items []) "verbosity") as [r|]; [|now rewrite <- Hc].
  destruct (Hk r eq_refl) as (n & ->). cbn [convert]. now rewrite Hc.
Qed.

(** the options of all fields *)
Definition field_of (d : stored) (ft : string * (annot * oval)) : result (string * oval) :=
  let! v := convert (fst ft) (fst (snd ft)) (snd (snd ft)) (dget d (fst ft)) in Ok (fst ft, v).
Lemma fields_dget d l o : NoDup (map fst l) -> rmapM (field_of d) l = Ok o ->
  forall f t df, In (f, (t, df)) l -> exists v, convert f t df (dget d f) = Ok v /\ dget o f = Some v.
Proof.
  revert o. induction l as [|[g [u dg]] l IH]; intros o Hnd H f t df Hin; [destruct Hin|]. cbn [rmapM] in H. unfold field_of in H at 1. cbn [fst snd] in H.
  destruct (convert g u dg (dget d g)) as [v|] eqn:Ev; [|discriminate]. cbn in H. destruct (rmapM (field_of d) l) as [o'|] eqn:Eo; [|discriminate]. cbn in H. injection H as <-.
  inversion Hnd as [|x y Hn Hnd']; subst. cbn [dget]. destruct Hin as [[= -> -> ->]|Hin].
  - exists v. rewrite eqb_refl. auto.
  - destruct (eqb_spec f g) as [->|_]; [exfalso; apply Hn; apply (in_map fst) in Hin; exact Hin|]. apply IH; auto.
Qed.
Lemma fields_ok d l : (forall f t df, In (f, (t, df)) l -> exists v, convert f t df (dget d f) = Ok v) -> exists o, rmapM (field_of d) l = Ok o.
Proof.
  induction l as [|[g [u dg]] l IH]; intros H; [now exists []|]. cbn [rmapM]. destruct (H g u dg (or_introl eq_refl)) as (v & Ev). unfold field_of at 1. cbn [fst snd]. rewrite Ev. cbn.
  destruct IH as (o & Eo); [intros f t df Hi; apply (H f t df); now right|]. rewrite Eo. cbn. eauto.
Qed.
Lemma fields_distinct : NoDup (map fst model_fields).
Proof. cbn. repeat constructor; cbn; intuition discriminate. Qed.
