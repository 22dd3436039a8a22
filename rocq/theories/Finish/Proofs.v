(** Proofs for C67. *)
From Coq Require Import Permutation.
From Verif.Base Require Import Py PyFacts PyStr.
From Verif.Common Require Import Model.
From Verif.Finish Require Import Model Spec.
Local Open Scope string_scope.
Local Open Scope list_scope.

(** ** Stripping *)
Lemma app_cons_l c (a b : string) : (String c a ++ b)%string = String c (a ++ b)%string.
Proof. reflexivity. Qed.
Lemma lstrip_spec s : exists a, s = (a ++ lstrip s)%string /\ blank a /\ forall c r, lstrip s = String c r -> is_space c = false.
Proof.
  induction s as [|c s (a & E & Ha & Hc)]; cbn [lstrip].
  - exists "". now repeat split.
  - destruct (is_space c) eqn:Hs.
    + exists (String c a). split; [cbn; congruence|]. split; [|exact Hc]. unfold blank in *. cbn. now rewrite Hs.
    + exists "". split; [reflexivity|]. split; [reflexivity|]. now intros d r [= -> ->].
Qed.
Lemma rstrip_cons c s : rstrip (String c s) = match rstrip s with "" => if is_space c then "" else String c "" | r => String c r end.
Proof. reflexivity. Qed.
Lemma rstrip_spec s : exists b, s = (rstrip s ++ b)%string /\ blank b /\ forall r c, rstrip s = (r ++ String c "")%string -> is_space c = false.
Proof.
  induction s as [|c s (b & E & Hb & Hc)]; [exists ""; repeat split; intros [|] c; discriminate|]. rewrite rstrip_cons.
  destruct (rstrip s) as [|d t] eqn:R.
  - cbn in E. subst b. destruct (is_space c) eqn:Hs.
    + exists (String c s). split; [reflexivity|]. split; [unfold blank in *; cbn; now rewrite Hs|]. intros [|] x; discriminate.
    + exists s. split; [reflexivity|]. split; [exact Hb|]. intros [|y r] x H; [now injection H as ->|]. injection H as _ H. destruct r; discriminate.
  - exists b. split; [cbn; cbn in E; congruence|]. split; [exact Hb|]. intros [|y r] x H; [discriminate|]. injection H as _ H. eapply Hc. exact H.
Qed.
Lemma lstrip_blank a s : blank a -> lstrip (a ++ s)%string = lstrip s.
Proof. unfold blank. induction a as [|c a IH]; cbn; [reflexivity|]. intros H. apply andb_true_iff in H as [-> H]. auto. Qed.
Lemma rstrip_blank b : blank b -> rstrip b = "".
Proof. unfold blank. induction b as [|c b IH]; cbn; [reflexivity|]. intros H. apply andb_true_iff in H as [Hc H]. now rewrite IH, Hc. Qed.
Lemma rstrip_app t b : blank b -> (forall r c, t = (r ++ String c "")%string -> is_space c = false) -> rstrip (t ++ b)%string = t.
Proof.
  intros Hb. induction t as [|c t IH]; intros Ht; [now apply rstrip_blank|]. rewrite app_cons_l, rstrip_cons, IH.
  - destruct t as [|d t]; [|reflexivity]. now rewrite (Ht "" c).
  - intros r x ->. apply (Ht (String c r) x). reflexivity.
Qed.
Lemma trimmed_iff s t : trimmed s t <-> t = rstrip (lstrip s).
Proof.
  split.
  - intros [(a & b & -> & Ha & Hb) [H1 H2]]. rewrite lstrip_blank by auto. destruct t as [|c t].
    + assert (Hl : forall b, blank b -> lstrip b = "") by (clear; unfold blank; induction b as [|c b IH]; cbn; [reflexivity|]; intros H; apply andb_true_iff in H as [-> H]; auto).
      cbn. now rewrite Hl.
    + cbn [String.append lstrip]. rewrite (H1 c t) by reflexivity. symmetry. change (String c (t ++ b))%string with (String c t ++ b)%string. now apply rstrip_app.
  - intros ->. destruct (lstrip_spec s) as (a & E & Ha & Hl). destruct (rstrip_spec (lstrip s)) as (b & E' & Hb & Hr). split; [|split].
    + exists a, b. split; [congruence|auto].
    + intros c r H. rewrite H in E'. eapply Hl. exact E'.
    + intros r c H. eapply Hr. exact H.
Qed.

(** ** Counting *)
Lemma counter_snoc l x : counter (l ++ [x]) = dset (counter l) x (S match dget (counter l) x with Some n => n | None => 0 end).
Proof. unfold counter. now rewrite fold_left_app. Qed.
Lemma votes_snoc l x y : votes y (l ++ [x]) = (votes y l + if string_dec x y then 1 else 0)%nat.
Proof. unfold votes. rewrite count_occ_app. cbn. destruct (string_dec x y); lia. Qed.
Lemma counter_get l : forall x, dget (counter l) x = match votes x l with 0 => None | n => Some n end.
Proof.
  induction l as [|y l IH] using rev_ind; intros x; [reflexivity|]. rewrite counter_snoc, votes_snoc. destruct (string_dec y x) as [<-|Hn].
  - rewrite dget_dset_eq, IH. destruct (votes y l) eqn:E; cbn; [reflexivity|]. f_equal. lia.
  - rewrite dget_dset_neq by congruence. now rewrite IH, Nat.add_0_r.
Qed.
Lemma counter_keys l : forall x, In x (dkeys (counter l)) <-> In x l.
Proof.
  intros x. rewrite dget_Some_key, counter_get. unfold votes. destruct (count_occ string_dec l x) eqn:E.
  - apply count_occ_not_In in E. split; [intros (? & ?); discriminate|contradiction].
  - split; [intros _|eauto]. apply (count_occ_In string_dec). lia.
Qed.
Lemma counter_NoDup l : NoDup (dkeys (counter l)).
Proof. induction l as [|y l IH] using rev_ind; [constructor|]. rewrite counter_snoc. now apply dkeys_dset_NoDup. Qed.
Lemma counter_grows a b : exists more, dkeys (counter (a ++ b)) = dkeys (counter a) ++ more.
Proof.
  induction b as [|y b IH] using rev_ind; [exists []; now rewrite !app_nil_r|]. destruct IH as (more & E). rewrite app_assoc, counter_snoc.
  destruct (dget (counter (a ++ b)) y) as [n|] eqn:G.
  - exists more. rewrite <- E. assert (H : forall (d : dict string nat) k v, In k (dkeys d) -> dkeys (dset d k v) = dkeys d).
    { clear. intros d k v. induction d as [|[k' v'] d IH]; [easy|]. rewrite dkeys_cons. cbn [dset]. destruct (eqb_spec k k') as [->|Hn]; [now rewrite dkeys_cons|].
      intros [H|H]; [congruence|]. rewrite dkeys_cons. f_equal. now apply IH. }
    apply H. apply dget_Some_key. eauto.
  - exists (more ++ [y]). rewrite app_assoc, <- E. apply dget_None in G. rewrite dset_fresh by exact G. unfold dkeys. now rewrite map_app.
Qed.

Lemma most_common_spec d : forall best, 
  (most_common best d = fst best /\ (forall k n, In (k, n) d -> (n <= snd best)%nat)) \/
  (exists d1 k n d2, d = d1 ++ (k, n) :: d2 /\ most_common best d = k /\ (snd best < n)%nat /\
     (forall k' n', In (k', n') d1 -> (n' < n)%nat) /\ (forall k' n', In (k', n') d2 -> (n' <= n)%nat)).
Proof.
  induction d as [|[k n] d IH]; intros best; [left; split; [reflexivity|easy]|]. cbn [most_common]. destruct (Nat.ltb_spec (snd best) n) as [Hlt|Hle].
  - destruct (IH (k, n)) as [[E H]|(d1 & k1 & n1 & d2 & -> & E & H1 & H2 & H3)]; cbn [fst snd] in *; right.
    + exists [], k, n, d. repeat split; auto. easy.
    + exists ((k, n) :: d1), k1, n1, d2. repeat split; auto; [lia|]. intros k' n' [[= <- <-]|Hi]; eauto.
  - destruct (IH best) as [[E H]|(d1 & k1 & n1 & d2 & -> & E & H1 & H2 & H3)].
    + left. split; [exact E|]. intros k' n' [[= <- <-]|Hi]; eauto.
    + right. exists ((k, n) :: d1), k1, n1, d2. repeat split; auto. intros k' n' [[= <- <-]|Hi]; [lia|eauto].
Qed.
Lemma most_common_wins v l : wins (most_common (v, 0) (counter (v :: l))) (v :: l).
Proof.
  set (L := v :: l). assert (Hv : In v L) by now left.
  assert (Hc : forall k n, In (k, n) (counter L) <-> n = votes k L /\ In k L).
  { intros k n. split.
    - intros H. apply (dget_In_NoDup _ _ _ (counter_NoDup L)) in H. rewrite counter_get in H. destruct (votes k L) as [|m] eqn:E; [discriminate|].
      split; [congruence|]. apply (count_occ_In string_dec). unfold votes in E. lia.
    - intros [-> Hk]. apply dget_In. rewrite counter_get. unfold votes. apply (count_occ_In string_dec) in Hk. destruct (count_occ string_dec L k); [lia|reflexivity]. }
  assert (Hpos : forall x, In x L -> (0 < votes x L)%nat) by (intros x Hx; apply (count_occ_In string_dec) in Hx; unfold votes; lia).
  destruct (most_common_spec (counter L) (v, 0)) as [[_ H]|(d1 & t & n & d2 & Ed & -> & Hn & H1 & H2)].
  - exfalso. specialize (H v (votes v L) (proj2 (Hc _ _) (conj eq_refl Hv))). specialize (Hpos v Hv). cbn [snd] in H. lia.
  - assert (Ht : n = votes t L /\ In t L) by (apply Hc; rewrite Ed; apply in_app_iff; right; now left). destruct Ht as [-> Ht].
    assert (Hmax : forall t', (votes t' L <= votes t L)%nat).
    { intros t'. destruct (in_dec string_dec t' L) as [Hi|Hi]; [|unfold votes; rewrite (proj1 (count_occ_not_In string_dec _ _) Hi); lia].
      assert (Hx : In (t', votes t' L) (counter L)) by (apply Hc; auto). rewrite Ed in Hx. apply in_app_iff in Hx as [Hx|[[= <-]|Hx]]; [apply H1 in Hx; lia|lia|now apply H2 in Hx]. }
    split; [exact Ht|]. split; [exact Hmax|]. intros t' a b EL Heq. destruct (string_dec t' t) as [->|Hne]; [now left|right].
    assert (Hi' : In t' L) by (rewrite EL; apply in_app_iff; right; now left).
    assert (Hx : In (t', votes t' L) (counter L)) by (apply Hc; auto). rewrite Ed in Hx. apply in_app_iff in Hx as [Hx|[[= E]|Hx]]; [apply H1 in Hx; lia|congruence|].
    destruct (in_dec string_dec t a) as [Hi|Hi]; [exact Hi|exfalso].
    destruct (counter_grows (a ++ [t']) b) as (more & Em). rewrite <- app_assoc in Em. change ([t'] ++ b) with (t' :: b) in Em. rewrite <- EL in Em.
    pose proof (counter_NoDup L) as HN. assert (Hk : dkeys (counter L) = dkeys d1 ++ t :: dkeys d2) by (rewrite Ed; unfold dkeys; now rewrite map_app).
    assert (Hnt : ~ In t (dkeys (counter (a ++ [t'])))) by (rewrite counter_keys, in_app_iff; cbn; intuition congruence).
    assert (Hyt : In t' (dkeys (counter (a ++ [t'])))) by (rewrite counter_keys, in_app_iff; cbn; auto).
    assert (Hd2 : In t' (dkeys d2)) by (unfold dkeys; apply in_map_iff; now exists (t', votes t' L)).
    rewrite Hk in HN. rewrite Hk in Em. clear - HN Em Hnt Hyt Hd2.
    generalize dependent (dkeys (counter (a ++ [t']))). intros K Em Hnt Hyt.
    assert (Hin : In t' (dkeys d1)).
    { revert K Em Hnt Hyt. generalize (dkeys d1). intros u K. revert u. induction K as [|x K IH]; intros u Em Hnt Hyt; [easy|].
      destruct u as [|y u]; cbn in Em.
      - injection Em as -> _. exfalso. apply Hnt. now left.
      - injection Em as -> Em. destruct Hyt as [->|Hyt]; [now left|right]. apply (IH u Em); [intros H; apply Hnt; now right|exact Hyt]. }
    apply NoDup_remove_1 in HN. apply in_split in Hin as (x & y & E). rewrite E in HN. rewrite <- app_assoc in HN. cbn in HN. apply NoDup_remove_2 in HN.
    apply HN. rewrite !in_app_iff. auto.
Qed.
Lemma wins_unique t t' l : wins t l -> wins t' l -> t = t'.
Proof.
  intros (Hi & Hm & Hf) (Hi' & Hm' & Hf'). destruct (string_dec t t') as [|Hne]; [assumption|exfalso].
  assert (E : votes t l = votes t' l) by (specialize (Hm t'); specialize (Hm' t); lia).
  assert (Hfirst : forall x, In x l -> exists a b, l = a ++ x :: b /\ ~ In x a).
  { clear. induction l as [|y l IH]; intros x Hx; [easy|]. destruct (string_dec y x) as [->|Hn]; [exists [], l; now split|].
    destruct Hx as [->|Hx]; [congruence|]. destruct (IH x Hx) as (a & b & -> & Ha). exists (y :: a), b. split; [reflexivity|]. intros [->|]; contradiction. }
  destruct (Hfirst t Hi) as (a & b & El & Ha). destruct (Hfirst t' Hi') as (a' & b' & El' & Ha').
  destruct (Hf _ _ _ El' (eq_sym E)) as [->|H1]; [congruence|]. destruct (Hf' _ _ _ El E) as [->|H2]; [congruence|].
  clear - El El' Ha Ha' H1 H2. subst l. revert a' El' Ha' H1 H2. induction a as [|x a IH]; intros a' El' Ha' H1 H2; [easy|].
  destruct a' as [|y a']; [easy|]. injection El' as -> El'. destruct H2 as [->|H2]; [apply Ha'; now left|]. destruct H1 as [->|H1]; [apply Ha; now left|].
  apply (IH (fun H => Ha (or_intror H)) a' El' (fun H => Ha' (or_intror H))); auto.
Qed.
Lemma votes_perm t l l' : Permutation l l' -> votes t l = votes t l'.
Proof. unfold votes. induction 1; cbn; repeat destruct string_dec; congruence. Qed.

(** ** The vote *)
Section VoteProofs.
Context {M C Tok : Type} (load_tokenizer : bool -> M -> result Tok) (template_of : Tok -> template_value).
Notation vote := (vote load_tokenizer template_of).
Notation says := (says load_tokenizer template_of).
Notation ballot := (ballot load_tokenizer template_of).
Lemma vote_spec m : match vote m with [t] => says m t | [] => forall t, ~ says m t | _ => False end.
Proof.
  unfold vote. destruct (load_tokenizer false m) as [tok|e] eqn:L; [|intros t (tok & s & H & _); congruence].
  assert (Hs : forall s, match template_of tok with TNone => None | TString s => Some s | TNamed d => dget d "default" end = Some s <->
                 (template_of tok = TString s \/ exists d, template_of tok = TNamed d /\ dget d "default" = Some s)).
  { intros s. destruct (template_of tok) as [|x|d]; split; intros H; try discriminate.
    - destruct H as [H|(d & H & _)]; discriminate.
    - left. congruence.
    - destruct H as [H|(d & H & _)]; congruence.
    - right. eauto.
    - destruct H as [H|(d' & H & Hd)]; congruence. }
  destruct (match template_of tok with TNone => None | TString s => Some s | TNamed d => dget d "default" end) as [[|c s]|].
  - intros t (tok' & s & H & Hne & _ & Hx). assert (tok' = tok) by congruence. subst tok'. apply Hs in Hx. congruence.
  - exists tok, (String c s). split; [exact L|]. split; [easy|]. split; [now apply trimmed_iff|]. now apply Hs.
  - intros t (tok' & s & H & Hne & _ & Hx). assert (tok' = tok) by congruence. subst tok'. apply Hs in Hx. discriminate.
Qed.
Lemma says_fun m t t' : says m t -> says m t' -> t = t'.
Proof.
  intros (k & s & H1 & _ & H2 & H3) (k' & s' & H1' & _ & H2' & H3'). assert (k' = k) by congruence. subst k'.
  assert (s' = s). { destruct H3 as [H3|(d & H3 & H4)], H3' as [H3'|(d' & H3' & H4')]; congruence. } subst s'.
  apply trimmed_iff in H2, H2'. congruence.
Qed.
Lemma ballot_votes refs l : ballot refs l <-> l = flat_map vote refs.
Proof.
  split.
  - induction 1 as [|m ms t l Hs _ IH|m ms l Hs _ IH]; [reflexivity|..]; cbn [flat_map]; pose proof (vote_spec m) as Hv.
    + destruct (vote m) as [|t' [|]]; [exfalso; eapply Hv; exact Hs| |contradiction]. rewrite (says_fun _ _ _ Hs Hv). cbn. now rewrite IH.
    + destruct (vote m) as [|t' [|]]; [exact IH|exfalso; eapply Hs; exact Hv|contradiction].
  - intros ->. induction refs as [|m ms IH]; [constructor|]. cbn [flat_map]. pose proof (vote_spec m) as Hv.
    destruct (vote m) as [|t' [|]]; [now constructor|now constructor|contradiction].
Qed.
Lemma ballot_perm refs refs' l : Permutation refs refs' -> ballot refs l -> exists l', ballot refs' l' /\ Permutation l l'.
Proof.
  intros Hp Hb. apply ballot_votes in Hb as ->. exists (flat_map vote refs'). split; [now apply ballot_votes|]. now apply Permutation_flat_map.
Qed.
End VoteProofs.

(** ** Files *)
Lemma copy_existing_get {C} (from : dict string C) names : forall out name,
  dget (copy_existing from names out) name = first_with [only names from; out] name.
Proof.
  unfold copy_existing. assert (Ho : forall names name, dget (only names from) name = if mem name names then dget from name else None).
  { intros ns name. unfold only. induction from as [|[k c] from IH]; [destruct (mem name ns); reflexivity|]. cbn [filter fst].
    destruct (mem k ns) eqn:Hk; cbn [dget]; destruct (eqb_spec name k) as [->|Hn]; rewrite ?IH, ?Hk; reflexivity. }
  assert (Hm : forall n ns name, mem name (n :: ns) = eqb name n || mem name ns) by reflexivity.
  induction names as [|n names IH]; intros out name; cbn [fold_left first_with]; [rewrite Ho; cbn; now destruct (dget out name)|].
  rewrite IH. cbn [first_with]. rewrite !Ho, Hm. destruct (eqb_spec name n) as [->|Hn]; cbn [orb].
  - destruct (dget from n) as [c|] eqn:Hc; [rewrite dget_dset_eq|]; destruct (mem n names); reflexivity.
  - destruct (mem name names); [destruct (dget from name)|]; try reflexivity; destruct (dget from n); rewrite ?dget_dset_neq by congruence; reflexivity.
Qed.
Lemma write_all_get {C} (files : dict string C) : NoDup (dkeys files) -> forall out name, dget (write_all files out) name = first_with [files; out] name.
Proof.
  unfold write_all. induction files as [|[k c] files IH]; intros HN out name; cbn [fold_left first_with]; [cbn; now destruct (dget out name)|].
  inversion HN as [|? ? Hk HN']; subst. rewrite IH by exact HN'. cbn [first_with fst snd dget]. destruct (eqb_spec name k) as [->|Hn].
  - apply dget_None in Hk. rewrite Hk. now rewrite dget_dset_eq.
  - rewrite dget_dset_neq by congruence. reflexivity.
Qed.
