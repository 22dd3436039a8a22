From Coq Require Import Permutation Sorting.Sorted.
From Verif.Base Require Import Py PyFacts PyStr.
From Verif.Arch Require Import Conversion.
Local Open Scope string_scope.
Local Open Scope list_scope.

(** ** Natural order: keys flattened to lists of numbers, in the lexicographic order *)
Fixpoint lex_lt (a b : list Z) : bool :=
  match a, b with
  | _, [] => false
  | [], _ :: _ => true
  | x :: a, y :: b => if (x =? y)%Z then lex_lt a b else (x <? y)%Z
  end.
Lemma lex_irrefl a : lex_lt a a = false.
Proof. induction a as [|x a IH]; cbn; [reflexivity|]. now rewrite Z.eqb_refl. Qed.
Lemma lex_trans a : forall b c, lex_lt a b = true -> lex_lt b c = true -> lex_lt a c = true.
Proof.
  induction a as [|x a IH]; intros [|y b] [|z c]; cbn; try easy.
  destruct (Z.eqb_spec x y) as [->|Hxy], (Z.eqb_spec y z) as [->|Hyz]; intros H1 H2.
  - eauto.
  - exact H2.
  - destruct (Z.eqb_spec x z); [contradiction|easy].
  - apply Z.ltb_lt in H1, H2. destruct (Z.eqb_spec x z); [lia|]. apply Z.ltb_lt. lia.
Qed.
Lemma lex_asym a b : lex_lt a b = true -> lex_lt b a = false.
Proof. intros H. destruct (lex_lt b a) eqn:E; [|reflexivity]. pose proof (lex_trans _ _ _ H E). now rewrite lex_irrefl in *. Qed.
Lemma lex_total a : forall b, lex_lt a b = false -> lex_lt b a = false -> a = b.
Proof.
  induction a as [|x a IH]; intros [|y b]; cbn; try easy. rewrite (Z.eqb_sym y x). destruct (Z.eqb_spec x y) as [->|Hn].
  - intros. f_equal. auto.
  - intros H1 H2. apply Z.ltb_ge in H1, H2. lia.
Qed.
Lemma lex_le_trans a b c : lex_lt b a = false -> lex_lt c b = false -> lex_lt c a = false.
Proof.
  intros H1 H2. destruct (lex_lt c a) eqn:E; [|reflexivity]. destruct (lex_lt a b) eqn:E1.
  - pose proof (lex_trans _ _ _ E E1). congruence.
  - pose proof (lex_total _ _ E1 H1). subst. congruence.
Qed.

Fixpoint enc_text (s : string) : list Z := match s with "" => [0%Z] | String c s => (Z.of_nat (nat_of_ascii c) + 1)%Z :: enc_text s end.
Fixpoint enc (l : list part) : list Z :=
  match l with [] => [] | PText s :: l => enc_text s ++ enc l | PNum d :: l => digits_value 0 d :: enc l end.

Fixpoint wt (l : list part) : Prop := match l with PText _ :: PNum _ :: l' => wt l' | [PText _] => True | _ => False end.
Lemma wt_split s : wt (split_numbers s).
Proof.
  induction s as [|c s IH]; cbn [split_numbers]; [exact Logic.I|].
  destruct (split_numbers s) as [|[t|d] l]; [easy| |easy]. destruct (is_digit c).
  - destruct t as [|x t]; [destruct l as [|[?|?] l]|]; cbn in *; auto.
  - destruct l as [|[?|?] l]; cbn in *; auto.
Qed.

Lemma ascii_code_inj x y : nat_of_ascii x = nat_of_ascii y -> x = y.
Proof. intros E. rewrite <- (ascii_nat_embedding x), <- (ascii_nat_embedding y). now rewrite E. Qed.
Lemma enc_text_lt x : forall y a b, lex_lt (enc_text x ++ a) (enc_text y ++ b) = if eqb x y then lex_lt a b else str_lt x y.
Proof.
  induction x as [|c x IH]; intros [|c' y] a b; cbn [enc_text app lex_lt].
  - rewrite eqb_refl. cbn. reflexivity.
  - destruct (eqb_spec "" (String c' y)); [discriminate|]. destruct (Z.eqb_spec 0 (Z.of_nat (nat_of_ascii c') + 1)); [lia|].
    cbn [str_lt]. apply Z.ltb_lt. lia.
  - destruct (eqb_spec (String c x) ""); [discriminate|]. destruct (Z.eqb_spec (Z.of_nat (nat_of_ascii c) + 1) 0); [lia|].
    cbn [str_lt]. apply Z.ltb_ge. lia.
  - cbn [str_lt]. destruct (Z.eqb_spec (Z.of_nat (nat_of_ascii c) + 1) (Z.of_nat (nat_of_ascii c') + 1)) as [E|E].
    + assert (c = c') by (apply ascii_code_inj; lia). subst c'. rewrite IH, Ascii.eqb_refl. cbn [andb].
      replace (nat_of_ascii c <? nat_of_ascii c)%nat with false by (symmetry; apply Nat.ltb_irrefl).
      destruct (eqb_spec x y) as [->|Hn]; [now rewrite eqb_refl|]. destruct (eqb_spec (String c x) (String c y)); [congruence|reflexivity].
    + destruct (eqb_spec (String c x) (String c' y)) as [E'|_]; [congruence|].
      destruct (Ascii.eqb_spec c c') as [->|_]; [congruence|]. cbn [andb]. rewrite orb_false_r.
      destruct (Nat.ltb_spec (nat_of_ascii c) (nat_of_ascii c')); [apply Z.ltb_lt|apply Z.ltb_ge]; lia.
Qed.

Lemma key_lt_lex n : forall a b, (length a <= n)%nat -> wt a -> wt b -> key_lt a b = Ok (lex_lt (enc a) (enc b)).
Proof.
  induction n as [|n IH]; intros a b Hl Ha Hb; [destruct a; [easy|cbn in Hl; lia]|].
  destruct a as [|[x|] a]; try easy. destruct b as [|[y|] b]; try easy. cbn [key_lt enc]. rewrite enc_text_lt.
  destruct (eqb_spec x y) as [->|]; [|reflexivity].
  destruct a as [|[?|d] a]; [|easy|]; (destruct b as [|[?|d'] b]; [|easy|]); cbn [key_lt enc lex_lt]; try reflexivity.
  destruct (Z.eqb_spec (digits_value 0 d) (digits_value 0 d')); [|reflexivity]. apply IH; cbn in *; auto; lia.
Qed.
Definition code (s : string) : list Z := enc (split_numbers s).
Lemma natural_lt_ok a b : natural_lt a b = Ok (lex_lt (code a) (code b)).
Proof. unfold natural_lt. eapply key_lt_lex; [reflexivity|apply wt_split..]. Qed.

(** ** Sorting *)
Definition no_later (a b : string) : Prop := lex_lt (code b) (code a) = false.
Lemma insert_ok x l : StronglySorted no_later l ->
  exists r, insert x l = Ok r /\ Permutation r (x :: l) /\ StronglySorted no_later r.
Proof.
  induction 1 as [|y l Hs IH Hy]; cbn [insert].
  - exists [x]. repeat split; [reflexivity|repeat constructor].
  - rewrite natural_lt_ok. cbn [rbind]. destruct (lex_lt (code x) (code y)) eqn:E.
    + exists (x :: y :: l). repeat split; [reflexivity|]. constructor; [now constructor|]. apply lex_asym in E.
      constructor; [exact E|]. rewrite Forall_forall in *. intros z Hz. eapply lex_le_trans; [exact E|now apply Hy].
    + destruct IH as (r & -> & Hp & Hr). cbn [rbind]. exists (y :: r). split; [reflexivity|]. split.
      * rewrite Hp. constructor.
      * constructor; [exact Hr|]. eapply Permutation_Forall; [symmetry; exact Hp|]. now constructor.
Qed.
Lemma sorted_ok l : forall acc, StronglySorted no_later acc ->
  exists r, natural_sorted acc l = Ok r /\ Permutation r (acc ++ l) /\ StronglySorted no_later r.
Proof.
  induction l as [|x l IH]; intros acc Ha; cbn [natural_sorted].
  - exists acc. rewrite app_nil_r. auto.
  - destruct (insert_ok x acc Ha) as (a & -> & Hp & Hs). cbn [rbind]. destruct (IH a Hs) as (r & -> & Hp' & Hs').
    exists r. split; [reflexivity|]. split; [|exact Hs']. rewrite Hp', Hp. cbn. apply Permutation_middle.
Qed.

(** ** Numbered names *)
Definition starts_plain (r : string) : Prop := match r with "" => True | String c _ => is_digit c = false end.
Lemma split_digits d : forall r, d <> "" -> all_chars is_digit d = true -> starts_plain r ->
  split_numbers (d ++ r)%string = PText "" :: PNum d :: split_numbers r.
Proof.
  induction d as [|c d IH]; intros r Hd Hc Hr; [easy|]. cbn [all_chars] in Hc. apply andb_true_iff in Hc as [Hc Hd'].
  cbn [String.append split_numbers]. destruct d as [|c' d].
  - cbn [String.append]. pose proof (wt_split r) as Hw. destruct (split_numbers r) as [|[t|?] l] eqn:E; try easy. rewrite Hc.
    destruct t as [|x t]; [|reflexivity]. destruct l as [|[?|d'] l]; try reflexivity. exfalso. clear Hw.
    destruct r as [|x r]; [discriminate|]. cbn in Hr, E. rewrite Hr in E. destruct (split_numbers r) as [|[?|?] ?]; discriminate.
  - rewrite IH by easy. rewrite Hc. reflexivity.
Qed.
Lemma split_numbered p : exists A t, t <> "" /\ forall d r, d <> "" -> all_chars is_digit d = true -> starts_plain r ->
  split_numbers (p ++ "." ++ d ++ r)%string = A ++ PText t :: PNum d :: split_numbers r.
Proof.
  induction p as [|c p (A & t & Ht & IH)].
  - exists [], ".". split; [easy|]. intros d r Hd Hc Hr. cbn [String.append split_numbers]. rewrite split_digits by easy. reflexivity.
  - destruct A as [|a A]; [|destruct a as [t'|d']].
    + destruct (is_digit c) eqn:Hc.
      * exists [PText ""; PNum (String c "")], t. split; [easy|]. intros d r Hd Hd' Hr. cbn [String.append split_numbers].
        specialize (IH d r Hd Hd' Hr). cbn [String.append] in IH. rewrite IH. cbn [app]. rewrite Hc. now destruct t.
      * exists [], (String c t). split; [easy|]. intros d r Hd Hd' Hr. cbn [String.append split_numbers].
        specialize (IH d r Hd Hd' Hr). cbn [String.append] in IH. rewrite IH. cbn [app]. now rewrite Hc.
    + destruct (is_digit c) eqn:Hc.
      * exists (match t', A with EmptyString, PNum d' :: A' => PText "" :: PNum (String c d') :: A' | _, _ => PText "" :: PNum (String c "") :: PText t' :: A end), t.
        split; [easy|]. intros d r Hd Hd' Hr. cbn [String.append split_numbers].
        specialize (IH d r Hd Hd' Hr). cbn [String.append] in IH. rewrite IH. cbn [app]. rewrite Hc.
        destruct t' as [|x t']; [destruct A as [|[?|?] A]|]; reflexivity.
      * exists (PText (String c t') :: A), t. split; [easy|]. intros d r Hd Hd' Hr. cbn [String.append split_numbers].
        specialize (IH d r Hd Hd' Hr). cbn [String.append] in IH. rewrite IH. cbn [app]. now rewrite Hc.
    + exists (PNum d' :: A), t. split; [easy|]. intros d r Hd Hd' Hr. cbn [String.append split_numbers].
      specialize (IH d r Hd Hd' Hr). cbn [String.append] in IH. rewrite IH. reflexivity.
Qed.
Lemma enc_app a b : enc (a ++ b) = enc a ++ enc b.
Proof. induction a as [|[s|d] a IH]; cbn [enc app]; [reflexivity| |]; rewrite IH; [now rewrite app_assoc|reflexivity]. Qed.
Lemma lex_app a x y b : lex_lt (a ++ x :: b) (a ++ y :: b) = (x <? y)%Z.
Proof.
  induction a as [|z a IH]; cbn [app lex_lt]; [|now rewrite Z.eqb_refl].
  destruct (Z.eqb_spec x y) as [->|]; [|reflexivity]. rewrite lex_irrefl. symmetry. apply Z.ltb_irrefl.
Qed.
Definition numbered (p r : string) (i : nat) : string := (p ++ "." ++ str_of_Z (Z.of_nat i) ++ r)%string.
Lemma numbered_order p r i j : starts_plain r -> lex_lt (code (numbered p r i)) (code (numbered p r j)) = (i <? j)%nat.
Proof.
  intros Hr. unfold code, numbered. destruct (split_numbered p) as (A & t & Ht & H).
  rewrite !H by first [exact Hr|apply str_of_Z_nonempty|apply str_of_Z_digits; lia]. 
  change (A ++ PText t :: PNum (str_of_Z (Z.of_nat i)) :: split_numbers r) with (A ++ [PText t] ++ [PNum (str_of_Z (Z.of_nat i))] ++ split_numbers r).
  change (A ++ PText t :: PNum (str_of_Z (Z.of_nat j)) :: split_numbers r) with (A ++ [PText t] ++ [PNum (str_of_Z (Z.of_nat j))] ++ split_numbers r).
  rewrite !enc_app, !app_assoc. cbn [enc app]. rewrite <- !app_assoc. cbn [app]. rewrite !app_assoc.
  rewrite lex_app, !digits_value_str by lia. destruct (Nat.ltb_spec i j); [apply Z.ltb_lt|apply Z.ltb_ge]; lia.
Qed.
Lemma numbered_inj p r i j : numbered p r i = numbered p r j -> i = j.
Proof.
  unfold numbered. intros E. apply app_str_inj_l in E. cbn in E. injection E as E. apply app_str_inj_r in E. apply str_of_Z_inj in E. lia.
Qed.

(** a duplicate-free sorted list of exactly the first [n] is [0, ..., n-1] *)
Lemma sorted_seq (l : list nat) n : StronglySorted le l -> NoDup l -> (forall i, In i l <-> (i < n)%nat) -> l = seq 0 n.
Proof.
  intros Hs HN Hin. assert (Hst : StronglySorted lt l).
  { clear Hin. induction Hs as [|x l Hs IH Hx]; [constructor|]. inversion HN as [|? ? Hx' HN']; subst. constructor; [auto|].
    rewrite Forall_forall in *. intros y Hy. specialize (Hx y Hy). assert (y <> x) by (intros ->; contradiction). lia. }
  clear Hs HN. cut (forall k, (forall i, In i l <-> (k <= i < k + n)%nat) -> l = seq k n).
  { intros H. apply H. intros i. rewrite Hin. lia. }
  clear Hin. revert l Hst. induction n as [|n IH]; intros l Hst k Hin.
  - destruct l as [|x l]; [reflexivity|]. exfalso. assert (Hx : In x (x :: l)) by now left. apply Hin in Hx. lia.
  - destruct l as [|x l]; [exfalso; apply (Hin k); lia|]. inversion Hst as [|? ? Hs Hx]; subst. rewrite Forall_forall in Hx.
    assert (x = k).
    { assert (H1 : In x (x :: l)) by now left. apply Hin in H1. assert (H2 : In k (x :: l)) by (apply Hin; lia).
      destruct H2 as [->|H2]; [reflexivity|]. apply Hx in H2. lia. }
    subst. cbn [seq]. f_equal. apply (IH l Hs (S k)). intros i. split.
    + intros Hi. pose proof (Hx _ Hi). assert (H1 : In i (k :: l)) by now right. apply Hin in H1. lia.
    + intros Hi. assert (H1 : In i (k :: l)) by (apply Hin; lia). destruct H1; [lia|easy].
Qed.

(** ** Matches *)
From Verif.Arch Require Import ConversionSpec.

Lemma prefix_rest x : forall y k, (String.length y <= k)%nat -> String.prefix x y = true -> y = (x ++ substring (String.length x) k y)%string.
Proof.
  induction x as [|c x IH]; intros y k Hk Hp; cbn [String.length String.append].
  - revert k Hk. clear. induction y as [|c y IH]; intros [|k] Hk; cbn in *; try lia; try reflexivity. f_equal. apply IH. lia.
  - destruct y as [|z y]; [discriminate|]. cbn [String.prefix] in Hp. destruct (ascii_dec c z) as [->|]; [|discriminate]. f_equal.
    cbn [substring]. apply IH; [cbn in Hk; lia|exact Hp].
Qed.
Lemma partition_parts sep s : forall u v, partition_at sep s = Some (u, v) -> s = (u ++ sep ++ v)%string.
Proof.
  induction s as [|c s IH]; intros u v; cbn [partition_at].
  - destruct (String.prefix sep "") eqn:Hp; [|discriminate]. intros H. assert (u = "") by congruence. assert (Hv : v = substring (String.length sep) (String.length "") "") by congruence.
    subst. cbn [String.append]. now apply prefix_rest.
  - destruct (String.prefix sep (String c s)) eqn:Hp.
    + intros H. assert (u = "") by congruence. assert (Hv : v = substring (String.length sep) (String.length (String c s)) (String c s)) by congruence.
      subst. cbn [String.append]. now apply prefix_rest.
    + destruct (partition_at sep s) as [[a b]|] eqn:E'; [|discriminate]. intros H. assert (u = String c a) by congruence. assert (v = b) by congruence.
      subst. cbn [String.append]. f_equal. now apply IH.
Qed.
Lemma expanded_one t r : expanded r [t] = [r].
Proof. cbn. destruct (partition_at t r) as [[u v]|] eqn:E; [|reflexivity]. cbn. f_equal. symmetry. now apply partition_parts. Qed.

Section ConvertProofs.
Context {T : Type}.
Notation transform := (transform T).

Lemma sorted_keys (keys : list string) : exists r, natural_sorted [] keys = Ok r /\ Permutation r keys /\ StronglySorted no_later r.
Proof. destruct (sorted_ok keys [] (SSorted_nil _)) as (r & H). exists r. exact H. Qed.

Lemma matches_ok (tr : transform) keys : exists ms, matches tr keys = Ok ms.
Proof. unfold matches. destruct (sorted_keys keys) as (r & -> & _). cbn. eauto. Qed.
Lemma matches_In (tr : transform) keys ms m : matches tr keys = Ok ms -> In m ms <->
  In (tm_source m) keys /\ tr_rename tr (tm_source m) = (tm_renamed m, Some (tm_pattern m)) /\
  tm_wild m = wildcard_values (tm_pattern m) (tm_source m).
Proof.
  unfold matches. destruct (sorted_keys keys) as (r & -> & Hp & _). cbn [rbind]. intros H. assert (Hms : ms = _) by (symmetry; injection H as H; exact H).
  rewrite Hms. rewrite in_flat_map. split.
  - intros (k & Hk & Hm). destruct (tr_rename tr k) as [r' [p|]] eqn:E; [|easy]. destruct Hm as [<-|[]]. cbn.
    repeat split; [|exact E]. eapply Permutation_in; eauto.
  - intros (Hk & E & Hw). exists (tm_source m). split; [eapply Permutation_in; [symmetry; exact Hp|exact Hk]|]. rewrite E. left. destruct m; cbn in *; congruence.
Qed.

Lemma relevant_makes (tr : transform) target m : tr_renaming tr = false -> tr_rename tr (tm_source m) = (tm_renamed m, Some (tm_pattern m)) ->
  relevant tr target m = true <-> makes tr target (tm_source m) (tm_renamed m).
Proof.
  intros Hr E. unfold relevant, makes. rewrite mem_In, Hr. split; [eauto|]. now intros (p & _ & H).
Qed.

(** ** Keys of the available dictionary *)
Lemma dkeys_dset {V} (d : dict string V) k v : dkeys (dset d k v) = set_add k (dkeys d).
Proof.
  unfold set_add, dkeys. induction d as [|[k' v'] d IH]; [reflexivity|]. cbn [dset map fst mem]. destruct (eqb_spec k k') as [->|Hn]; [reflexivity|].
  cbn [map fst]. rewrite IH. destruct (mem k (map fst d)); reflexivity.
Qed.
Lemma dkeys_fold {V} (l : list (string * V)) : forall d, dkeys (fold_left (fun a kv => dset a (fst kv) (snd kv)) l d) =
  fold_left (fun a k => set_add k a) (map fst l) (dkeys d).
Proof. induction l as [|[k v] l IH]; intros d; [reflexivity|]. cbn [fold_left map fst snd]. now rewrite IH, dkeys_dset. Qed.
Lemma dkeys_dict_of {V} (l : list (string * V)) : dkeys (dict_of l) = dedup (map fst l).
Proof.
  unfold dict_of. rewrite dkeys_fold. unfold dedup. change (dkeys (@nil (string * V))) with (@nil string). generalize (@nil string).
  induction (map fst l) as [|x xs IH]; intros acc; [reflexivity|]. cbn. apply IH.
Qed.
Lemma set_add_present (x : string) l : In x l -> set_add x l = l.
Proof. intros H. unfold set_add. now rewrite (proj2 (mem_In x l) H). Qed.
Lemma fold_add_In l : forall acc (x : string), In x (fold_left (fun a k => set_add k a) l acc) <-> In x acc \/ In x l.
Proof. induction l as [|y l IH]; intros acc x; cbn; [tauto|]. rewrite IH, set_add_In. intuition. Qed.
Lemma fold_add_dedup_acc (l : list string) : forall acc base, fold_left (fun a k => set_add k a) (dedup_acc base l) acc =
  fold_left (fun a k => set_add k a) l (fold_left (fun a k => set_add k a) base acc).
Proof.
  induction l as [|x l IH]; intros acc base; cbn [dedup_acc fold_left]; [reflexivity|]. rewrite IH. f_equal.
  unfold set_add at 2. destruct (mem_spec x base) as [Hin|Hn].
  - symmetry. apply set_add_present. apply fold_add_In. now right.
  - rewrite fold_left_app. reflexivity.
Qed.
Lemma fold_add_dedup (l : list string) acc : fold_left (fun a k => set_add k a) (dedup l) acc = fold_left (fun a k => set_add k a) l acc.
Proof. unfold dedup. now rewrite fold_add_dedup_acc. Qed.

Lemma dget_fold {V} (l : list (string * V)) : forall d k v, dget (fold_left (fun a kv => dset a (fst kv) (snd kv)) l d) k = Some v ->
  dget d k = Some v \/ In (k, v) l.
Proof.
  induction l as [|[k' v'] l IH]; intros d k v; cbn [fold_left fst snd]; [auto|]. intros H. apply IH in H as [H|H]; [|right; now right].
  rewrite dget_dset in H. destruct (eqb_spec k k') as [->|]; [right; left; congruence|now left].
Qed.

Definition renamed_dict (avail : dict string (result T)) (ms : list tmatch) : dict string (result T) :=
  fold_left (fun a kv => dset a (fst kv) (snd kv)) (dict_of (map (fun m => (tm_renamed m, source_of avail (tm_source m))) ms)) avail.
Lemma renamed_keys avail ms : dkeys (renamed_dict avail ms) = fold_left (fun a k => set_add k a) (map tm_renamed ms) (dkeys avail).
Proof.
  unfold renamed_dict. rewrite dkeys_fold. change (map fst (dict_of ?l)) with (dkeys (dict_of l)). rewrite dkeys_dict_of, map_map. cbn [fst]. apply fold_add_dedup.
Qed.
Lemma dict_of_In' {V} (l : list (string * V)) k v : In (k, v) (dict_of l) -> In (k, v) l.
Proof.
  unfold dict_of. intros H. cut (forall d, In (k, v) (fold_left (fun d kv => dset d (fst kv) (snd kv)) l d) -> In (k, v) d \/ In (k, v) l).
  { intros Hc. destruct (Hc _ H); easy. }
  clear H. induction l as [|[k' v'] l IH]; intros d H; cbn in *; [auto|]. apply IH in H as [H|H]; [|auto].
  assert (Hd : forall d : dict string V, In (k, v) (dset d k' v') -> In (k, v) d \/ (k', v') = (k, v)).
  { clear. induction d as [|[a b] d IH]; cbn; [intuition|]. destruct (eqb_spec k' a) as [->|]; cbn; intuition. }
  apply Hd in H as [H|H]; auto.
Qed.
Lemma renamed_values avail ms k v : dget (renamed_dict avail ms) k = Some v ->
  dget avail k = Some v \/ exists m, In m ms /\ tm_renamed m = k /\ source_of avail (tm_source m) = v.
Proof.
  intros H. apply dget_fold in H as [H|H]; [auto|]. apply dict_of_In' in H. apply in_map_iff in H as (m & E & Hm). right. exists m. now injection E as -> ->.
Qed.

Definition loadable (avail : dict string (result T)) : Prop := forall k r, dget avail k = Some r -> exists t, r = Ok t.
Lemma source_loadable (avail : dict string (result T)) k : loadable avail -> In k (dkeys avail) -> exists t, source_of avail k = Ok t.
Proof. intros Hl Hk. apply dget_Some_key in Hk as (r & Hr). unfold source_of. rewrite Hr. eauto. Qed.
Lemma renamed_loadable (tr : transform) avail ms : loadable avail -> matches tr (dkeys avail) = Ok ms -> loadable (renamed_dict avail ms).
Proof.
  intros Hl Hms k r Hr. apply renamed_values in Hr as [Hr|(m & Hm & _ & <-)]; [eauto|]. eapply matches_In in Hm as (Hk & _); eauto. now apply source_loadable.
Qed.

Variable iter : list string -> list string.
Hypothesis Hiter : forall l, Permutation (iter l) l.
Lemma iter_nil : iter [] = [].
Proof. apply Permutation_nil. symmetry. apply Hiter. Qed.
Lemma iter_one x : iter [x] = [x].
Proof. apply Permutation_length_1_inv. symmetry. apply Hiter. Qed.

Lemma convert_step tr trs target avail ms : matches tr (dkeys avail) = Ok ms ->
  convert_from iter (tr :: trs) target avail =
  if tr_renaming tr then convert_from iter trs target (renamed_dict avail ms)
  else let! r := run_layers tr target (collected avail (filter (relevant tr target) ms)) (iter (dedup (map tm_renamed (filter (relevant tr target) ms)))) avail in
       match r with inl t => Ok (Some t) | inr avail' => convert_from iter trs target avail' end.
Proof. intros H. cbn [convert_from]. rewrite H. reflexivity. Qed.

Lemma no_relevant (tr : transform) target keys ms : tr_renaming tr = false -> matches tr keys = Ok ms -> ~ produces keys [] tr target -> filter (relevant tr target) ms = [].
Proof.
  intros Hr Hms Hno. destruct (filter (relevant tr target) ms) as [|m l] eqn:F; [reflexivity|]. exfalso. apply Hno.
  assert (Hm : In m (filter (relevant tr target) ms)) by (rewrite F; now left). apply filter_In in Hm as [Hm Hrel].
  eapply matches_In in Hm as (Hk & E & _); eauto. apply relevant_makes in Hrel; auto. exists (tm_source m), (tm_source m), (tm_renamed m).
  split; [exact Hk|]. split; [constructor|exact Hrel].
Qed.

(** what is made of the keys after a transform was made of the keys before it *)
Definition next_keys (tr : transform) (ms : list tmatch) (keys : list string) : list string :=
  fold_left (fun a k => set_add k a) (if tr_renaming tr then map tm_renamed ms else []) keys.
Lemma next_reach (tr : transform) keys ms s : matches tr keys = Ok ms -> In s (next_keys tr ms keys) -> 
  exists s0, In s0 keys /\ forall pre k, renames pre s k -> renames (tr :: pre) s0 k.
Proof.
  intros Hms Hs. unfold next_keys in Hs. apply fold_add_In in Hs as [Hs|Hs]; [exists s; split; [exact Hs|intros; now constructor]|].
  destruct (tr_renaming tr) eqn:Hr; [|easy]. apply in_map_iff in Hs as (m & <- & Hm). eapply matches_In in Hm as (Hk & E & _); eauto.
  exists (tm_source m). split; [exact Hk|]. intros pre k Hp. eapply renames_step; eauto.
Qed.
Lemma next_produces (tr : transform) keys ms pre tr' target : matches tr keys = Ok ms -> produces (next_keys tr ms keys) pre tr' target -> produces keys (tr :: pre) tr' target.
Proof.
  intros Hms (s & k & r & Hs & Hp & Hm). destruct (next_reach _ _ _ _ Hms Hs) as (s0 & Hs0 & H). exists s0, k, r. auto.
Qed.
Lemma next_unambiguous (tr : transform) trs keys ms target : matches tr keys = Ok ms -> unambiguous keys (tr :: trs) target -> unambiguous (next_keys tr ms keys) trs target.
Proof.
  intros Hms [H1 H2]. split.
  - intros pre tr0 post s k r s' k' r' -> Hr Hs Hp Hm Hs' Hp' Hm'. destruct (next_reach _ _ _ _ Hms Hs) as (s0 & Hs0 & H).
    destruct (next_reach _ _ _ _ Hms Hs') as (s1 & Hs1 & H'). exact (H1 (tr :: pre) tr0 post s0 k r s1 k' r' eq_refl Hr Hs0 (H _ _ Hp) Hm Hs1 (H' _ _ Hp') Hm').
  - intros pre tr0 mid tr' post -> Hp Hp'. apply (H2 (tr :: pre) tr0 mid tr' post eq_refl); eapply next_produces; eauto.
Qed.

(** once the target is available nothing takes it away *)
Lemma available_stays trs target : forall avail, loadable avail -> In target (dkeys avail) ->
  (forall pre tr post, trs = pre ++ tr :: post -> tr_renaming tr = false -> ~ produces (dkeys avail) pre tr target) ->
  exists t, convert_from iter trs target avail = Ok (Some t).
Proof.
  induction trs as [|tr trs IH]; intros avail Hl Hin Hno.
  - cbn. apply dget_Some_key in Hin as (r & Hr). rewrite Hr. destruct (Hl _ _ Hr) as (t & ->). cbn. eauto.
  - destruct (matches_ok tr (dkeys avail)) as (ms & Hms). rewrite (convert_step _ _ _ _ _ Hms). destruct (tr_renaming tr) eqn:Hr.
    + apply IH; [eapply renamed_loadable; eauto| |].
      * rewrite renamed_keys. apply fold_add_In. now left.
      * intros pre tr' post -> Hr' Hp. apply (Hno (tr :: pre) tr' post eq_refl Hr'). eapply next_produces; eauto. unfold next_keys. rewrite Hr. now rewrite <- renamed_keys.
    + erewrite no_relevant; eauto; [|exact (Hno [] tr trs eq_refl Hr)]. cbn. rewrite iter_nil. cbn. apply IH; auto.
      intros pre tr' post -> Hr' Hp. apply (Hno (tr :: pre) tr' post eq_refl Hr'). eapply next_produces; eauto. unfold next_keys. now rewrite Hr.
Qed.

(** ** Groups *)
Definition group_of (rel : list tmatch) : group := map (fun m => (tm_pattern m, tm_wild m)) rel.
Lemma values_In rel p v : In v (pattern_values rel p) <-> filled (group_of rel) p v.
Proof.
  unfold pattern_values, filled, group_of. rewrite dedup_In, in_flat_map, in_map_iff. split.
  - intros (m & Hm & H). destruct (eqb_spec (tm_pattern m) p) as [<-|]; [|easy]. destruct H as [<-|[]]. eauto.
  - intros (m & E & Hm). injection E as <- <-. exists m. split; [easy|]. rewrite eqb_refl. now left.
Qed.
Lemma complete_group_spec rel p : complete_group (pattern_values rel p) = true <-> complete_for (group_of rel) p.
Proof.
  pose proof (values_In rel p) as Hv. assert (HN : NoDup (pattern_values rel p)) by apply dedup_NoDup.
  destruct (pattern_values rel p) as [|v [|v' l]]; cbn [complete_group].
  - split; [discriminate|]. intros [H|(w & w' & _ & H & _)]; exfalso; [apply (Hv []), H; reflexivity|now apply Hv in H].
  - rewrite eqb_iff. split.
    + intros ->. left. intros w. rewrite <- Hv. cbn. intuition.
    + intros [H|(w & w' & Hd & H & H')].
      * assert (Hx : In v [v]) by now left. apply Hv, H in Hx. exact Hx.
      * apply Hv in H as [<-|[]]. apply Hv in H' as [<-|[]]. congruence.
  - split; [|reflexivity]. intros _. right. exists v, v'. inversion HN as [|? ? Hn _]; subst. split; [intros ->; apply Hn; now left|].
    split; apply Hv; [now left|right; now left].
Qed.
Lemma same_set_spec a b : same_set a b = true <-> forall v, In v a <-> In v b.
Proof.
  unfold same_set. rewrite andb_true_iff, !forallb_forall. split.
  - intros [H1 H2] v. split; intros H; [apply H1 in H|apply H2 in H]; now apply mem_In in H.
  - intros H. split; intros v Hv; apply mem_In; now apply H.
Qed.

Lemma can_step (tr : transform) trs target keys ms : matches tr keys = Ok ms ->
  can_convert_from (tr :: trs) target keys = 
  let additions := if tr_renaming tr then map tm_renamed ms else [] in
  let rel := if tr_renaming tr then [] else filter (relevant tr target) ms in
  let avail' := fold_left (fun a k => set_add k a) additions keys in
  if mem target avail' then Ok true
  else match rel with
           | [] => can_convert_from trs target avail'
           | m0 :: _ =>
               if forallb (fun p => negb (match pattern_values rel p with [] => true | _ => false end)) (tr_sources tr) then
                 match tr_sources tr with
                 | [] => Ok false
                 | p0 :: ps =>
                     if forallb (fun p => same_set (pattern_values rel p0) (pattern_values rel p)) ps
                     then Ok (complete_group (pattern_values rel p0)) else Ok false
                 end
               else match tr_sources tr with
                    | [_] => Ok (complete_group (pattern_values rel (tm_pattern m0)))
                    | _ => can_convert_from trs target avail'
                    end
           end.
Proof. intros H. cbn [can_convert_from]. rewrite H. reflexivity. Qed.

(** nothing can produce the target: the names say so *)
Lemma can_nothing (trs : list transform) target : forall keys, ~ In target keys ->
  (forall pre tr post, trs = pre ++ tr :: post -> ~ produces keys pre tr target) ->
  can_convert_from trs target keys = Ok false.
Proof.
  induction trs as [|tr trs IH]; intros keys Hk Hno; [reflexivity|]. destruct (matches_ok tr keys) as (ms & Hms).
  rewrite (can_step _ _ _ _ _ Hms). cbv zeta.
  assert (Hk' : ~ In target (next_keys tr ms keys)).
  { unfold next_keys. rewrite fold_add_In. intros [H|H]; [contradiction|]. destruct (tr_renaming tr) eqn:Hr; [|easy]. apply in_map_iff in H as (m & Em & Hm).
    apply (Hno [] tr trs eq_refl). eapply matches_In in Hm as (Hi & E & _); eauto. exists (tm_source m), (tm_source m), (tm_renamed m).
    split; [exact Hi|]. split; [constructor|]. exists (tm_pattern m). now rewrite Hr. }
  fold (next_keys tr ms keys). rewrite (proj2 (mem_nIn _ _) Hk').
  assert (HIH : can_convert_from trs target (next_keys tr ms keys) = Ok false).
  { apply IH; [exact Hk'|]. intros pre tr' post -> Hp. apply (Hno (tr :: pre) tr' post eq_refl). eapply next_produces; eauto. }
  destruct (tr_renaming tr) eqn:Hr; [exact HIH|]. erewrite no_relevant; eauto. exact (Hno [] tr trs eq_refl).
Qed.

Lemma group_complete (tr : transform) trs target keys ms m0 rel :
  matches tr keys = Ok ms -> tr_renaming tr = false -> ~ In target keys -> filter (relevant tr target) ms = m0 :: rel ->
  (forall pre tr' post, trs = pre ++ tr' :: post -> ~ produces keys pre tr' target) ->
  can_convert_from (tr :: trs) target keys = Ok true -> complete (tr_sources tr) (group_of (m0 :: rel)).
Proof.
  intros Hms Hr Hk F Hno. rewrite (can_step _ _ _ _ _ Hms). cbv zeta. rewrite Hr, F. cbn [fold_left]. rewrite (proj2 (mem_nIn _ _) Hk).
  destruct (forallb _ (tr_sources tr)) eqn:Hall.
  - destruct (tr_sources tr) as [|p0 ps] eqn:Hs; [discriminate|].
    destruct (forallb (fun p => same_set _ _) ps) eqn:Hsame; [|discriminate]. intros H. assert (Hc : complete_group (pattern_values (m0 :: rel) p0) = true) by congruence.
    left. exists p0. split; [now left|]. split; [now apply complete_group_spec|]. intros p [<-|Hp] v; [reflexivity|].
    rewrite forallb_forall in Hsame. specialize (Hsame p Hp). rewrite same_set_spec in Hsame. rewrite <- !values_In. symmetry. apply Hsame.
  - destruct (tr_sources tr) as [|p0 [|p1 ps]] eqn:Hs.
    + rewrite can_nothing by auto. discriminate.
    + intros H. assert (Hc : complete_group (pattern_values (m0 :: rel) (tm_pattern m0)) = true) by congruence.
      right. exists p0, (tm_pattern m0). split; [reflexivity|]. split; [|now apply complete_group_spec].
      cbn [forallb] in Hall. rewrite andb_true_r in Hall. apply negb_false_iff in Hall. intros (v & Hv). apply values_In in Hv.
      now destruct (pattern_values (m0 :: rel) p0).
    + rewrite can_nothing by auto. discriminate.
Qed.

Lemma dedup_const (l : list string) x y : (forall z, In z (y :: l) -> z = x) -> dedup (y :: l) = [x].
Proof.
  intros H. assert (y = x) by (apply H; now left). subst. unfold dedup. cbn [dedup_acc]. change (set_add x []) with [x].
  assert (Hl : forall z, In z l -> z = x) by (intros; apply H; now right). clear H. induction l as [|z l IH]; [reflexivity|]. cbn [dedup_acc].
  rewrite (Hl z) by now left. rewrite set_add_present by now left. apply IH. intros; apply Hl; now right.
Qed.
Lemma filter_true {A} (f : A -> bool) l : (forall x, In x l -> f x = true) -> filter f l = l.
Proof. induction l as [|x l IH]; intros H; [reflexivity|]. cbn. rewrite H by now left. f_equal. apply IH. intros; apply H; now right. Qed.

(** ** The names do not promise too much *)
Lemma can_convert_sound trs target : forall avail,
  loadable avail -> ~ In target (dkeys avail) -> (forall tr, In tr trs -> tr_renaming tr = false -> honours tr) -> unambiguous (dkeys avail) trs target ->
  can_convert_from trs target (dkeys avail) = Ok true -> exists t, convert_from iter trs target avail = Ok (Some t).
Proof.
  induction trs as [|tr trs IH]; intros avail Hl Hk Hh Hu Hcan; [discriminate|].
  assert (Hh' : forall tr', In tr' trs -> tr_renaming tr' = false -> honours tr') by (intros; apply Hh; auto; now right).
  destruct (matches_ok tr (dkeys avail)) as (ms & Hms). pose proof (next_unambiguous _ _ _ _ _ Hms Hu) as Hu'. destruct Hu as [Hu1 Hu2].
  rewrite (convert_step _ _ _ _ _ Hms). destruct (tr_renaming tr) eqn:Hr.
  - rewrite (can_step _ _ _ _ _ Hms) in Hcan. cbv zeta in Hcan. unfold next_keys in Hu'. rewrite Hr, <- renamed_keys in *.
    destruct (mem target (dkeys (renamed_dict avail ms))) eqn:Hm.
    + apply mem_In in Hm. apply available_stays; [eapply renamed_loadable; eauto|exact Hm|].
      intros pre tr' post -> Hr' Hp'. assert (Hp : produces (dkeys avail) [] tr target).
      { rewrite renamed_keys in Hm. apply fold_add_In in Hm as [Hm|Hm]; [contradiction|]. apply in_map_iff in Hm as (m & Em & Hm).
        eapply matches_In in Hm as (Hi & E & _); eauto. exists (tm_source m), (tm_source m), (tm_renamed m).
        split; [exact Hi|]. split; [constructor|]. exists (tm_pattern m). now rewrite Hr. }
      destruct (Hu2 [] tr pre tr' post eq_refl Hp) as [_ Hx]; [|congruence].
      eapply next_produces; eauto. unfold next_keys. rewrite Hr. now rewrite <- renamed_keys.
    + apply mem_nIn in Hm. apply IH; auto. eapply renamed_loadable; eauto.
  - destruct (filter (relevant tr target) ms) as [|m0 rel] eqn:F.
    + cbn. rewrite iter_nil. cbn. rewrite (can_step _ _ _ _ _ Hms) in Hcan. cbv zeta in Hcan. rewrite Hr, F in Hcan. cbn [fold_left] in Hcan.
      rewrite (proj2 (mem_nIn _ _) Hk) in Hcan. unfold next_keys in Hu'. rewrite Hr in Hu'. now apply IH.
    + assert (Hrel : forall m, In m (m0 :: rel) -> In (tm_source m) (dkeys avail) /\ tr_rename tr (tm_source m) = (tm_renamed m, Some (tm_pattern m)) /\
                  tm_wild m = wildcard_values (tm_pattern m) (tm_source m) /\ makes tr target (tm_source m) (tm_renamed m)).
      { intros m Hm. rewrite <- F in Hm. apply filter_In in Hm as [Hm Hre]. eapply matches_In in Hm as (H1 & H2 & H3); eauto.
        apply relevant_makes in Hre; auto. }
      assert (Hp : produces (dkeys avail) [] tr target).
      { exists (tm_source m0), (tm_source m0), (tm_renamed m0). destruct (Hrel m0 (or_introl eq_refl)) as (H1 & _ & _ & H4). split; [exact H1|]. split; [constructor|exact H4]. }
      assert (Hno : forall pre tr' post, trs = pre ++ tr' :: post -> ~ produces (dkeys avail) pre tr' target).
      { intros pre tr' post -> (s & k & r & Hs & Hpre & Hmk). destruct (Hu2 [] tr pre tr' post eq_refl Hp) as [Hx _]; [|congruence].
        exists s, k, r. split; [exact Hs|]. split; [now constructor|exact Hmk]. }
      assert (Hone : forall m, In m (m0 :: rel) -> tm_renamed m = tm_renamed m0).
      { intros m Hm. destruct (Hrel m Hm) as (A1 & _ & _ & A2). destruct (Hrel m0 (or_introl eq_refl)) as (B1 & _ & _ & B2).
        exact (Hu1 [] tr trs _ _ _ _ _ _ eq_refl Hr A1 (renames_done _) A2 B1 (renames_done _) B2). }
      pose proof (group_complete _ _ _ _ _ _ _ Hms Hr Hk F Hno Hcan) as Hg.
      assert (Hd : dedup (map tm_renamed (m0 :: rel)) = [tm_renamed m0]).
      { cbn [map]. apply dedup_const. intros z Hz. change (In z (map tm_renamed (m0 :: rel))) in Hz. apply in_map_iff in Hz as (m & <- & Hm). now apply Hone. }
      rewrite Hd, iter_one. cbn [run_layers].
      destruct (Hh tr (or_introl eq_refl) Hr (tm_renamed m0) (collected avail (m0 :: rel) (tm_renamed m0))) as (d & Ed & Ht).
      * unfold collected. cbn [filter]. rewrite eqb_refl. easy.
      * unfold collected. intros a Ha. apply in_map_iff in Ha as (m & <- & Hm). apply filter_In in Hm as [Hm _]. cbn [ad_value ad_key ad_pattern].
        destruct (Hrel m Hm) as (H1 & H2 & _). split; [now apply source_loadable|]. rewrite H2, (Hone m Hm). reflexivity.
      * unfold collected. rewrite filter_true by (intros m Hm; rewrite (Hone m Hm); apply eqb_refl). rewrite map_map. cbn [ad_pattern ad_key].
        erewrite map_ext_in; [exact Hg|]. intros m Hm. cbn beta. f_equal. symmetry. apply Hrel; exact Hm.
      * destruct (Ht target) as (v & Hv).
        { destruct (Hrel m0 (or_introl eq_refl)) as (_ & _ & _ & (p & _ & H)). now rewrite Hr in H. }
        rewrite Ed. cbn [rbind]. rewrite Hv. cbn [rbind]. eauto.
Qed.

(** ** Renaming only *)
Lemma renaming_from (trs : list transform) target : forall avail t, (forall tr, In tr trs -> tr_renaming tr = true) ->
  convert_from iter trs target avail = Ok (Some t) -> exists s, renames trs s target /\ dget avail s = Some (Ok t).
Proof.
  induction trs as [|tr trs IH]; intros avail t Hr H.
  - cbn in H. exists target. split; [constructor|]. destruct (dget avail target) as [[x|e]|]; cbn in H; congruence.
  - destruct (matches_ok tr (dkeys avail)) as (ms & Hms). rewrite (convert_step _ _ _ _ _ Hms), (Hr tr) in H by now left.
    apply IH in H as (s & Hs & Hd); [|intros; apply Hr; now right]. apply renamed_values in Hd as [Hd|(m & Hm & <- & Hv)].
    + exists s. split; [now constructor|exact Hd].
    + eapply matches_In in Hm as (Hk & E & _); eauto. exists (tm_source m). split; [eapply renames_step; eauto; apply Hr; now left|].
      unfold source_of in Hv. destruct (dget avail (tm_source m)); congruence.
Qed.
Lemma renaming_to (trs : list transform) target s : forall avail, (forall tr, In tr trs -> tr_renaming tr = true) -> loadable avail ->
  renames trs s target -> In s (dkeys avail) -> exists t, convert_from iter trs target avail = Ok (Some t).
Proof.
  intros avail Hr Hl Hs. revert avail Hr Hl. induction Hs as [s|tr trs s t Hs IH|tr trs s s' p t Hrt E Hs IH]; intros avail Hr Hl Hk.
  - apply available_stays; auto. intros pre ? ? Hx. now destruct pre.
  - destruct (matches_ok tr (dkeys avail)) as (ms & Hms). rewrite (convert_step _ _ _ _ _ Hms), (Hr tr) by now left.
    apply IH; [intros; apply Hr; now right|eapply renamed_loadable; eauto|]. rewrite renamed_keys. apply fold_add_In. now left.
  - destruct (matches_ok tr (dkeys avail)) as (ms & Hms). rewrite (convert_step _ _ _ _ _ Hms), (Hr tr) by now left.
    apply IH; [intros; apply Hr; now right|eapply renamed_loadable; eauto|]. rewrite renamed_keys. apply fold_add_In. right.
    apply in_map_iff. exists {| tm_source := s; tm_renamed := s'; tm_pattern := p; tm_wild := wildcard_values p s |}. split; [reflexivity|].
    eapply matches_In; eauto.
Qed.
End ConvertProofs.
