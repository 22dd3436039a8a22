(** Facts about the name utilities and the filling loop. *)
From Verif.Base Require Import Py PyFacts PyStr.
From Verif.IO Require Import Model Spec WriterProofs FsProofs DirProofs RunProofs.
From Verif.FillMissing Require Import Model Spec.
Local Open Scope string_scope.
Local Open Scope list_scope.

Lemma drop_app a b : drop (String.length a) (a ++ b)%string = b.
Proof. induction a; cbn; auto. Qed.

Lemma prefix_app p : forall s, String.prefix p s = true <-> exists r, s = (p ++ r)%string.
Proof.
  induction p as [|c p IH]; intros s.
  - split; [intros _; exists s; reflexivity|destruct s; reflexivity].
  - destruct s as [|c' s]; [split; [discriminate|intros [r [=]]]|].
    cbn [String.prefix]. destruct (Ascii.ascii_dec c c') as [->|Hc].
    + rewrite IH. split; [intros [r ->]; exists r; reflexivity|]. intros [r [= ->]]. eauto.
    + split; [discriminate|]. intros [r [= <-]]. congruence.
Qed.

Lemma len_dot p : String.length (p ++ ".")%string = String.length p + 1.
Proof. rewrite len_app. reflexivity. Qed.

Lemma strip_under p m : strip_prefix (under p m) p = m.
Proof.
  unfold strip_prefix, under. destruct (eqb_spec p "") as [->|Hp]; [reflexivity|]. cbn [negb andb].
  replace (p ++ "." ++ m)%string with ((p ++ ".") ++ m)%string by apply app_str_assoc.
  replace (String.prefix _ _) with true by (symmetry; apply prefix_app; eauto).
  rewrite <- len_dot. apply drop_app.
Qed.

Lemma strip_cases p n : (n = under p (strip_prefix n p)) \/
  (strip_prefix n p = n /\ p <> "" /\ forall r, n <> (p ++ "." ++ r)%string).
Proof.
  unfold strip_prefix, under. destruct (eqb_spec p "") as [->|Hp]; [now left|]. cbn [negb andb].
  destruct (String.prefix (p ++ ".") n) eqn:E.
  - left. apply prefix_app in E as [r ->]. rewrite <- len_dot, drop_app. apply app_str_assoc.
  - right. split; [reflexivity|]. split; [exact Hp|]. intros r ->.
    rewrite <- app_str_assoc in E. assert (String.prefix (p ++ ".") ((p ++ ".") ++ r) = true) by (apply prefix_app; eauto). congruence.
Qed.

Lemma stripped_In base p m : In m (map (fun i => strip_prefix i p) base) <-> reached base p m.
Proof.
  rewrite in_map_iff. unfold reached. split.
  - intros (n & <- & Hn). destruct (strip_cases p n) as [E|(E & Hp & Hr)]; [left; now rewrite <- E|].
    right. rewrite E. split; [exact Hn|]. intros r _. apply Hr.
  - intros [H|[H Hr]].
    + exists (under p m). split; [apply strip_under|exact H].
    + exists m. split; [|exact H]. destruct (strip_cases p m) as [E|(E & _)]; [|exact E].
      unfold under in E. destruct (eqb_spec p "") as [->|Hp]; [exact (eq_sym E)|].
      exfalso. exact (Hr _ Hp E).
Qed.

Lemma matches_spec base sub p l : reached_names base sub p l -> length l = matches base sub p.
Proof.
  intros (q & Hq & ->). unfold matches. f_equal. apply filter_ext. intros m.
  destruct (mem m _) eqn:E.
  - apply mem_In, stripped_In in E. now apply Hq.
  - apply mem_nIn in E. rewrite stripped_In in E. destruct (q m) eqn:Eq; [|reflexivity]. destruct E. now apply Hq.
Qed.
Lemma reached_names_ex base sub p : exists l, reached_names base sub p l.
Proof.
  eexists. exists (fun m => mem m (map (fun i => strip_prefix i p) base)). split; [|reflexivity].
  intros m. rewrite mem_In. apply stripped_In.
Qed.

Lemma argmax_spec f : forall l best, (In (argmax f best l) (best :: l)) /\ forall x, In x (best :: l) -> f x <= f (argmax f best l).
Proof.
  induction l as [|y l IH]; intros best; cbn [argmax].
  - split; [now left|]. intros x [<-|[]]. reflexivity.
  - destruct (Nat.ltb_spec (f best) (f y)) as [H|H].
    + destruct (IH y) as [H1 H2]. split; [now right|]. intros x [<-|Hx]; [|auto]. pose proof (H2 y (or_introl eq_refl)). lia.
    + destruct (IH best) as [H1 H2]. split; [destruct H1; [now left|right; now right]|].
      intros x [<-|[<-|Hx]]; [apply H2; now left| |apply H2; now right]. pose proof (H2 best (or_introl eq_refl)). lia.
Qed.

Lemma find_prefix_spec order list1 list2 p : find_prefix order list1 list2 = Ok p ->
  (forall q, q = "" \/ In q order -> matches list1 list2 q <= matches list1 list2 p) /\
  (p = "" \/ (In p order /\ matches list1 list2 "" < matches list1 list2 p)).
Proof.
  unfold find_prefix. destruct (_ <? _)%nat; [discriminate|]. intros E.
  match type of E with Ok (if (?a <? ?f ?b)%nat then _ else _) = _ => set (best := b) in *; pose proof (argmax_spec f (tl (dedup ("" :: order))) "") as [H1 H2] end.
  fold best in H1, H2.
  assert (Hin : forall q, In q ("" :: tl (dedup ("" :: order))) <-> q = "" \/ In q order).
  { intros q. assert (Hd : "" :: tl (dedup ("" :: order)) = dedup ("" :: order)).
    { unfold dedup. cbn [dedup_acc]. 
      assert (H : forall l (a : list string), exists r, dedup_acc a l = a ++ r).
      { clear. induction l as [|x l IH]; intros a; cbn [dedup_acc]; [exists []; now rewrite app_nil_r|].
        unfold set_add at 1. destruct (mem x a); [apply IH|]. destruct (IH (a ++ [x])) as [r ->]. exists (x :: r). now rewrite <- app_assoc. }
      change (set_add "" []) with [""]. destruct (H order [""]) as [r ->]. reflexivity. }
    rewrite Hd, dedup_In. cbn. intuition. }
  destruct (Nat.ltb_spec (matches list1 list2 "") (matches list1 list2 best)) as [Hlt|Hge]; injection E as <-.
  - split; [intros q Hq; apply H2, Hin; exact Hq|]. right. split; [|exact Hlt].
    apply Hin in H1 as [->|H1]; [lia|exact H1].
  - split; [|now left]. intros q Hq. apply Hin, H2 in Hq. lia.
Qed.

(** ** Filling *)
Section F.
Context {T : Type} (nbytes : T -> nat).
Implicit Types (f base sub out : fs T).

Lemma load_value f ix n t : load_tensor f ix n = Ok t <-> value f ix n t.
Proof.
  unfold load_tensor, value, dgetE. split.
  - intros E. destruct (dget (ix_paths ix) n) as [file|]; [|discriminate]. cbn [rbind] in E.
    destruct (dget f file) as [[[] d| | |]|] eqn:Ef; try discriminate. destruct (dget d n) eqn:Ed; [|discriminate].
    injection E as <-. exists file, d. auto.
  - intros (file & d & -> & Ef & Ed). cbn [rbind]. now rewrite Ef, Ed.
Qed.

Lemma load_readable f ix n : readable f ix -> In n (dkeys (ix_paths ix)) -> exists t, load_tensor f ix n = Ok t.
Proof.
  intros Hr Hn. apply dget_Some_key in Hn as [file Hf]. destruct (Hr _ _ Hf) as (d & t & Hd & Ht). exists t.
  apply load_value. exists file, d. auto.
Qed.

Lemma common_In (base sub : list string) p n :
  In n (common_names base sub p) <-> In n base /\ exists m, In m sub /\ n = under p m.
Proof.
  unfold common_names. rewrite filter_In, mem_In, in_map_iff. unfold under. destruct (eqb p "") eqn:E.
  - split; intros [H (m & H1 & H2)]; (split; [exact H|]); exists m; [cbn in H1|]; auto.
  - split; intros [H (m & H1 & H2)]; (split; [exact H|]); exists m; rewrite app_str_assoc in *; auto.
Qed.

Lemma under_inj p a b : under p a = under p b -> a = b.
Proof. intros E. rewrite <- (strip_under p a), E. apply strip_under. Qed.

Lemma filled_spec base sub bix six p saves : filled base sub bix six p = Ok saves ->
  map fst saves = dkeys (ix_paths bix) /\ forall n t, In (n, t) saves -> filled_value base sub bix six p n t.
Proof.
  unfold filled. set (common := common_names _ _ p). intros E. apply rmapM_Ok_Forall2 in E.
  assert (Hs : forall n nt, (let! t := load_tensor base bix n in
      if mem n common then let! t0 := load_tensor sub six (strip_prefix n p) in Ok (n, t0) else Ok (n, t)) = Ok nt ->
      In n (dkeys (ix_paths bix)) -> fst nt = n /\ filled_value base sub bix six p n (snd nt)).
  { intros n nt Ent Hn. destruct (load_tensor base bix n) as [t|] eqn:Eb; [|discriminate]. cbn [rbind] in Ent.
    destruct (mem n common) eqn:Em.
    - apply mem_In, common_In in Em as (_ & m & Hm & ->). rewrite strip_under in Ent.
      destruct (load_tensor sub six m) as [t0|] eqn:Es; [|discriminate]. cbn [rbind] in Ent. injection Ent as <-.
      split; [reflexivity|]. left. exists m. split; [exact Hm|]. split; [reflexivity|]. now apply load_value.
    - injection Ent as <-. split; [reflexivity|]. right. split; [|now apply load_value].
      intros m Hm ->. apply mem_nIn in Em. apply Em, common_In. eauto. }
  assert (Hall : forall l, Forall2 (fun n nt => (let! t := load_tensor base bix n in
      if mem n common then let! t0 := load_tensor sub six (strip_prefix n p) in Ok (n, t0) else Ok (n, t)) = Ok nt) l saves ->
      incl l (dkeys (ix_paths bix)) -> map fst saves = l /\ forall n t, In (n, t) saves -> filled_value base sub bix six p n t).
  { clear E. intros l HF. induction HF as [|n nt l saves Hnt _ IH]; intros Hi; [split; [reflexivity|intros ? ? []]|].
    destruct (Hs n nt Hnt (Hi n (or_introl eq_refl))) as [H1 H2]. destruct IH as [I1 I2]; [intros x Hx; apply Hi; now right|].
    split; [cbn; congruence|]. intros n' t [->|Hin]; [|auto]. cbn in H1, H2. now subst. }
  apply Hall; [exact E|apply incl_refl].
Qed.

Lemma filled_total base sub bix six p : readable base bix -> readable sub six ->
  exists saves, filled base sub bix six p = Ok saves.
Proof.
  intros Hb Hsb. unfold filled. set (common := common_names _ _ p).
  assert (H : forall l, incl l (dkeys (ix_paths bix)) -> exists saves, rmapM (fun name => let! t := load_tensor base bix name in
      if mem name common then let! t0 := load_tensor sub six (strip_prefix name p) in Ok (name, t0) else Ok (name, t)) l = Ok saves).
  { induction l as [|n l IH]; intros Hi; [exists []; reflexivity|].
    destruct IH as [saves IH]; [intros x Hx; apply Hi; now right|].
    destruct (load_readable base bix n Hb (Hi n (or_introl eq_refl))) as [t Ht]. cbn [rmapM]. rewrite Ht. cbn [rbind].
    destruct (mem n common) eqn:Em.
    - apply mem_In, common_In in Em as (_ & m & Hm & ->). rewrite strip_under.
      destruct (load_readable sub six m Hsb Hm) as [t0 Ht0]. rewrite Ht0. cbn [rbind]. rewrite IH. cbn [rbind]. eauto.
    - rewrite IH. cbn [rbind]. eauto. }
  apply H, incl_refl.
Qed.

(** ** the copied files *)
Lemma copy_weight n : forall base out, is_weight_file n = true -> dget (copy_files base out) n = dget out n.
Proof.
  induction base as [|[k c] base IH]; intros out Hw; [reflexivity|]. unfold copy_files. cbn [fold_left fst snd].
  change (dget (copy_files base (if is_weight_file k then out else dset out k c)) n = dget out n). rewrite IH by exact Hw.
  destruct (is_weight_file k) eqn:E; [reflexivity|]. apply dget_dset_neq. congruence.
Qed.
Lemma copy_other n : forall base out, is_weight_file n = false -> NoDup (dkeys base) ->
  dget (copy_files base out) n = match dget base n with Some c => Some c | None => dget out n end.
Proof.
  induction base as [|[k c] base IH]; intros out Hw Hnd; [reflexivity|]. unfold copy_files. cbn [fold_left fst snd].
  rewrite dkeys_cons in Hnd. inversion Hnd as [|? ? Hni Hnd']; subst.
  change (dget (copy_files base (if is_weight_file k then out else dset out k c)) n =
    match dget ((k, c) :: base) n with Some c => Some c | None => dget out n end). rewrite IH by assumption.
  cbn [dget]. destruct (eqb_spec n k) as [->|Hk].
  - apply dget_None in Hni. rewrite Hni, Hw. apply dget_dset_eq.
  - destruct (dget base n); [reflexivity|]. destruct (is_weight_file k); [reflexivity|]. apply dget_dset_neq. congruence.
Qed.

(** ** one shard or several *)
Lemma bytes_app (a b : list (string * T)) : bytes nbytes (a ++ b) = bytes nbytes a + bytes nbytes b.
Proof. induction a as [|x a IH]; cbn; [reflexivity|]. unfold bytes in *. lia. Qed.

Lemma jobs_len safe max saves w jobs G : packed nbytes safe max saves w jobs G -> length jobs = length G.
Proof. intros Hp. rewrite (pk_jobs _ _ _ _ _ _ _ Hp). clear. generalize 0. induction G; cbn; auto. Qed.

Lemma single_job safe max saves w jobs : save_all nbytes (new_writer safe None max) saves = (w, jobs) -> saves <> [] ->
  (max <= 0 \/ Z.of_nat (bytes nbytes saves) <= max)%Z -> length jobs = 1.
Proof.
  intros Es Hs Hm. destruct (pack nbytes _ _ _ _ _ Es) as [G Hp]. rewrite (jobs_len _ _ _ _ _ _ Hp).
  pose proof (packed_nonempty nbytes _ _ _ _ _ _ Hp Hs) as Hne. pose proof (pk_concat _ _ _ _ _ _ _ Hp) as Hc.
  destruct (Z_le_gt_dec max 0) as [Hz|Hz].
  { pose proof (pk_single _ _ _ _ _ _ _ Hp Hz). destruct G; [congruence|cbn in *; lia]. }
  destruct Hm as [|Hm]; [lia|]. destruct (pk_greedy _ _ _ _ _ _ _ Hp Hz) as [_ Hg].
  destruct G as [|g1 [|g2 G]]; [congruence|reflexivity|]. exfalso.
  destruct (Hg [] g1 g2 G eq_refl) as (x & g2' & -> & Hx). rewrite <- Hc in Hm. cbn [concat] in Hm. rewrite !bytes_app in Hm.
  cbn [bytes fold_right] in Hm. unfold bytes in *. lia.
Qed.

Lemma several_jobs safe max saves w jobs : save_all nbytes (new_writer safe None max) saves = (w, jobs) ->
  2 <= length saves -> (0 < max < Z.of_nat (bytes nbytes saves))%Z -> length jobs <> 1.
Proof.
  intros Es Hs Hm Hl. destruct (pack nbytes _ _ _ _ _ Es) as [G Hp]. rewrite (jobs_len _ _ _ _ _ _ Hp) in Hl.
  pose proof (pk_concat _ _ _ _ _ _ _ Hp) as Hc. destruct (pk_greedy _ _ _ _ _ _ _ Hp ltac:(lia)) as [Hg _].
  destruct G as [|g [|? ?]]; try discriminate. cbn in Hc. rewrite app_nil_r in Hc. subst g.
  destruct (Hg saves (or_introl eq_refl)) as [_ [?|?]]; lia.
Qed.
End F.
