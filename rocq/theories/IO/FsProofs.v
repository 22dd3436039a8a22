(** File-system operations: what a sequence of writes and renames leaves in the directory. *)
From Verif.Base Require Import Py PyFacts PyStr.
From Verif.IO Require Import Model Spec.
Local Open Scope string_scope.
Local Open Scope list_scope.

Section Fs.
Context {T : Type}.
Implicit Types (f g : fs T) (o : op T) (q : list (op T)).

Lemma apply_all_app q1 q2 f : apply_all (q1 ++ q2) f = (let! f' := apply_all q1 f in apply_all q2 f').
Proof. revert f. induction q1 as [|o q1 IH]; intros f; cbn; [reflexivity|]. destruct (apply o f); cbn; auto. Qed.

(** ** writes *)
Definition is_write o : Prop := match o with ORename _ _ => False | _ => True end.
Definition target o : string := match o with OWrite n _ => n | OTouch n => n | ORename _ n => n end.
Definition eff (n : string) (acc : option (content T)) o : option (content T) :=
  match o with
  | OWrite m c => if eqb n m then Some c else acc
  | OTouch m => if eqb n m then Some FPartial else acc
  | ORename _ _ => acc
  end.

Lemma writes_effect q : forall f, Forall is_write q ->
  exists f', apply_all q f = Ok f' /\ forall n, dget f' n = fold_left (eff n) q (dget f n).
Proof.
  induction q as [|o q IH]; intros f Hw; [exists f; auto|]. inversion Hw as [|? ? Ho Hq]; subst.
  destruct o as [m c|m|a b]; cbn [apply_all apply rbind]; [| |destruct Ho].
  - destruct (IH (dset f m c) Hq) as (f' & E & Hg). exists f'. split; [exact E|]. intros n. rewrite Hg, dget_dset. reflexivity.
  - destruct (IH (dset f m FPartial) Hq) as (f' & E & Hg). exists f'. split; [exact E|]. intros n. rewrite Hg, dget_dset. reflexivity.
Qed.

Lemma eff_other q n : forall acc, (forall o, In o q -> target o <> n) -> fold_left (eff n) q acc = acc.
Proof.
  induction q as [|o q IH]; intros acc Hn; cbn; [reflexivity|]. rewrite IH; [|intros; apply Hn; now right].
  pose proof (Hn o (or_introl eq_refl)) as Ho. destruct o as [m c|m|a b]; cbn in *; auto; destruct (eqb_spec n m); congruence.
Qed.
Lemma eff_filter q n : forall acc, fold_left (eff n) q acc = fold_left (eff n) (filter (fun o => eqb (target o) n) q) acc.
Proof.
  induction q as [|o q IH]; intros acc; cbn; [reflexivity|]. destruct (eqb_spec (target o) n) as [E|E]; cbn; rewrite IH; [reflexivity|].
  f_equal. destruct o as [m c|m|a b]; cbn in *; auto; destruct (eqb_spec n m); congruence.
Qed.

(** ** interleavings *)
Lemma merged_filter {X} (p : X -> bool) (ls : list (list X)) (q : list X) : merged ls q -> merged (map (filter p) ls) (filter p q).
Proof.
  induction 1 as [ls Hf|l1 x xs l2 q Hm IH].
  - constructor. apply Forall_forall. intros l Hl. apply in_map_iff in Hl as (l0 & <- & Hl). rewrite Forall_forall in Hf.
    now rewrite (Hf l0 Hl).
  - rewrite map_app in *. cbn [map filter] in *. destruct (p x); [now constructor|exact IH].
Qed.
Definition nonempty {X} (l : list X) : bool := match l with [] => false | _ => true end.
Lemma merged_single {X} (ls : list (list X)) (q : list X) : merged ls q -> length (filter nonempty ls) <= 1 -> q = concat ls.
Proof.
  assert (Hnil : forall ls : list (list X), length (filter nonempty ls) = 0 -> concat ls = []).
  { intros ls'. induction ls' as [|[|x l] r IHr]; cbn; auto. discriminate. }
  induction 1 as [ls Hf|l1 x xs l2 q Hm IH]; intros Hl.
  - symmetry. apply Hnil. induction Hf as [|l ls -> Hf IH]; cbn in *; auto.
  - rewrite filter_app, app_length in Hl. cbn in Hl. rewrite concat_app. rewrite (Hnil l1) by lia. cbn.
    rewrite IH.
    + rewrite concat_app, (Hnil l1) by lia. reflexivity.
    + rewrite filter_app, app_length. cbn. destruct xs; cbn; lia.
Qed.
Lemma merged_In {X} (ls : list (list X)) (q : list X) x : merged ls q -> In x q -> exists l, In l ls /\ In x l.
Proof.
  induction 1 as [ls Hf|l1 y xs l2 q Hm IH]; [intros []|]. intros [<- | Hx].
  - exists (y :: xs). split; [apply in_elt|now left].
  - destruct (IH Hx) as (l & Hl & Hx'). apply in_app_or in Hl as [Hl|[<- | Hl]].
    + exists l. split; auto. apply in_or_app. auto.
    + exists (y :: xs). split; [apply in_elt|now right].
    + exists l. split; auto. apply in_or_app. right. now right.
Qed.
Lemma merged_cons_nil {X} (ls : list (list X)) (q : list X) : merged ls q -> merged ([] :: ls) q.
Proof.
  induction 1 as [ls Hf|l1 y xs l2 q Hm IH]; [constructor; constructor; auto|].
  exact (mg_step ([] :: l1) y xs l2 q IH).
Qed.
Lemma merged_seq {X} : forall ls : list (list X), merged ls (concat ls).
Proof.
  induction ls as [|l ls IH]; [constructor; constructor|]. cbn. induction l as [|x l IHl]; cbn.
  - now apply merged_cons_nil.
  - exact (mg_step [] x l ls _ IHl).
Qed.

(** ** the shard writes *)
Definition wf (j : string * content T) : list (op T) := write_file (fst j) (snd j).

Lemma write_ops jobs q o : merged (map wf jobs) q -> In o q -> is_write o /\ In (target o) (map fst jobs).
Proof.
  intros Hm Ho. destruct (merged_In _ _ _ Hm Ho) as (l & Hl & Ho'). apply in_map_iff in Hl as (j & <- & Hj).
  destruct Ho' as [<- | [<- | []]]; cbn; split; auto; now apply in_map.
Qed.

Lemma writes_prefix jobs q q1 q2 f : merged (map wf jobs) q -> q = q1 ++ q2 ->
  exists f', apply_all q1 f = Ok f' /\ forall n, ~ In n (map fst jobs) -> dget f' n = dget f n.
Proof.
  intros Hm ->. assert (Hw : Forall is_write q1).
  { apply Forall_forall. intros o Ho. eapply write_ops; eauto. apply in_or_app. auto. }
  destruct (writes_effect q1 f Hw) as (f' & E & Hg). exists f'. split; auto. intros n Hn. rewrite Hg.
  apply eff_other. intros o Ho E'. apply Hn. rewrite <- E'. eapply write_ops; eauto. apply in_or_app. auto.
Qed.

Lemma writes_done (jobs : list (string * content T)) q f : merged (map wf jobs) q -> NoDup (map fst jobs) ->
  exists f', apply_all q f = Ok f' /\ forall n, dget f' n = match dget jobs n with Some c => Some c | None => dget f n end.
Proof.
  intros Hm Hnd. assert (Hw : Forall is_write q).
  { apply Forall_forall. intros o Ho. eapply write_ops; eauto. }
  destruct (writes_effect q f Hw) as (f' & E & Hg). exists f'. split; auto. intros n. rewrite Hg. clear Hg E f'.
  rewrite eff_filter.
  assert (Hf : filter (fun o => eqb (target o) n) q = match dget jobs n with Some c => write_file n c | None => [] end).
  { apply (merged_filter (fun o => eqb (target o) n)) in Hm. rewrite map_map in Hm.
    assert (Hl : forall js : list (string * content T), NoDup (map fst js) ->
       concat (map (fun x => filter (fun o => eqb (target o) n) (wf x)) js) = match dget js n with Some c => write_file n c | None => [] end /\
       length (filter nonempty (map (fun x => filter (fun o => eqb (target o) n) (wf x)) js)) <= 1 /\
       (dget js n = None -> length (filter nonempty (map (fun x => filter (fun o => eqb (target o) n) (wf x)) js)) = 0)).
    { clear. induction js as [|[m c] js IH]; intros Hnd; [cbn; auto|]. inversion Hnd as [|? ? Hm Hnd']; subst.
      destruct (IH Hnd') as (I1 & I2 & I3). cbn [map concat dget].
      assert (E : filter (fun o => eqb (target o) n) (wf (m, c)) = if eqb n m then write_file n c else []).
      { cbn. rewrite (eqb_sym m n). destruct (eqb_spec n m) as [-> | ?]; reflexivity. }
      rewrite E. destruct (eqb_spec n m) as [-> | ?].
      - assert (Hno : dget js m = None) by now apply dget_None. rewrite Hno in *.
        rewrite I1. split; [apply app_nil_r|]. specialize (I3 eq_refl). cbn [filter nonempty write_file length]. split; [lia|discriminate].
      - cbn [app filter nonempty]. auto. }
    destruct (Hl jobs Hnd) as (L1 & L2 & _). rewrite (merged_single _ _ Hm L2). exact L1. }
  rewrite Hf. destruct (dget jobs n) as [c|]; cbn; [now rewrite !eqb_refl|reflexivity].
Qed.

(** ** renames *)
Definition ren (on : string * string) : op T := ORename (fst on) (snd on).

Lemma renames_done (R : list (string * string)) : forall f,
  NoDup (map fst R) -> NoDup (map snd R) -> (forall x, In x (map fst R) -> ~ In x (map snd R)) ->
  (forall x, In x (map fst R) -> exists c, dget f x = Some c) ->
  exists f', apply_all (map ren R) f = Ok f' /\
    (forall a b, In (a, b) R -> dget f' b = dget f a) /\
    (forall a, In a (map fst R) -> dget f' a = None) /\
    (forall n, ~ In n (map fst R) -> ~ In n (map snd R) -> dget f' n = dget f n).
Proof.
  induction R as [|[a b] R IH]; intros f Ho Hn Hd He; cbn [map].
  - exists f. cbn. repeat split; auto; intros; contradiction.
  - cbn [map fst snd] in *. inversion Ho as [|? ? Ho1 Ho2]; subst. inversion Hn as [|? ? Hn1 Hn2]; subst.
    destruct (He a (or_introl eq_refl)) as [c Hc].
    cbn [apply_all apply ren fst snd]. rewrite Hc. cbn [rbind].
    set (f1 := dset (ddel f a) b c).
    assert (Hab : a <> b). { intros <-. apply (Hd a); now left. }
    assert (G1 : forall n, dget f1 n = if eqb n b then Some c else if eqb n a then None else dget f n).
    { intros n. unfold f1. now rewrite dget_dset, dget_ddel. }
    assert (Hx : forall x, In x (map fst R) -> dget f1 x = dget f x).
    { intros x Hx. rewrite G1. destruct (eqb_spec x b) as [-> | ?].
      - exfalso. apply (Hd b); [now right|now left].
      - destruct (eqb_spec x a) as [-> | ?]; [contradiction|reflexivity]. }
    destruct (IH f1) as (f' & E & F1 & F2 & F3); auto.
    { intros x Hx' Hx''. apply (Hd x); now right. }
    { intros x Hx'. rewrite Hx by auto. apply He. now right. }
    exists f'. split; [exact E|]. split; [|split].
    + intros x y [[= <- <-]|Hin].
      * rewrite F3; auto; [rewrite G1, eqb_refl; auto|]. intros Hb. apply (Hd b); [now right|now left].
      * rewrite (F1 x y Hin). apply Hx. apply in_map_iff. exists (x, y). auto.
    + intros x [<- | Hx']; auto. rewrite F3; auto.
      * rewrite G1. destruct (eqb_spec a b); [contradiction|]. now rewrite eqb_refl.
      * intros Ha. apply (Hd a); [now left|now right].
    + intros n N1 N2. rewrite F3; [|intros ?; apply N1; now right|intros ?; apply N2; now right]. rewrite G1.
      destruct (eqb_spec n b) as [-> | ?]; [exfalso; apply N2; now left|].
      destruct (eqb_spec n a) as [-> | ?]; [exfalso; apply N1; now left|reflexivity].
Qed.
End Fs.

Lemma prefix_app {X} (p r a b : list X) : a ++ b = p ++ r ->
  (exists r', a = p ++ r') \/ (exists p', p = a ++ p' /\ b = p' ++ r).
Proof.
  revert p. induction a as [|x a IH]; intros p E.
  - right. exists p. auto.
  - destruct p as [|y p]; [left; exists (x :: a); reflexivity|]. cbn in E. injection E as -> E.
    destruct (IH p E) as [(r' & ->)|(p' & -> & ->)]; [left; exists r'; reflexivity|right; exists p'; auto].
Qed.
