(** Substitution of merge names in dumped configurations. *)
From Coq Require Import Ascii.
From Verif.Base Require Import Py PyFacts PyStr.
From Verif.Common Require Import Model Spec Proofs Props.
From Verif.Multimerge Require Import Model Spec.
Local Open Scope string_scope.
Local Open Scope list_scope.

Section Ind.
Variable P : cfg -> Prop.
Hypothesis (Href : forall r, P (CRef r)) (Hstr : forall s, P (CStr s)) (Hatom : forall n, P (CAtom n))
  (Hlist : forall l, (forall c, In c l -> P c) -> P (CList l))
  (Hdict : forall d, (forall k c, In (k, c) d -> P c) -> P (CDict d)).
Fixpoint cfg_ind' (c : cfg) : P c :=
  match c with
  | CRef r => Href r | CStr s => Hstr s | CAtom n => Hatom n
  | CList l => Hlist l ((fix go (l : list cfg) : forall c, In c l -> P c :=
      match l with
      | [] => fun c H => match H with end
      | x :: l => fun c H => match H with or_introl E => match E in _ = y return P y with eq_refl => cfg_ind' x end | or_intror H => go l c H end
      end) l)
  | CDict d => Hdict d ((fix go (d : list (string * cfg)) : forall k c, In (k, c) d -> P c :=
      match d with
      | [] => fun k c H => match H with end
      | x :: d => fun k c H => match H with
                               | or_introl E => match E in _ = y return P (snd y) with eq_refl => cfg_ind' (snd x) end
                               | or_intror H => go d k c H end
      end) d)
  end.
End Ind.
Section VInd.
Variable P : val -> Prop.
Hypothesis (Hstr : forall s, P (VStr s)) (Hatom : forall n, P (VAtom n))
  (Hlist : forall l, (forall c, In c l -> P c) -> P (VList l))
  (Hdict : forall d, (forall k c, In (k, c) d -> P c) -> P (VDict d)).
Fixpoint val_ind' (c : val) : P c :=
  match c with
  | VStr s => Hstr s | VAtom n => Hatom n
  | VList l => Hlist l ((fix go (l : list val) : forall c, In c l -> P c :=
      match l with
      | [] => fun c H => match H with end
      | x :: l => fun c H => match H with or_introl E => match E in _ = y return P y with eq_refl => val_ind' x end | or_intror H => go l c H end
      end) l)
  | VDict d => Hdict d ((fix go (d : list (string * val)) : forall k c, In (k, c) d -> P c :=
      match d with
      | [] => fun k c H => match H with end
      | x :: d => fun k c H => match H with
                               | or_introl E => match E in _ = y return P (snd y) with eq_refl => val_ind' (snd x) end
                               | or_intror H => go d k c H end
      end) d)
  end.
End VInd.

(** the names used are merge names *)
Lemma patch_used names wd v : forall v' used, patch names wd v = Ok (v', used) -> forall n, In n used -> In n names.
Proof.
  induction v as [s|z|l IH|d IH] using val_ind'; intros v' used; cbn [patch].
  - unfold patch_str. destruct (parse_ref s) as [r|e]; [|destruct e; intros [= <- <-]; intros n []].
    destruct (mem (mp_path (mr_model r)) names) eqn:Em; intros [= <- <-] n; [intros [<-|[]]; apply mem_In, Em | intros []].
  - intros [= <- <-] n [].
  - match goal with |- rbind (?g l) _ = _ -> _ => set (go := g) end. intros E.
    destruct (go l) as [[l' u]|e] eqn:Ego; cbn in E; [|discriminate]. injection E as <- <-.
    revert l' u Ego. induction l as [|x l IHl]; cbn; intros l' u.
    + intros [= <- <-] n [].
    + destruct (patch names wd x) as [[x' ux]|e] eqn:Ex; cbn [rbind]; [|discriminate].
      fold go. destruct (go l) as [[l2 u2]|e] eqn:E2; cbn [rbind]; [|discriminate]. intros [= <- <-] n Hn.
      apply in_app_or in Hn as [Hn|Hn]; [eapply IH; [left; reflexivity | exact Ex | exact Hn]|].
      eapply IHl; [intros c Hc; apply IH; right; exact Hc | reflexivity | exact Hn].
  - destruct (is_ref_dict d).
    + unfold patch_fields. destruct (dget d "model") as [[s|z|l|m]|]; try discriminate.
      destruct (dget m "path") as [[s|z|l|m']|]; try discriminate.
      destruct (mem s names) eqn:Em; intros [= <- <-] n; [intros [<-|[]]; apply mem_In, Em | intros []].
    + match goal with |- rbind (?g d) _ = _ -> _ => set (go := g) end. intros E.
      destruct (go d) as [[d' u]|e] eqn:Ego; cbn in E; [|discriminate]. injection E as <- <-.
      revert d' u Ego. induction d as [|[k x] d IHd]; cbn; intros d' u.
      * intros [= <- <-] n [].
      * destruct (patch names wd x) as [[x' ux]|e] eqn:Ex; cbn [rbind]; [|discriminate].
        fold go. destruct (go d) as [[d2 u2]|e] eqn:E2; cbn [rbind]; [|discriminate]. intros [= <- <-] n Hn.
        apply in_app_or in Hn as [Hn|Hn]; [eapply IH; [left; reflexivity | exact Ex | exact Hn]|].
        eapply IHd; [intros k0 c Hc; eapply IH; right; exact Hc | reflexivity | exact Hn].
Qed.

Lemma has_char_app c a b : has_char c (a ++ b)%string = has_char c a || has_char c b.
Proof. induction a as [|x a IH]; cbn; [reflexivity|]. rewrite IH. destruct (Ascii.eqb x c); reflexivity. Qed.
Lemma path_join_has c a b : has_char c b = true -> has_char c (path_join a b) = true.
Proof.
  intros H. unfold path_join. assert (E : has_char c (if eqb a "" || ends_slash a then (a ++ b)%string else (a ++ "/" ++ b)%string) = true).
  { destruct (eqb a "" || ends_slash a); rewrite !has_char_app, H, ?orb_true_r; reflexivity. }
  destruct b as [|x b]; [exact E|]. destruct x as [[] [] [] [] [] [] [] []]; try exact E. exact H.
Qed.
Lemma path_join_free c a b : free c a -> free c "/" -> free c b -> free c (path_join a b).
Proof.
  intros Ha Hs Hb. unfold path_join. assert (E : free c (if eqb a "" || ends_slash a then (a ++ b)%string else (a ++ "/" ++ b)%string)).
  { destruct (eqb a "" || ends_slash a); repeat (apply free_app; split); auto. }
  destruct b as [|x b]; [exact E|]. destruct x as [[] [] [] [] [] [] [] []]; try exact E. exact Hb.
Qed.

Lemma with_path_has c wd r : has_char c (str_ref r) = true -> has_char c (str_ref (with_path wd r)) = true.
Proof.
  assert (Hp : forall m, has_char c (str_path m) = true ->
     has_char c (str_path {| mp_path := path_join wd (mp_path m); mp_revision := mp_revision m |}) = true).
  { intros m. unfold str_path. cbn [mp_path mp_revision]. destruct (mp_revision m) as [rv|]; [destruct (eqb rv "")|]; try apply path_join_has.
    rewrite !has_char_app. intros H. apply orb_true_iff in H as [H|H]; [rewrite (path_join_has _ _ _ H); reflexivity | rewrite H; apply orb_true_r]. }
  unfold str_ref, with_path. cbn [mr_model mr_lora]. destruct (mr_lora r) as [l|]; [|apply Hp].
  rewrite !has_char_app. intros H. apply orb_true_iff in H as [H|H]; [rewrite (Hp _ H); reflexivity | rewrite H; apply orb_true_r].
Qed.
Lemma with_path_fields wd r r' : serialize r = DFields r' -> serialize (with_path wd r) = DFields (with_path wd r).
Proof.
  unfold serialize. cbn [mr_arch with_path]. destruct (mr_arch r); [reflexivity|].
  destruct (has_char """" (str_ref r)) eqn:E1; cbn [orb].
  - intros _. rewrite (with_path_has _ wd r E1). reflexivity.
  - destruct (has_char " " (str_ref r)) eqn:E2; [|discriminate]. intros _. rewrite (with_path_has _ wd r E2), orb_true_r. reflexivity.
Qed.
Lemma serialize_fields r r' : serialize r = DFields r' -> r' = r.
Proof. unfold serialize. destruct (mr_arch r); [congruence|]. destruct (_ || _); congruence. Qed.
Lemma serialize_string r s : serialize r = DString s -> s = str_ref r.
Proof. unfold serialize. destruct (mr_arch r); [congruence|]. destruct (_ || _); congruence. Qed.

Lemma patch_ref names wd r : plain_ref r \/ (exists r', serialize r = DFields r') ->
  patch names wd (dump_ref r) =
  Ok (dump_ref (if mem (mp_path (mr_model r)) names then with_path wd r else r),
      if mem (mp_path (mr_model r)) names then [mp_path (mr_model r)] else []).
Proof.
  intros Hr. unfold dump_ref at 1. destruct (serialize r) as [s|r'] eqn:Es.
  - destruct Hr as [Hr|[r' ?]]; [|congruence]. cbn [patch]. unfold patch_str.
    rewrite (serialize_string _ _ Es), (proj2 (C23_print_then_parse r) Hr).
    destruct (mem (mp_path (mr_model r)) names); [reflexivity|]. unfold dump_ref. rewrite Es. rewrite (serialize_string _ _ Es). reflexivity.
  - pose proof (serialize_fields _ _ Es) as ->. cbn [patch fields_val].
    assert (Hd : is_ref_dict [("model", path_val (mr_model r)); ("lora", match mr_lora r with Some l => path_val l | None => VAtom 0 end);
      ("override_architecture", opt_str (mr_arch r))] = true) by reflexivity.
    rewrite Hd. unfold patch_fields. cbn [dget]. rewrite eqb_refl. cbn [path_val dget]. rewrite eqb_refl.
    destruct (mem (mp_path (mr_model r)) names).
    + unfold dump_ref. rewrite (with_path_fields wd r r Es). cbn [dset]. rewrite !eqb_refl. reflexivity.
    + unfold dump_ref. rewrite Es. reflexivity.
Qed.

Lemma is_ref_dict_dump (d : list (string * cfg)) :
  is_ref_dict (map (fun kv => (fst kv, dump (snd kv))) d) = is_ref_dict d.
Proof.
  unfold is_ref_dict. rewrite map_map. cbn [fst]. f_equal.
  induction d as [|[k c] d IH]; cbn; [reflexivity|]. f_equal. exact IH.
Qed.

Lemma is_ref_dict_iff {V} (d : list (string * V)) : is_ref_dict d = true <-> forall k, In k (map fst d) <-> In k ref_keys.
Proof.
  unfold is_ref_dict. rewrite andb_true_iff, !forallb_forall. split.
  - intros [H1 H2] k. split; intros Hk.
    + apply in_map_iff in Hk as (kv & <- & Hkv). apply mem_In, H1, Hkv.
    + apply mem_In, H2, Hk.
  - intros H. split; [intros kv Hkv; apply mem_In, H, in_map, Hkv|intros k Hk; apply mem_In, H, Hk].
Qed.
Lemma patch_dump names wd c : distinct_from names c ->
  exists used, patch names wd (dump c) = Ok (dump (subst names wd c), used) /\
    forall n, In n used <-> exists r, occurs r c /\ mp_path (mr_model r) = n /\ In n names.
Proof.
  induction c as [r|s|z|l IH|d IH] using cfg_ind'; intros Hc; inversion Hc; subst.
  - exists (if mem (mp_path (mr_model r)) names then [mp_path (mr_model r)] else []). split.
    + cbn [dump subst]. rewrite patch_ref by assumption. destruct (mem _ names); reflexivity.
    + intros n. split.
      * destruct (mem (mp_path (mr_model r)) names) eqn:Em; [|intros []]. intros [<-|[]]. exists r.
        split; [constructor|]. split; [reflexivity | apply mem_In, Em].
      * intros (r' & Ho & E & Hn). inversion Ho; subst. rewrite (proj2 (mem_In _ _) Hn). left; reflexivity.
  - exists []. cbn. unfold patch_str. match goal with H : parse_ref s = Ok ?r |- _ => rewrite H end.
    rewrite (proj2 (mem_nIn _ _)) by assumption. split; [reflexivity|]. intros n. split; [intros []|]. intros (r' & Ho & _). inversion Ho.
  - exists []. cbn. split; [reflexivity|]. intros n. split; [intros []|]. intros (r' & Ho & _). inversion Ho.
  - match goal with H : forall c, In c l -> distinct_from names c |- _ => rename H into Hl end. cbn [dump subst patch].
    match goal with |- context[rbind (?g (map dump l)) _] => set (go := g) end.
    assert (H : exists used, go (map dump l) = Ok (map dump (map (subst names wd) l), used) /\
      forall n, In n used <-> exists c r, In c l /\ occurs r c /\ mp_path (mr_model r) = n /\ In n names).
    { clear Hc. induction l as [|x l IHl]; [exists []; split; [reflexivity|]; intros n; split; [intros []|intros (c & r & [] & _)]|].
      destruct (IH x (or_introl eq_refl) (Hl x (or_introl eq_refl))) as (ux & Ex & Hux).
      destruct IHl as (u & Eu & Hu); [intros c Hin; apply IH; right; exact Hin | intros c Hin; apply Hl; right; exact Hin|].
      exists (ux ++ u). split; [cbn; rewrite Ex; cbn [rbind]; fold go; rewrite Eu; reflexivity|].
      intros n. rewrite in_app_iff, Hux, Hu. split.
      - intros [(r & H)|(c & r & Hin & H)]; [exists x, r; split; [left; reflexivity | exact H] | exists c, r; split; [right; exact Hin | exact H]].
      - intros (c & r & [->|Hin] & H); [left; exists r; exact H | right; exists c, r; split; [exact Hin | exact H]]. }
    destruct H as (used & E & Hu). rewrite E. exists used. split; [reflexivity|]. intros n. rewrite Hu. split.
    + intros (c & r & Hin & Ho & H). exists r. split; [econstructor; eassumption | exact H].
    + intros (r & Ho & H). inversion Ho; subst. eauto.
  - match goal with H : forall k c, In (k, c) d -> distinct_from names c |- _ => rename H into Hd end. cbn [dump subst patch].
    rewrite is_ref_dict_dump. destruct (is_ref_dict d) eqn:Hrd; [pose proof (proj1 (is_ref_dict_iff d) Hrd); contradiction|].
    match goal with |- context[rbind (?g (map _ d)) _] => set (go := g) end.
    assert (H' : exists used, go (map (fun kv => (fst kv, dump (snd kv))) d) =
        Ok (map (fun kv => (fst kv, dump (snd kv))) (map (fun kv => (fst kv, subst names wd (snd kv))) d), used) /\
      forall n, In n used <-> exists k c r, In (k, c) d /\ occurs r c /\ mp_path (mr_model r) = n /\ In n names).
    { clear Hc H0 Hrd. induction d as [|[k x] d IHd]; [exists []; split; [reflexivity|]; intros n; split; [intros []|intros (k & c & r & [] & _)]|].
      destruct (IH k x (or_introl eq_refl) (Hd k x (or_introl eq_refl))) as (ux & Ex & Hux).
      destruct IHd as (u & Eu & Hu); [intros k0 c Hin; eapply IH; right; exact Hin | intros k0 c Hin; eapply Hd; right; exact Hin|].
      exists (ux ++ u). split; [cbn; rewrite Ex; cbn [rbind]; fold go; rewrite Eu; reflexivity|].
      intros n. rewrite in_app_iff, Hux, Hu. split.
      - intros [(r & H)|(k0 & c & r & Hin & H)]; [exists k, x, r; split; [left; reflexivity | exact H] | exists k0, c, r; split; [right; exact Hin | exact H]].
      - intros (k0 & c & r & [E0|Hin] & Hr); [left; injection E0 as -> ->; exists r; exact Hr | right; exists k0, c, r; split; [exact Hin | exact Hr]]. }
    destruct H' as (used & E & Hu). rewrite E. exists used. split; [reflexivity|]. intros n. rewrite Hu. split.
    + intros (k & c & r & Hin & Ho & H). exists r. split; [econstructor; eassumption | exact H].
    + intros (r & Ho & H). inversion Ho; subst. eauto 6.
Qed.

Lemma reads_ref r : plain_ref r \/ (exists r', serialize r = DFields r') -> reads (dump_ref r) (CRef r).
Proof.
  intros Hr. unfold dump_ref. destruct (serialize r) as [s|r'] eqn:Es.
  - destruct Hr as [Hr|[r' ?]]; [|congruence]. rewrite (serialize_string _ _ Es). constructor. apply C23_print_then_parse, Hr.
  - rewrite (serialize_fields _ _ Es). constructor.
Qed.
Lemma plain_with_path wd r : free "@" wd -> free "+" wd -> plain_ref r -> plain_ref (with_path wd r).
Proof.
  intros H1 H2 ((P1 & P2 & P3) & Pl & Pa). split; [|split; [exact Pl | exact Pa]]. split; [|split; [|exact P3]].
  - apply path_join_free; [exact H1 | reflexivity | exact P1].
  - apply path_join_free; [exact H2 | reflexivity | exact P2].
Qed.
Lemma reads_subst names wd c : free "@" wd -> free "+" wd -> distinct_from names c ->
  reads (dump (subst names wd c)) (subst names wd c).
Proof.
  intros H1 H2. induction c as [r|s|z|l IH|d IH] using cfg_ind'; intros Hc; inversion Hc; subst; cbn [dump subst]; try constructor.
  - match goal with H : plain_ref r \/ _ |- _ => rename H into Hr end. apply reads_ref.
    destruct (mem (mp_path (mr_model r)) names); [|exact Hr].
    destruct Hr as [Hr|[r' Hr]]; [left; apply plain_with_path; assumption|]. right. eexists. exact (with_path_fields wd r r' Hr).
  - rewrite !map_length. reflexivity.
  - intros v c Hin. rewrite map_map in Hin. 
    assert (exists c0, In c0 l /\ v = dump (subst names wd c0) /\ c = subst names wd c0) as (c0 & Hin0 & -> & ->).
    { clear -Hin. induction l as [|x l IHl]; [destruct Hin|]. destruct Hin as [[= <- <-]|Hin]; [exists x; auto using in_eq|].
      destruct (IHl Hin) as (c0 & ? & ?). exists c0. split; [right; assumption | assumption]. }
    apply IH; [exact Hin0|]. auto.
  - rewrite !map_map. reflexivity.
  - intros v c Hin. rewrite !map_map in Hin. cbn in Hin.
    assert (exists k c0, In (k, c0) d /\ v = dump (subst names wd c0) /\ c = subst names wd c0) as (k & c0 & Hin0 & -> & ->).
    { clear -Hin. induction d as [|[k x] d IHl]; [destruct Hin|]. destruct Hin as [[= <- <-]|Hin]; [exists k, x; auto using in_eq|].
      destruct (IHl Hin) as (k0 & c0 & ? & ?). exists k0, c0. split; [right; assumption | assumption]. }
    eapply IH; [exact Hin0|]. eauto.
Qed.
