(** Lemmas about the base vocabulary. *)
From Verif.Base Require Import Py.

Lemma eqb_refl {A} `{Eqb A} (x : A) : eqb x x = true.
Proof. now apply eqb_iff. Qed.

Lemma eqb_spec {A} `{Eqb A} (x y : A) : reflect (x = y) (eqb x y).
Proof. destruct (eqb x y) eqn:E; constructor; [now apply eqb_iff|].
  intros ->. now rewrite eqb_refl in E. Qed.

Lemma eqb_neq {A} `{Eqb A} (x y : A) : eqb x y = false <-> x <> y.
Proof. destruct (eqb_spec x y); split; congruence. Qed.

Lemma eqb_sym {A} `{Eqb A} (x y : A) : eqb x y = eqb y x.
Proof. destruct (eqb_spec x y), (eqb_spec y x); congruence. Qed.

Lemma Eqb_dec {A} `{Eqb A} (x y : A) : {x = y} + {x <> y}.
Proof. destruct (eqb_spec x y); auto. Qed.

Lemma mem_In {A} `{Eqb A} (x : A) l : mem x l = true <-> In x l.
Proof.
  induction l as [|y ys IH]; cbn; [split; [discriminate|tauto]|].
  destruct (eqb_spec x y); subst; [tauto|]. rewrite IH. split; [tauto|intros [->|]; congruence].
Qed.
Lemma mem_nIn {A} `{Eqb A} (x : A) l : mem x l = false <-> ~ In x l.
Proof. rewrite <- mem_In. destruct (mem x l); split; congruence. Qed.

Lemma mem_spec {A} `{Eqb A} (x : A) l : reflect (In x l) (mem x l).
Proof. destruct (mem x l) eqn:E; constructor; [now apply mem_In | now apply mem_nIn]. Qed.

Lemma In_dec_eqb {A} `{Eqb A} (x : A) l : {In x l} + {~ In x l}.
Proof. destruct (mem_spec x l); auto. Qed.

Lemma set_add_In {A} `{Eqb A} (x y : A) l : In y (set_add x l) <-> y = x \/ In y l.
Proof.
  unfold set_add. destruct (mem_spec x l).
  - split; [auto|]. intros [->|]; auto.
  - rewrite in_app_iff. cbn. split; [intros [|[]]|intros []]; auto.
    contradiction.
Qed.

Lemma NoDup_snoc {A} (l : list A) x : NoDup l -> ~ In x l -> NoDup (l ++ [x]).
Proof.
  induction 1 as [|y ys Hy HN IH]; cbn; intros Hx.
  - constructor; [tauto|constructor].
  - constructor.
    + rewrite in_app_iff. cbn. intros [?|[->|[]]]; auto.
    + apply IH. auto.
Qed.

Lemma set_add_NoDup {A} `{Eqb A} (x : A) l : NoDup l -> NoDup (set_add x l).
Proof. unfold set_add. destruct (mem_spec x l); auto. intros. now apply NoDup_snoc. Qed.

Lemma dedup_acc_In {A} `{Eqb A} (l acc : list A) y : In y (dedup_acc acc l) <-> In y acc \/ In y l.
Proof.
  revert acc. induction l as [|x xs IH]; cbn; intros acc; [tauto|].
  rewrite IH, set_add_In. intuition (subst; auto).
Qed.
Lemma dedup_In {A} `{Eqb A} (l : list A) y : In y (dedup l) <-> In y l.
Proof. unfold dedup. rewrite dedup_acc_In. cbn. tauto. Qed.

Lemma dedup_acc_NoDup {A} `{Eqb A} (l acc : list A) : NoDup acc -> NoDup (dedup_acc acc l).
Proof. revert acc. induction l as [|x xs IH]; cbn; intros acc HN; auto using set_add_NoDup. Qed.
Lemma dedup_NoDup {A} `{Eqb A} (l : list A) : NoDup (dedup l).
Proof. apply dedup_acc_NoDup. constructor. Qed.

(** ** dictionaries *)
Section Dict.
Context {K V : Type} `{Eqb K}.
Implicit Types (d : dict K V) (k : K) (v : V).

Lemma dget_In d k v : dget d k = Some v -> In (k, v) d.
Proof.
  induction d as [|[k' v'] d IH]; cbn; [discriminate|].
  destruct (eqb_spec k k'); [intros [= ->]; subst; auto | auto].
Qed.

Lemma dget_In_NoDup d k v : NoDup (dkeys d) -> In (k, v) d -> dget d k = Some v.
Proof.
  induction d as [|[k' v'] d IH]; cbn; [tauto|].
  inversion 1 as [|? ? Hn HN]; subst. intros [[= -> ->]|Hin].
  - now rewrite eqb_refl.
  - destruct (eqb_spec k k'); [subst|auto].
    exfalso. apply Hn. change k' with (fst (k', v)). now apply in_map.
Qed.

Lemma dget_None d k : dget d k = None <-> ~ In k (dkeys d).
Proof.
  induction d as [|[k' v'] d IH]; cbn; [tauto|].
  destruct (eqb_spec k k'); subst.
  - split; [discriminate|tauto].
  - rewrite IH. unfold dkeys. split; [intros Hn [Heq|Hin]; [congruence|tauto]|tauto].
Qed.

Lemma dget_Some_key d k : In k (dkeys d) <-> exists v, dget d k = Some v.
Proof.
  destruct (dget d k) eqn:E.
  - split; [eauto|]. intros _. apply dget_In in E. change k with (fst (k, v)). now apply in_map.
  - split; [|intros [? [=]]]. apply dget_None in E. tauto.
Qed.

Lemma dmem_In d k : dmem d k = true <-> In k (dkeys d).
Proof.
  unfold dmem. rewrite dget_Some_key. destruct (dget d k); split; eauto; try discriminate.
  intros [? [=]].
Qed.
Lemma dmem_nIn d k : dmem d k = false <-> ~ In k (dkeys d).
Proof. rewrite <- dmem_In. destruct (dmem d k); split; congruence. Qed.

Lemma dget_dset d k v k' : dget (dset d k v) k' = if eqb k' k then Some v else dget d k'.
Proof.
  induction d as [|[k0 v0] d IH]; cbn.
  - reflexivity.
  - destruct (eqb_spec k k0); cbn.
    + subst k0. destruct (eqb_spec k' k); reflexivity.
    + destruct (eqb_spec k' k0); rewrite ?IH.
      * subst k0. destruct (eqb_spec k' k); congruence.
      * reflexivity.
Qed.
Lemma dget_dset_eq d k v : dget (dset d k v) k = Some v.
Proof. now rewrite dget_dset, eqb_refl. Qed.
Lemma dget_dset_neq d k v k' : k' <> k -> dget (dset d k v) k' = dget d k'.
Proof. intros Hn. rewrite dget_dset. apply eqb_neq in Hn. now rewrite Hn. Qed.

Lemma dget_ddel d k k' : dget (ddel d k) k' = if eqb k' k then None else dget d k'.
Proof.
  induction d as [|[k0 v0] d IH]; cbn.
  - now destruct (eqb k' k).
  - destruct (eqb_spec k k0); cbn; rewrite ?IH.
    + subst k0. destruct (eqb_spec k' k); [reflexivity|]. reflexivity.
    + destruct (eqb_spec k' k0); [|reflexivity].
      subst k0. destruct (eqb_spec k' k); congruence.
Qed.

Lemma dkeys_dset d k v : dkeys (dset d k v) = if dmem d k then dkeys d else dkeys d ++ [k].
Proof.
  unfold dmem, dkeys. induction d as [|[k0 v0] d IH]; cbn; [reflexivity|].
  destruct (eqb_spec k k0); cbn; [subst; reflexivity|].
  rewrite IH. destruct (dget d k); reflexivity.
Qed.

Lemma dkeys_dset_In d k v k' : In k' (dkeys (dset d k v)) <-> k' = k \/ In k' (dkeys d).
Proof.
  rewrite dkeys_dset. destruct (dmem d k) eqn:E.
  - apply dmem_In in E. split; [auto|intros [->|]; auto].
  - rewrite in_app_iff; cbn. intuition.
Qed.

Lemma dkeys_dset_NoDup d k v : NoDup (dkeys d) -> NoDup (dkeys (dset d k v)).
Proof.
  intros HN. rewrite dkeys_dset. destruct (dmem d k) eqn:E; auto.
  apply NoDup_snoc; auto. now apply dmem_nIn.
Qed.

Lemma dset_fresh d k v : ~ In k (dkeys d) -> dset d k v = d ++ [(k, v)].
Proof.
  induction d as [|[k0 v0] d IH]; cbn; [reflexivity|]. intros Hn.
  destruct (eqb_spec k k0); [subst; tauto|]. rewrite IH; tauto.
Qed.

Lemma ddel_keys_In d k k' : In k' (dkeys (ddel d k)) <-> k' <> k /\ In k' (dkeys d).
Proof.
  rewrite !dget_Some_key. setoid_rewrite dget_ddel.
  destruct (eqb_spec k' k); split.
  - intros [? [=]].
  - intros [? _]; congruence.
  - intros [v ?]; split; eauto.
  - intros [_ [v ?]]; eauto.
Qed.

Lemma ddel_incl d k x : In x (ddel d k) -> In x d.
Proof.
  induction d as [|[k0 v0] d IH]; cbn; [tauto|].
  destruct (eqb k k0); cbn; [auto|]. intros [<-|]; auto.
Qed.
Lemma ddel_NoDup d k : NoDup (dkeys d) -> NoDup (dkeys (ddel d k)).
Proof.
  induction d as [|[k0 v0] d IH]; cbn; [auto|].
  inversion 1; subst. destruct (eqb k k0); cbn; [auto|].
  constructor; auto. fold (dkeys (ddel d k)). rewrite ddel_keys_In. unfold dkeys. tauto.
Qed.

Lemma dict_of_acc_NoDup (l : list (K * V)) d :
  NoDup (dkeys d) -> NoDup (dkeys (fold_left (fun d kv => dset d (fst kv) (snd kv)) l d)).
Proof. revert d. induction l as [|x l IH]; cbn [fold_left]; intros d Hd; [exact Hd|]. apply IH. now apply dkeys_dset_NoDup. Qed.
Lemma dict_of_NoDup (l : list (K * V)) : NoDup (dkeys (dict_of l)).
Proof. apply dict_of_acc_NoDup. constructor. Qed.
End Dict.

Lemma rmapM_Ok_Forall2 {A B} (f : A -> result B) l r :
  rmapM f l = Ok r <-> Forall2 (fun x y => f x = Ok y) l r.
Proof.
  revert r. induction l as [|x xs IH]; cbn; intros r.
  - split; [intros [= <-]; constructor | inversion 1; reflexivity].
  - destruct (f x) eqn:E; cbn.
    + destruct (rmapM f xs) eqn:E2; cbn.
      * split; [intros [= <-]; constructor; [auto|now apply IH]|].
        inversion 1; subst. rewrite E in *. apply IH in H4. congruence.
      * split; [discriminate|]. inversion 1; subst. apply IH in H4. discriminate.
    + split; [discriminate|]. inversion 1; subst. congruence.
Qed.

Lemma rmapM_Err {A B} (f : A -> result B) l e :
  rmapM f l = Err e -> exists x, In x l /\ f x = Err e.
Proof.
  induction l as [|x xs IH]; cbn; [discriminate|].
  destruct (f x) eqn:E; cbn.
  - destruct (rmapM f xs) eqn:E2; cbn; [discriminate|]. intros [= ->].
    destruct IH as (y & ? & ?); eauto.
  - intros [= ->]. eauto.
Qed.

Lemma rmapM_ext {A B} (f g : A -> result B) l :
  (forall x, In x l -> f x = g x) -> rmapM f l = rmapM g l.
Proof.
  induction l as [|x xs IH]; cbn; intros Hfg; [reflexivity|].
  rewrite (Hfg x), IH; auto.
Qed.

Lemma Forall2_impl {A B} (P Q : A -> B -> Prop) l l' :
  (forall x y, P x y -> Q x y) -> Forall2 P l l' -> Forall2 Q l l'.
Proof. intros HPQ. induction 1; constructor; auto. Qed.

#[global] Arguments dkeys : simpl never.
#[global] Arguments dvals : simpl never.
Lemma dkeys_cons {K V} (k : K) (v : V) d : dkeys ((k, v) :: d) = k :: dkeys d.
Proof. reflexivity. Qed.
Lemma dkeys_app {K V} (d1 d2 : dict K V) : dkeys (d1 ++ d2) = dkeys d1 ++ dkeys d2.
Proof. apply map_app. Qed.

Lemma NoDup_app_intro {A} (l1 l2 : list A) :
  NoDup l1 -> NoDup l2 -> (forall a, In a l1 -> In a l2 -> False) -> NoDup (l1 ++ l2).
Proof.
  induction 1 as [|x xs Hx HN IH]; cbn; intros H2 Hd; auto.
  constructor.
  - rewrite in_app_iff. intros [|]; [auto|]. eapply Hd; eauto.
  - apply IH; auto. intros a Ha. apply Hd. auto.
Qed.
#[global] Arguments eqb : simpl never.

Lemma NoDup_app_inv {A} (l1 l2 : list A) :
  NoDup (l1 ++ l2) -> NoDup l1 /\ NoDup l2 /\ (forall a, In a l1 -> In a l2 -> False).
Proof.
  induction l1 as [|x xs IH]; cbn; intros HN.
  - repeat split; auto. constructor.
  - inversion HN as [|? ? Hx HN']; subst. destruct (IH HN') as (H1 & H2 & H3).
    rewrite in_app_iff in Hx. repeat split; auto.
    + constructor; tauto.
    + intros a [<-|Ha] Hb; [tauto|eauto].
Qed.
Lemma NoDup_app_remove_l {A} (l1 l2 : list A) : NoDup (l1 ++ l2) -> NoDup l2.
Proof. intros HN. now apply NoDup_app_inv in HN. Qed.
Lemma NoDup_app_remove_r {A} (l1 l2 : list A) : NoDup (l1 ++ l2) -> NoDup l1.
Proof. intros HN. now apply NoDup_app_inv in HN. Qed.
