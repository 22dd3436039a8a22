(** Proofs about the lazy archive reader. *)
From Coq Require Import Permutation.
From Verif.Base Require Import Py PyFacts.
From Verif.Lazy Require Import Model Spec.
Local Open Scope string_scope.
Local Open Scope list_scope.

Section P.
Context {B : Type}.
Implicit Types (a : archive B) (r : reader B).

Lemma holds_open a n d : holds a n d <-> open_member a n = Ok d.
Proof.
  unfold holds, open_member. destruct (dget _ ("archive/data/" ++ n)%string) as [x|].
  - split; [intros [[= <-]|[[=] _]]; reflexivity|intros [= <-]; auto].
  - destruct (dget _ (a_name a ++ "/data/" ++ n)%string) as [y|].
    + split; [intros [[=]|[_ [= <-]]]; reflexivity|intros [= <-]; auto].
    + split; [intros [[=]|[_ [=]]]|intros [=]].
Qed.

(** the reader is closed, or open on the member it names *)
Definition good a r : Prop :=
  (r_file_name r = None /\ r_file r = None) \/
  exists n h, r_file_name r = Some n /\ r_file r = Some h /\ open_member a n = Ok (h_data h) /\ h_closed h = false /\
              h_pos h <= length (h_data h).

Lemma slice_length off len (l : list B) : length (slice off len l) = Nat.min len (length l - off).
Proof. unfold slice. now rewrite firstn_length, skipn_length. Qed.
Lemma slice_min off len (l : list B) : slice (Nat.min off (length l)) len l = slice off len l.
Proof.
  unfold slice. destruct (Nat.le_gt_cases off (length l)) as [Hl|Hl]; [now rewrite Nat.min_l|].
  rewrite Nat.min_r by lia. rewrite !skipn_all2 by lia. reflexivity.
Qed.

Lemma read_at_good a r n off len d : good a r -> holds a n d ->
  good a (fst (read_at a r n off len)) /\ snd (read_at a r n off len) = Ok (slice off len d) /\
  r_file_name (fst (read_at a r n off len)) = Some n /\
  (exists h, r_file (fst (read_at a r n off len)) = Some h /\ h_data h = d /\ h_pos h = Nat.min (off + len) (length d)) /\
  r_opens (fst (read_at a r n off len)) =
    (if match r_file_name r, r_file r with
        | Some m, Some h => eqb m n && Nat.leb (h_pos h) off
        | _, _ => false end then r_opens r else S (r_opens r)).
Proof.
  intros Hg Hh. apply holds_open in Hh.
  (* reading from an open handle on [d] at a position up to [off] *)
  assert (Hread : forall (p k : nat), p <= off ->
     let r1 := {| r_file_name := Some n; r_file := Some {| h_data := d; h_pos := Nat.min off (length d); h_closed := false |}; r_opens := k |} in
     good a (fst (read r1 len)) /\ snd (read r1 len) = Ok (slice off len d) /\ r_file_name (fst (read r1 len)) = Some n /\
     (exists h, r_file (fst (read r1 len)) = Some h /\ h_data h = d /\ h_pos h = Nat.min (off + len) (length d)) /\
     r_opens (fst (read r1 len)) = k).
  { intros p k Hp r1. unfold read. cbn [r_file r1 h_data h_pos fst snd r_file_name r_opens h_closed].
    fold (slice (Nat.min off (length d)) len d). rewrite slice_min, slice_length.
    split; [|split; [reflexivity|split; [reflexivity|split; [|reflexivity]]]].
    - right. do 2 eexists. split; [reflexivity|]. split; [reflexivity|]. cbn. split; [exact Hh|]. split; [reflexivity|]. lia.
    - eexists. split; [reflexivity|]. split; [reflexivity|]. cbn. lia. }
  unfold read_at, open_file, must_open.
  destruct Hg as [[E1 E2]|(m & h & E1 & E2 & Em & Ec & Hp)]; rewrite E1, E2.
  - change (negb (eqb None (Some n))) with true. cbn [rbind]. rewrite Hh. cbn [r_file tell h_closed h_pos].
    replace (Nat.ltb off 0) with false by reflexivity. cbn [h_data r_file_name r_opens].
    apply (Hread 0). lia.
  - assert (Es : eqb (Some m) (Some n) = eqb m n) by reflexivity. rewrite Es.
    destruct (eqb_spec m n) as [-> | Hne]; cbn [negb andb].
    + assert (Et : tell h = Ok (h_pos h)) by (unfold tell; now rewrite Ec). rewrite Et. cbn [rbind]. rewrite Hh in Em. injection Em as Em.
      destruct (Nat.ltb_spec off (h_pos h)) as [Hlt|Hge].
      * rewrite Hh. cbn [r_file tell h_closed h_pos]. replace (Nat.ltb off 0) with false by reflexivity.
        cbn [h_data r_file_name r_opens]. destruct (Nat.leb_spec (h_pos h) off); [lia|]. apply (Hread 0). lia.
      * rewrite E2, Et. destruct (Nat.ltb_spec off (h_pos h)); [lia|].
        rewrite E1, <- Em. destruct (Nat.leb_spec (h_pos h) off); [|lia]. apply (Hread (h_pos h)). lia.
    + rewrite Hh. cbn [r_file tell h_closed h_pos]. replace (Nat.ltb off 0) with false by reflexivity.
      cbn [h_data r_file_name r_opens]. apply (Hread 0). lia.
Qed.

Lemma new_good a : good a new_reader.
Proof. now left. Qed.
Lemma after_good a history : valid a history -> forall r, good a r -> good a (after a r history).
Proof.
  induction history as [|[[n off] len] h IH]; intros Hv r Hr; [exact Hr|]. cbn [after fold_left].
  destruct (Hv n off len (or_introl eq_refl)) as [d Hd]. apply IH; [intros x y z Hin; apply (Hv x y z); now right|].
  now apply (read_at_good a r n off len d).
Qed.

(** ** shapes *)
Lemma reduce_prod s : s <> [] -> reduce_mul s = Ok (prod s).
Proof.
  destruct s as [|x s]; [congruence|]. intros _. cbn. f_equal. unfold prod.
  revert x. induction s as [|y s IH]; intros x; cbn; [lia|]. rewrite IH. lia.
Qed.
Lemma row_major_bound idx shape : in_range idx shape -> dot idx (row_major shape) < prod shape.
Proof.
  unfold dot. induction 1 as [|i x idx s Hi H IH]; cbn; [lia|]. fold (prod s). nia.
Qed.
Lemma dot_triples (l : list (nat * (nat * nat))) :
  dot (map fst l) (map (fun t => snd (snd t)) l) = fold_right Nat.add 0 (map (fun t => fst t * snd (snd t)) l).
Proof. unfold dot. induction l as [|t l IH]; cbn; auto. Qed.
Lemma sum_perm l l' : Permutation l l' -> fold_right Nat.add 0 l = fold_right Nat.add 0 l'.
Proof. induction 1; cbn; lia. Qed.
Lemma prod_perm l l' : Permutation l l' -> prod l = prod l'.
Proof. unfold prod. induction 1; cbn; nia. Qed.

Lemma dense_bound shape stride idx : dense shape stride -> in_range idx shape -> dot idx stride < prod shape.
Proof.
  intros (Hl & l & Hp & Hrm) Hr.
  assert (Hli : length idx = length shape) by (clear - Hr; induction Hr; cbn; auto).
  set (tr := combine idx (combine shape stride)).
  assert (M : forall idx : list nat, length idx = length shape ->
     map fst (combine idx (combine shape stride)) = idx /\ map snd (combine idx (combine shape stride)) = combine shape stride).
  { clear - Hl. revert stride Hl. induction shape as [|x s IH]; intros [|y st] Hl idx Hi; try discriminate; destruct idx as [|i idx]; try discriminate; cbn; auto.
    injection Hl as Hl. injection Hi as Hi. destruct (IH st Hl idx Hi) as [-> ->]. auto. }
  destruct (M idx Hli) as [M1 M2]. fold tr in M1, M2.
  assert (C : map fst (combine shape stride) = shape /\ map snd (combine shape stride) = stride).
  { clear - Hl. revert stride Hl. induction shape as [|x s IH]; intros [|y st] Hl; try discriminate; cbn; auto.
    injection Hl as Hl. destruct (IH st Hl) as [-> ->]. auto. }
  destruct C as [C1 C2].
  pose proof Hp as Hp'. rewrite <- M2 in Hp'. apply Permutation_sym in Hp'.
  destruct (Permutation_map_inv _ _ Hp') as (tr' & El & Ht).
  assert (R1 : Forall (fun t : nat * (nat * nat) => fst t < fst (snd t)) tr).
  { subst tr. clear - Hr Hl. revert stride Hl. induction Hr as [|i x idx s Hi H IH]; intros [|y st] Hl; try discriminate; cbn; constructor; auto. }
  assert (R2 : Forall (fun t : nat * (nat * nat) => fst t < fst (snd t)) tr').
  { rewrite Forall_forall in *. intros t Hin. apply R1. eapply Permutation_in; [apply Permutation_sym; exact Ht|exact Hin]. }
  assert (R3 : in_range (map fst tr') (map fst l)).
  { rewrite El, map_map. clear - R2. induction R2; cbn; constructor; auto. }
  pose proof (row_major_bound _ _ R3) as Hb. rewrite <- Hrm in Hb.
  replace (map snd l) with (map (fun t : nat * (nat * nat) => snd (snd t)) tr') in Hb by (rewrite El, map_map; reflexivity).
  rewrite dot_triples in Hb.
  rewrite <- (sum_perm _ _ (Permutation_map (fun t : nat * (nat * nat) => fst t * snd (snd t)) Ht)) in Hb.
  rewrite <- dot_triples in Hb. rewrite M1 in Hb.
  replace (map (fun t : nat * (nat * nat) => snd (snd t)) tr) with (map snd (map snd tr)) in Hb by (rewrite map_map; reflexivity).
  rewrite M2, C2 in Hb. rewrite <- C1. rewrite (prod_perm _ _ (Permutation_map fst Hp)). exact Hb.
Qed.

(** ** elements *)
Lemma nth_slice (l : list B) off len k : k < len -> nth_error (slice off len l) k = nth_error l (off + k).
Proof.
  intros Hk. unfold slice. revert l len k Hk. induction off as [|off IH]; intros l.
  - intros len k Hk. cbn [skipn]. change (0 + k) with k. revert len Hk l. induction k as [|k IHk]; intros len Hk l; destruct len; try lia; destruct l; cbn; auto. apply IHk. lia.
  - intros len k Hk. destruct l as [|x l]; cbn; [destruct len, k; reflexivity|]. now apply IH.
Qed.
Lemma map_nth_slice (l : list B) off len : off + len <= length l ->
  map (fun k => nth_error l (off + k)) (seq 0 len) = map Some (slice off len l).
Proof.
  intros Hl. unfold slice. revert off Hl. induction len as [|len IH]; intros off Hl; [reflexivity|].
  cbn [seq map]. destruct (nth_error l (off + 0)) as [x|] eqn:E; [|apply nth_error_None in E; lia].
  assert (Es : skipn off l = x :: skipn (S off) l).
  { clear - E. revert off E. induction l as [|y l IHl]; intros [|off] E; cbn in *; try discriminate.
    - congruence.
    - now rewrite IHl. }
  rewrite Es. cbn [firstn map]. f_equal. rewrite <- IH by lia. rewrite <- seq_shift, map_map. apply map_ext. intros k. f_equal. lia.
Qed.

Lemma element_read (d : list B) off n b shape stride idx :
  dot idx stride < n -> (off + dot idx stride + 1) * b <= length d ->
  element {| t_bytes := slice (off * b) (n * b) d; t_itemsize := b; t_shape := shape; t_stride := stride |} idx =
  map Some (slice ((off + dot idx stride) * b) b d).
Proof.
  intros Hd Hl. unfold element. cbn [t_bytes t_itemsize t_stride]. rewrite <- map_nth_slice by nia.
  apply map_ext_in. intros k Hk. apply in_seq in Hk. rewrite nth_slice by nia. f_equal. lia.
Qed.
End P.
