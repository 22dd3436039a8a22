(** The checksum in the names of the adapter cache: it tells apart strings that differ in a stretch of four characters. *)
From Coq Require Import NArith Lia.
From Verif.Base Require Import Py PyFacts PyStr.
From Verif.Common Require Import Model Lora.
Local Open Scope string_scope.
Local Open Scope list_scope.
Local Open Scope N_scope.

Lemma crc_bit_lxor a b : crc_bit (N.lxor a b) = N.lxor (crc_bit a) (crc_bit b).
Proof.
  unfold crc_bit. assert (Ho : N.odd (N.lxor a b) = xorb (N.odd a) (N.odd b)) by (rewrite <- !N.bit0_odd; apply N.lxor_spec). rewrite Ho, N.shiftr_lxor.
  destruct (N.odd a), (N.odd b); cbn [xorb]; try reflexivity; apply N.bits_inj; intros n; rewrite ?N.lxor_spec;
  destruct (N.testbit (N.shiftr a 1) n), (N.testbit (N.shiftr b 1) n), (N.testbit 3988292384 n); reflexivity.
Qed.
Lemma iter_S k (x : N) : Nat.iter (S k) crc_bit x = crc_bit (Nat.iter k crc_bit x).
Proof. reflexivity. Qed.
Lemma iter_S_r k (x : N) : Nat.iter (S k) crc_bit x = Nat.iter k crc_bit (crc_bit x).
Proof. induction k as [|k IH]; [reflexivity|]. rewrite iter_S, IH. reflexivity. Qed.
Lemma iter_lxor k : forall a b, Nat.iter k crc_bit (N.lxor a b) = N.lxor (Nat.iter k crc_bit a) (Nat.iter k crc_bit b).
Proof. induction k as [|k IH]; intros a b; [reflexivity|]. rewrite !iter_S, IH. apply crc_bit_lxor. Qed.
Lemma crc_bit_double v : crc_bit (N.shiftl v 1) = v.
Proof. unfold crc_bit. assert (H : N.odd (N.shiftl v 1) = false) by (rewrite <- N.bit0_odd; apply N.shiftl_spec_low; lia).
  rewrite H. rewrite N.shiftr_shiftl_l by lia. apply N.shiftl_0_r. Qed.
Lemma iter_shift k : forall v, Nat.iter k crc_bit (N.shiftl v (N.of_nat k)) = v.
Proof.
  induction k as [|k IH]; intros v; [apply N.shiftl_0_r|]. rewrite Nat2N.inj_succ, <- N.add_1_l, <- N.shiftl_shiftl, iter_S_r.
  rewrite N.shiftl_shiftl, N.add_comm, <- N.shiftl_shiftl, crc_bit_double. apply IH.
Qed.
Lemma iter_add j k (x : N) : Nat.iter (j + k) crc_bit x = Nat.iter j crc_bit (Nat.iter k crc_bit x).
Proof. induction j as [|j IH]; [reflexivity|]. cbn [Nat.add]. now rewrite !iter_S, IH. Qed.

Definition small (x : N) : Prop := N.shiftr x 32 = 0.
Lemma small_lxor a b : small a -> small b -> small (N.lxor a b).
Proof. unfold small. intros Ha Hb. now rewrite N.shiftr_lxor, Ha, Hb. Qed.
Lemma small_bit a : small a -> small (crc_bit a).
Proof.
  intros H. assert (H1 : small (N.shiftr a 1)) by (unfold small in *; rewrite N.shiftr_shiftr, N.add_comm, <- N.shiftr_shiftr, H; reflexivity).
  unfold crc_bit. destruct (N.odd a); [|exact H1]. apply small_lxor; [exact H1|reflexivity].
Qed.
Lemma crc_bit_zero x : small x -> crc_bit x = 0 -> x = 0.
Proof.
  unfold crc_bit. intros Hs H. destruct (N.odd x) eqn:O.
  - apply N.lxor_eq in H. exfalso. unfold small in Hs. assert (E : N.shiftr (N.shiftr x 1) 31 = 0) by (rewrite N.shiftr_shiftr; exact Hs). rewrite H in E. discriminate.
  - rewrite (N.div2_odd x), O. rewrite <- N.div2_spec in H. rewrite H. reflexivity.
Qed.
Lemma iter_zero k : forall x, small x -> Nat.iter k crc_bit x = 0 -> x = 0.
Proof.
  induction k as [|k IH]; intros x Hs H; [exact H|]. rewrite iter_S_r in H. apply crc_bit_zero; [exact Hs|]. apply IH; [now apply small_bit|exact H].
Qed.

(** the bits of a string, first character lowest *)
Fixpoint word (s : string) : N := match s with EmptyString => 0 | String c s => N.lxor (N_of_ascii c) (N.shiftl (word s) 8) end.
Lemma N_of_ascii_small c : N.shiftr (N_of_ascii c) 8 = 0.
Proof. destruct c as [[] [] [] [] [] [] [] []]; reflexivity. Qed.
Lemma word_inj x : forall y, String.length x = String.length y -> word x = word y -> x = y.
Proof.
  induction x as [|c x IH]; intros [|d y] Hl H; cbn in Hl; try lia; [reflexivity|]. cbn [word] in H. assert (Hw : word x = word y).
  { apply (f_equal (fun w => N.shiftr w 8)) in H. rewrite !N.shiftr_lxor, !N_of_ascii_small, !N.lxor_0_l in H.
    rewrite !N.shiftr_shiftl_l, !N.shiftl_0_r in H by lia. exact H. }
  assert (Hx : x = y) by (apply IH; [lia|exact Hw]). rewrite Hw in H. assert (Hc : N_of_ascii c = N_of_ascii d).
  { apply (f_equal (fun w => N.lxor w (N.shiftl (word y) 8))) in H. rewrite !N.lxor_assoc, N.lxor_nilpotent, !N.lxor_0_r in H. exact H. }
  rewrite <- (ascii_N_embedding c), <- (ascii_N_embedding d), Hc, Hx. reflexivity.
Qed.
Lemma word_small s : (String.length s <= 4)%nat -> small (word s).
Proof.
  intros Hl. assert (H : forall k t, (String.length t <= k)%nat -> N.shiftr (word t) (8 * N.of_nat k) = 0).
  { induction k as [|k IH]; intros [|c t] Ht; cbn in Ht; try lia; [reflexivity|apply N.shiftr_0_l|]. cbn [word].
    rewrite N.shiftr_lxor. replace (8 * N.of_nat (S k)) with (8 + 8 * N.of_nat k) by lia. rewrite <- !N.shiftr_shiftr, N_of_ascii_small, N.shiftr_0_l, N.lxor_0_l.
    rewrite N.shiftr_shiftl_l, N.shiftl_0_r by lia. apply IH. lia. }
  exact (H 4%nat s Hl).
Qed.
Lemma crc_run_word s : forall c, crc_run c s = Nat.iter (8 * String.length s) crc_bit (N.lxor c (word s)).
Proof.
  induction s as [|b s IH]; intros c; [now rewrite N.lxor_0_r|]. cbn [crc_run word]. rewrite IH. unfold crc_byte. cbn [String.length].
  replace (8 * S (String.length s))%nat with (8 * String.length s + 8)%nat by lia. rewrite iter_add. f_equal.
  rewrite <- N.lxor_assoc, (iter_lxor 8 (N.lxor c _)). f_equal. symmetry. exact (iter_shift 8 (word s)).
Qed.
Lemma crc_run_app a : forall c b, crc_run c (a ++ b) = crc_run (crc_run c a) b.
Proof. induction a as [|x a IH]; intros c b; [reflexivity|]. cbn. apply IH. Qed.
Lemma small_iter k x : small x -> small (Nat.iter k crc_bit x).
Proof. intros H. induction k as [|k IH]; [exact H|rewrite iter_S; now apply small_bit]. Qed.

Theorem crc32_burst a x y b : String.length x = String.length y -> (String.length x <= 4)%nat -> x <> y ->
  crc32 (a ++ x ++ b) <> crc32 (a ++ y ++ b).
Proof.
  intros Hl H4 Hne H. unfold crc32 in H. apply N2Z.inj in H. apply (f_equal (fun w => N.lxor w 4294967295)) in H.
  rewrite !N.lxor_assoc, N.lxor_nilpotent, !N.lxor_0_r, !crc_run_app in H. rewrite !(crc_run_word b) in H. set (c := crc_run 4294967295 a) in H.
  apply N.lxor_eq_0_iff in H. rewrite <- iter_lxor in H.
  replace (N.lxor (N.lxor (crc_run c x) (word b)) (N.lxor (crc_run c y) (word b))) with (N.lxor (crc_run c x) (crc_run c y)) in H
    by (apply N.bits_inj; intros n; rewrite !N.lxor_spec; destruct (N.testbit (crc_run c x) n), (N.testbit (crc_run c y) n), (N.testbit (word b) n); reflexivity).
  rewrite !crc_run_word, <- Hl, <- iter_lxor in H.
  replace (N.lxor (N.lxor c (word x)) (N.lxor c (word y))) with (N.lxor (word x) (word y)) in H
    by (apply N.bits_inj; intros n; rewrite !N.lxor_spec; destruct (N.testbit (word x) n), (N.testbit (word y) n), (N.testbit c n); reflexivity).
  assert (Hs : small (N.lxor (word x) (word y))) by (apply small_lxor; apply word_small; lia).
  apply iter_zero in H; [|now apply small_iter]. apply iter_zero in H; [|exact Hs]. apply N.lxor_eq in H. apply Hne. now apply word_inj.
Qed.

Lemma last_number b b' d d' : all_chars is_digit d = true -> all_chars is_digit d' = true -> (b ++ "_" ++ d = b' ++ "_" ++ d')%string -> d = d'.
Proof.
  intros Hd Hd'. revert b'. induction b as [|c b IH]; intros [|c' b'] H.
  - now injection H.
  - exfalso. injection H as _ H. rewrite H, all_chars_app in Hd. apply andb_true_iff in Hd as [_ Hd]. cbn in Hd. discriminate.
  - exfalso. injection H as _ H. rewrite <- H, all_chars_app in Hd'. apply andb_true_iff in Hd' as [_ Hd']. cbn in Hd'. discriminate.
  - injection H as _ H. now apply (IH b').
Qed.
Lemma unique_id_inj p q : unique_id p = unique_id q -> basename (mp_path p) = basename (mp_path q) /\ crc32 (str_path p) = crc32 (str_path q).
Proof.
  intros H. unfold unique_id in H. assert (Hd : str_of_Z (crc32 (str_path p)) = str_of_Z (crc32 (str_path q))).
  { apply last_number in H; [exact H| |]; apply str_of_Z_digits; unfold crc32; apply N2Z.is_nonneg. }
  split; [|now apply str_of_Z_inj]. rewrite Hd in H. now apply app_str_inj_r in H.
Qed.
Lemma join_inj dir a b : join dir a = join dir b -> a = b.
Proof.
  unfold join. destruct dir as [|c dir]; [easy|]. destruct (eqb _ _); intros H; apply app_str_inj_l in H; [exact H|]. now injection H.
Qed.
