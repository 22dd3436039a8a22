(** Python strings: [str(int)] in decimal, and facts about it. *)
From Verif.Base Require Import Py.
Local Open Scope string_scope.
Local Open Scope list_scope.

Definition digit_char (d : Z) : ascii := ascii_of_nat (48 + Z.to_nat d).

(** decimal digits of a non-negative number, most significant first *)
Fixpoint digits (fuel : nat) (z : Z) : string :=
  match fuel with
  | O => ""
  | S f => ((if z <? 10 then "" else digits f (z / 10)) ++ String (digit_char (z mod 10)) "")%Z%string
  end.

(** [str(i)] for an int *)
Definition str_of_Z (z : Z) : string :=
  if (z <? 0)%Z then String "-" (digits (S (Z.to_nat (Z.log2 (- z)))) (- z))
  else digits (S (Z.to_nat (Z.log2 z))) z.

Definition is_digit (c : ascii) : bool :=
  Nat.leb 48 (nat_of_ascii c) && Nat.leb (nat_of_ascii c) 57.

Fixpoint all_chars (p : ascii -> bool) (s : string) : bool :=
  match s with "" => true | String c s => p c && all_chars p s end.

Lemma all_chars_app p a b : all_chars p (a ++ b)%string = all_chars p a && all_chars p b.
Proof. induction a; cbn; [reflexivity|]. rewrite IHa. apply andb_assoc. Qed.

Lemma app_str_assoc (a b c : string) : ((a ++ b) ++ c = a ++ (b ++ c))%string.
Proof. induction a; cbn; congruence. Qed.

Lemma app_str_inj_l (a b c : string) : (a ++ b = a ++ c)%string -> b = c.
Proof. induction a; cbn; [auto|]. intros [=]; auto. Qed.

Lemma app_str_nil_r (a : string) : (a ++ "" = a)%string.
Proof. induction a; cbn; congruence. Qed.

Lemma len_app (a b : string) : String.length (a ++ b)%string = (String.length a + String.length b)%nat.
Proof. induction a; cbn; congruence. Qed.

Lemma app_str_inj_len (a b c d : string) :
  String.length a = String.length b -> (a ++ c = b ++ d)%string -> a = b /\ c = d.
Proof.
  revert b; induction a as [|x a IH]; intros [|y b]; cbn; try discriminate; auto.
  intros [= Hl] [= -> He]. destruct (IH _ Hl He) as [-> ->]. auto.
Qed.

Lemma app_str_inj_r (a b c : string) : (a ++ c = b ++ c)%string -> a = b.
Proof.
  intros He. assert (Hl : String.length a = String.length b).
  { apply (f_equal String.length) in He. rewrite !len_app in He. lia. }
  now destruct (app_str_inj_len _ _ _ _ Hl He).
Qed.

Lemma digit_char_inj a b : (0 <= a < 10)%Z -> (0 <= b < 10)%Z -> digit_char a = digit_char b -> a = b.
Proof.
  unfold digit_char. intros Ha Hb He. apply (f_equal nat_of_ascii) in He.
  rewrite !nat_ascii_embedding in He by lia. lia.
Qed.

Lemma digit_char_digit a : (0 <= a < 10)%Z -> is_digit (digit_char a) = true.
Proof.
  intros Ha. unfold is_digit, digit_char. rewrite nat_ascii_embedding by lia.
  apply andb_true_iff; split; apply Nat.leb_le; lia.
Qed.

Lemma digits_digit f z : (0 <= z)%Z -> all_chars is_digit (digits f z) = true.
Proof.
  revert z; induction f as [|f IH]; intros z Hz; [reflexivity|]. cbn [digits].
  rewrite all_chars_app. cbn [all_chars].
  rewrite digit_char_digit by (apply Z.mod_pos_bound; lia).
  destruct (z <? 10)%Z; cbn; [reflexivity|]. rewrite IH; [reflexivity|]. apply Z.div_pos; lia.
Qed.

Lemma fuel_step f z : (10 <= z < 2 ^ Z.of_nat (S f))%Z -> (0 <= z / 10 < 2 ^ Z.of_nat f)%Z /\ (1 <= f)%nat.
Proof.
  intros [H1 H2]. rewrite Nat2Z.inj_succ, Z.pow_succ_r in H2 by lia.
  split; [split; [apply Z.div_pos; lia|apply Z.div_lt_upper_bound; lia]|].
  destruct f; [change (2 ^ Z.of_nat 0)%Z with 1%Z in H2; lia|lia].
Qed.

Lemma digits_mono f : forall g a b, (1 <= f)%nat -> (1 <= g)%nat ->
  (0 <= a <= b)%Z -> (a < 2 ^ Z.of_nat f)%Z -> (b < 2 ^ Z.of_nat g)%Z ->
  (String.length (digits f a) <= String.length (digits g b))%nat.
Proof.
  induction f as [|f IH]; intros [|g] a b Hf Hg Hab Ha Hb; try lia. cbn [digits]. rewrite !len_app. cbn [String.length].
  destruct (Z.ltb_spec a 10), (Z.ltb_spec b 10); cbn [String.length]; try lia.
  destruct (fuel_step f a ltac:(lia)) as [Ha1 Hf1]. destruct (fuel_step g b ltac:(lia)) as [Hb1 Hg1].
  enough (String.length (digits f (a / 10)) <= String.length (digits g (b / 10)))%nat by lia.
  apply IH; try lia. split; [lia|]. apply Z.div_le_mono; lia.
Qed.

Lemma digits_inj f : forall g a b, (1 <= f)%nat -> (1 <= g)%nat ->
  (0 <= a)%Z -> (0 <= b)%Z -> (a < 2 ^ Z.of_nat f)%Z -> (b < 2 ^ Z.of_nat g)%Z ->
  digits f a = digits g b -> a = b.
Proof.
  induction f as [|f IH]; intros [|g] a b Hf Hg Ha0 Hb0 Ha Hb He; try lia. cbn [digits] in He.
  assert (Hm : forall z, (0 <= z mod 10 < 10)%Z) by (intros; apply Z.mod_pos_bound; lia).
  assert (Hl : String.length (if (a <? 10)%Z then "" else digits f (a / 10)) =
               String.length (if (b <? 10)%Z then "" else digits g (b / 10))).
  { apply (f_equal String.length) in He. rewrite !len_app in He. cbn in He. lia. }
  destruct (app_str_inj_len _ _ _ _ Hl He) as [H1 H2]. injection H2 as H2.
  apply digit_char_inj in H2; auto.
  rewrite (Z.div_mod a 10), (Z.div_mod b 10) by lia. rewrite H2. f_equal. f_equal.
  assert (Hne : forall f z, (1 <= f)%nat -> digits f z <> "").
  { intros [|f'] z ?; [lia|]. cbn. intros E. apply (f_equal String.length) in E. rewrite len_app in E. cbn in E. lia. }
  destruct (Z.ltb_spec a 10), (Z.ltb_spec b 10).
  - rewrite !Z.div_small by lia. reflexivity.
  - destruct (fuel_step g b ltac:(lia)) as [_ Hg1]. symmetry in H1. now apply Hne in H1.
  - destruct (fuel_step f a ltac:(lia)) as [_ Hf1]. now apply Hne in H1.
  - destruct (fuel_step f a ltac:(lia)) as [Ha1 Hf1]. destruct (fuel_step g b ltac:(lia)) as [Hb1 Hg1].
    apply (IH g); lia || auto.
Qed.

Lemma log2_fuel z : (0 <= z)%Z -> (z < 2 ^ Z.of_nat (S (Z.to_nat (Z.log2 z))))%Z.
Proof.
  intros Hz. rewrite Nat2Z.inj_succ, Z2Nat.id by apply Z.log2_nonneg.
  destruct (Z.eq_dec z 0) as [->|]; [cbn; lia|]. apply Z.log2_spec. lia.
Qed.

(** ** Facts used elsewhere *)
Lemma str_of_Z_digits z : (0 <= z)%Z -> all_chars is_digit (str_of_Z z) = true.
Proof. intros Hz. unfold str_of_Z. destruct (Z.ltb_spec z 0); [lia|]. now apply digits_digit. Qed.

Lemma str_of_Z_mono a b : (0 <= a <= b)%Z -> (String.length (str_of_Z a) <= String.length (str_of_Z b))%nat.
Proof.
  intros Hz. unfold str_of_Z. destruct (Z.ltb_spec a 0), (Z.ltb_spec b 0); try lia.
  apply digits_mono; try lia; apply log2_fuel; lia.
Qed.

Lemma digits_head f z : (1 <= f)%nat -> (0 <= z)%Z -> exists c s, digits f z = String c s /\ is_digit c = true.
Proof.
  intros Hf Hz. pose proof (digits_digit f z Hz) as Hd. destruct (digits f z) as [|c s] eqn:E.
  - destruct f; [lia|]. cbn in E. apply (f_equal String.length) in E. rewrite len_app in E. cbn in E. lia.
  - cbn in Hd. apply andb_true_iff in Hd. exists c, s. tauto.
Qed.

Lemma str_of_Z_inj a b : str_of_Z a = str_of_Z b -> a = b.
Proof.
  unfold str_of_Z. destruct (Z.ltb_spec a 0), (Z.ltb_spec b 0); intros He.
  - injection He as He. change (digits (S (Z.to_nat (Z.log2 (- a)))) (- a) = digits (S (Z.to_nat (Z.log2 (- b)))) (- b)) in He.
    apply digits_inj in He; try lia; apply log2_fuel; lia.
  - destruct (digits_head (S (Z.to_nat (Z.log2 b))) b) as (c & s & E & Hc); try lia. rewrite E in He.
    injection He as <- _. discriminate.
  - destruct (digits_head (S (Z.to_nat (Z.log2 a))) a) as (c & s & E & Hc); try lia. rewrite E in He.
    injection He as -> _. discriminate.
  - apply digits_inj in He; try lia; apply log2_fuel; lia.
Qed.

Lemma str_of_Z_nonempty z : str_of_Z z <> "".
Proof.
  unfold str_of_Z. destruct (Z.ltb_spec z 0); [discriminate|].
  destruct (digits_head (S (Z.to_nat (Z.log2 z))) z) as (c & s & E & Hc); try lia. now rewrite E.
Qed.

(** a run of digits ends where the first non-digit starts *)
Lemma digit_run_inj a b x y :
  all_chars is_digit a = true -> all_chars is_digit b = true ->
  match x with "" => True | String c _ => is_digit c = false end ->
  match y with "" => True | String c _ => is_digit c = false end ->
  (a ++ x = b ++ y)%string -> a = b /\ x = y.
Proof.
  revert b; induction a as [|c a IH]; intros [|d b] Ha Hb Hx Hy; cbn in *; try rewrite andb_true_iff in *; intros He.
  - auto.
  - subst x. destruct Hb. congruence.
  - subst y. destruct Ha. congruence.
  - injection He as -> He. destruct (IH b) as [-> ->]; tauto || auto.
Qed.

Lemma str_index_inj i j x y :
  (0 <= i)%Z -> (0 <= j)%Z ->
  match x with "" => True | String c _ => is_digit c = false end ->
  match y with "" => True | String c _ => is_digit c = false end ->
  (str_of_Z i ++ x = str_of_Z j ++ y)%string -> i = j /\ x = y.
Proof.
  intros Hi Hj Hx Hy He. apply digit_run_inj in He; auto using str_of_Z_digits.
  destruct He as [He ->]. split; auto. now apply str_of_Z_inj.
Qed.

(** ** The number a string of digits denotes *)
Fixpoint digits_value (acc : Z) (s : string) : Z :=
  match s with "" => acc | String c s => digits_value (acc * 10 + (Z.of_nat (nat_of_ascii c) - 48)) s end.
Lemma digits_value_app a : forall acc b, digits_value acc (a ++ b)%string = digits_value (digits_value acc a) b.
Proof. induction a; cbn; intros; auto. Qed.
Lemma digits_value_digits f : forall z, (1 <= f)%nat -> (0 <= z < 2 ^ Z.of_nat f)%Z -> digits_value 0 (digits f z) = z.
Proof.
  induction f as [|f IH]; intros z Hf Hz; [lia|]. cbn [digits]. rewrite digits_value_app. cbn [digits_value].
  assert (Hm : (0 <= z mod 10 < 10)%Z) by (apply Z.mod_pos_bound; lia).
  unfold digit_char. rewrite nat_ascii_embedding by lia.
  assert (Hd : digits_value 0 (if (z <? 10)%Z then "" else digits f (z / 10)) = (z / 10)%Z).
  { destruct (Z.ltb_spec z 10); [cbn; rewrite Z.div_small; lia|]. destruct (fuel_step f z ltac:(lia)). apply IH; lia. }
  rewrite Hd. rewrite (Z.div_mod z 10) at 3 by lia. lia.
Qed.
Lemma digits_value_str z : (0 <= z)%Z -> digits_value 0 (str_of_Z z) = z.
Proof.
  intros Hz. unfold str_of_Z. destruct (Z.ltb_spec z 0); [lia|]. apply digits_value_digits; [lia|]. split; [lia|now apply log2_fuel].
Qed.
