(** C56: RAM averages the active changes at each position. *)
From Coq Require Import Reals Lra Psatz Permutation.
From Verif.Base Require Import Py PyFacts RList.
From Verif.Methods Require Import Model LinearProofs More.
Local Open Scope list_scope.
Local Open Scope R_scope.

(** ** Specification: the changes of more than [eps] made at position [i] *)
Definition changes (eps : R) (ts : list tensor) (base : tensor) (i : nat) : list R :=
  filter (fun d => if Rlt_dec eps (Rabs d) then true else false) (map (fun t => nth i (dat t) 0 - nth i (dat base) 0) ts).
Definition compatible (ts : list tensor) (base : tensor) : Prop := ts <> [] /\ forall t, In t ts -> shp t = shp base.

Lemma same_shapes_iff ts base : same_shapes ts base = true <-> forall t, In t ts -> shp t = shp base.
Proof. unfold same_shapes. rewrite forallb_forall. split; intros H t Ht; apply shape_eqb_true; auto. Qed.
Lemma nth_map_seq {A} (f : nat -> A) n i d : (i < n)%nat -> nth i (map f (seq 0 n)) d = f i.
Proof. intros Hi. rewrite (map_nth_in f (seq 0 n) i 0%nat d) by (rewrite seq_length; exact Hi). rewrite seq_nth by exact Hi. reflexivity. Qed.
Lemma rsum_filter {A} (p : A -> bool) (f : A -> R) l : rsum (map (fun d => if p d then f d else 0) l) = rsum (map f (filter p l)).
Proof. induction l as [|x l IH]; [reflexivity|]. cbn [map filter]. rewrite rsum_cons, IH. destruct (p x); cbn [map]; rewrite ?rsum_cons; lra. Qed.
Lemma map2_map_l {A B C D} (f : A -> B) (g : B -> C -> D) l m : map2 g (map f l) m = map2 (fun a c => g (f a) c) l m.
Proof. revert m. induction l; intros [|]; cbn; auto. now rewrite IHl. Qed.
Lemma map2_map_r {A B C D} (f : A -> C) (g : B -> C -> D) l m : map2 g l (map f m) = map2 (fun a c => g a (f c)) l m.
Proof. revert m. induction l; intros [|]; cbn; auto. now rewrite IHl. Qed.
Lemma map2_diag {A B} (g : A -> A -> B) l : map2 g l l = map (fun a => g a a) l.
Proof. induction l; cbn; congruence. Qed.
Lemma map2_map {A B C D} (f : A -> B) (g : A -> C) (h : B -> C -> D) l : map2 h (map f l) (map g l) = map (fun a => h (f a) (g a)) l.
Proof. rewrite map2_map_l, map2_map_r. apply map2_diag. Qed.


(** the models that change position [i] *)
Definition changers (eps : R) (ts : list tensor) (base : tensor) (i : nat) : list tensor :=
  filter (fun t => if Rlt_dec eps (Rabs (nth i (dat t) 0 - nth i (dat base) 0)) then true else false) ts.
Definition delta (base : tensor) (i : nat) (t : tensor) : R := nth i (dat t) 0 - nth i (dat base) 0.
Lemma changes_changers eps ts base i : changes eps ts base i = map (delta base i) (changers eps ts base i).
Proof. unfold changes, changers, delta. induction ts as [|t ts IH]; [reflexivity|]. cbn [map filter]. destruct (Rlt_dec eps _); cbn [map]; congruence. Qed.

Lemma actives_changers eps ts base i : actives eps (column ts base i) = length (changers eps ts base i).
Proof. unfold actives. change (filter (active eps) (column ts base i)) with (changes eps ts base i). rewrite changes_changers, map_length. reflexivity. Qed.
Lemma ram_position_spec eps (lam : tensor -> R) ts base i :
  ram_position eps (map lam ts) (column ts base i) =
  match changers eps ts base i with
  | [] => 0
  | [t] => lam t * delta base i t
  | l => rsum (map (delta base i) l) / INR (length l)
  end.
Proof.
  unfold ram_position. rewrite actives_changers. set (n := length (changers eps ts base i)). unfold column. rewrite map2_map. cbv beta zeta.
  transitivity (rsum (map (fun t => if (if Rlt_dec eps (Rabs (nth i (dat t) 0 - nth i (dat base) 0)) then true else false)
    then (if Nat.eqb n 1 then delta base i t * lam t else 0) + (if Nat.ltb 1 n then delta base i t / Rmax (INR n) 1 else 0) else 0) ts)).
  { apply rsum_ext. intros t _. unfold active, delta, ent. destruct (Rlt_dec eps _); [reflexivity|]. unfold Rdiv. destruct (Nat.eqb n 1), (Nat.ltb 1 n); lra. }
  rewrite rsum_filter. fold (changers eps ts base i). subst n. destruct (changers eps ts base i) as [|t [|t' l]].
  - reflexivity.
  - cbn. lra.
  - set (l' := t :: t' :: l). assert (Hn : (1 < length l')%nat) by (cbn; lia). destruct (Nat.eqb_spec (length l') 1); [lia|]. destruct (Nat.ltb_spec 1 (length l')); [|lia].
    assert (1 <= INR (length l')) by (change 1 with (INR 1); apply le_INR; lia). rewrite Rmax_left by lra.
    transitivity (rsum (map (fun x => / INR (length l') * delta base i x) l')); [apply rsum_ext; intros; unfold Rdiv; ring|]. rewrite rsum_mul. unfold Rdiv. ring.
Qed.

Lemma ram_Ok ts base eps out : compatible ts base -> ram ts base eps = Ok out ->
  out = {| shp := shp base; dat := map (fun i => ent base i + ram_position eps (map (fun _ => 1) ts) (column ts base i)) (positions base) |}.
Proof. intros [Hne Hs] E. unfold ram in E. rewrite (proj2 (same_shapes_iff ts base) Hs) in E. destruct ts; [congruence|]. congruence. Qed.

(** RAM always succeeds on tensors of one shape. Each entry is the base's plus the mean of the changes of more than
    [eps] made there, and the base's own where there is none. *)
Theorem C56_mean ts base eps : compatible ts base ->
  exists out, ram ts base eps = Ok out /\ shp out = shp base /\ length (dat out) = length (dat base) /\
    forall i, (i < length (dat base))%nat ->
      let cs := changes eps ts base i in
      (cs = [] -> nth i (dat out) 0 = nth i (dat base) 0) /\
      (cs <> [] -> nth i (dat out) 0 = nth i (dat base) 0 + rsum cs / INR (length cs)).
Proof.
  intros Hc. destruct Hc as [Hne Hs]. eexists. split.
  { unfold ram. rewrite (proj2 (same_shapes_iff ts base) Hs). destruct ts; [congruence|reflexivity]. }
  cbn [shp dat]. unfold positions. rewrite map_length, seq_length. repeat split.
  - intros Hcs. rewrite nth_map_seq by assumption. rewrite ram_position_spec. rewrite changes_changers in Hcs. destruct (changers eps ts base i); [|discriminate]. unfold ent. lra.
  - intros Hcs. rewrite nth_map_seq by assumption. rewrite ram_position_spec. rewrite changes_changers in *.
    destruct (changers eps ts base i) as [|t [|t' l]]; [contradiction Hcs; reflexivity| |].
    + cbn. unfold ent. field.
    + rewrite map_length. reflexivity.
Qed.

(** The order of the models does not matter. *)
Lemma changes_perm eps ts ts' base i : Permutation ts ts' -> Permutation (changes eps ts base i) (changes eps ts' base i).
Proof.
  intros Hp. unfold changes. apply (Permutation_map (fun t => nth i (dat t) 0 - nth i (dat base) 0)) in Hp. induction Hp; cbn [filter].
  - constructor. - destruct (Rlt_dec _ _); [constructor|]; assumption. - destruct (Rlt_dec eps (Rabs y)), (Rlt_dec eps (Rabs x)); try reflexivity. apply perm_swap. - etransitivity; eassumption.
Qed.
Theorem C56_order ts ts' base eps : Permutation ts ts' -> ram ts base eps = ram ts' base eps.
Proof.
  intros Hp. destruct ts as [|t ts].
  { apply Permutation_nil in Hp. subst. reflexivity. }
  assert (Hne' : ts' <> []) by (intros ->; symmetry in Hp; apply Permutation_nil in Hp; discriminate).
  assert (Hss : same_shapes (t :: ts) base = same_shapes ts' base).
  { apply eq_true_iff_eq. rewrite !same_shapes_iff. split; intros H x Hx; apply H; [apply (Permutation_in x (Permutation_sym Hp) Hx)|apply (Permutation_in x Hp Hx)]. }
  destruct (same_shapes (t :: ts) base) eqn:E1.
  - destruct (C56_mean (t :: ts) base eps) as (o1 & E & S1 & L1 & V1); [split; [discriminate|now apply same_shapes_iff]|].
    destruct (C56_mean ts' base eps) as (o2 & E' & S2 & L2 & V2); [split; [exact Hne'|apply same_shapes_iff; congruence]|].
    rewrite E, E'. f_equal. destruct o1 as [s1 d1], o2 as [s2 d2]. cbn [shp dat] in *. subst s1 s2. f_equal. apply nth_ext_R; [congruence|]. intros i Hi. rewrite L1 in Hi.
    specialize (V1 i Hi). specialize (V2 i Hi). cbv zeta in V1, V2. pose proof (changes_perm eps _ _ base i Hp) as Hpp.
    destruct (changes eps (t :: ts) base i) as [|c cs].
    + apply Permutation_nil in Hpp. rewrite (proj1 V1) by reflexivity. rewrite (proj1 V2) by assumption. reflexivity.
    + assert (Hn2 : changes eps ts' base i <> []) by (intros E2; rewrite E2 in Hpp; symmetry in Hpp; apply Permutation_nil in Hpp; discriminate).
      rewrite (proj2 V1) by discriminate. rewrite (proj2 V2) by exact Hn2. rewrite (rsum_Permutation _ _ Hpp), (Permutation_length Hpp). reflexivity.
  - unfold ram. rewrite E1. destruct ts'; [congruence|]. rewrite <- Hss. reflexivity.
Qed.

(** Copies of one model give that model back, up to changes of at most [eps]. *)
Theorem C56_same t base eps n out : 0 <= eps -> shp t = shp base -> (0 < n)%nat -> ram (repeat t n) base eps = Ok out ->
  forall i, (i < length (dat base))%nat -> Rabs (nth i (dat out) 0 - nth i (dat t) 0) <= eps /\
    (eps < Rabs (nth i (dat t) 0 - nth i (dat base) 0) -> nth i (dat out) 0 = nth i (dat t) 0).
Proof.
  intros He Hs Hn E i Hi. destruct (C56_mean (repeat t n) base eps) as (o & E' & _ & _ & V).
  { split; [destruct n; [lia|discriminate]|]. intros x Hx. apply repeat_spec in Hx. subst. exact Hs. }
  assert (o = out) by congruence. subst o. specialize (V i Hi). cbv zeta in V. set (d := nth i (dat t) 0 - nth i (dat base) 0) in *.
  assert (Hch : changes eps (repeat t n) base i = if Rlt_dec eps (Rabs d) then repeat d n else []).
  { unfold changes. clear -d. induction n; cbn [repeat map filter]; [destruct (Rlt_dec _ _); reflexivity|]. fold d. destruct (Rlt_dec eps (Rabs d)); cbn [repeat] in *; [f_equal|]; exact IHn. }
  rewrite Hch in V. destruct (Rlt_dec eps (Rabs d)) as [Hl|Hl].
  - assert (Ev : nth i (dat out) 0 = nth i (dat t) 0).
    { rewrite (proj2 V) by (destruct n; [lia|discriminate]). rewrite repeat_length. assert (Hr : forall k, rsum (repeat d k) = INR k * d).
      { induction k; cbn [repeat]; [cbn; ring|]. rewrite rsum_cons, IHk, S_INR. ring. }
      rewrite Hr. unfold d. field. apply not_0_INR. lia. }
    rewrite Ev. split; [|auto]. rewrite Rminus_diag_eq by reflexivity. rewrite Rabs_R0. exact He.
  - rewrite (proj1 V) by reflexivity. split; [|intros; contradiction]. rewrite Rabs_minus_sym. fold d. lra.
Qed.

(** ** RAM+ *)
(** how many positions a model changes together with others, and alone *)
Definition shared_count (eps : R) (ts : list tensor) (base t : tensor) : nat :=
  length (filter (fun i => Nat.ltb 1 (length (changes eps ts base i)) && active eps (delta base i t)) (seq 0 (length (dat base)))).
Definition unique_count (eps : R) (ts : list tensor) (base t : tensor) : nat :=
  length (filter (fun i => Nat.eqb (length (changes eps ts base i)) 1 && active eps (delta base i t)) (seq 0 (length (dat base)))).
Lemma filter_ext_len {A} (f g : A -> bool) l : (forall x, f x = g x) -> length (filter f l) = length (filter g l).
Proof. intros H. rewrite (filter_ext f g H). reflexivity. Qed.

(** Where several models change a position RAM+ takes the mean of the changes, as RAM; a change made by one model only is
    multiplied by that model's factor 1 + r min(alpha, shared / max(unique, eps)), which lies between 1 and 1 + r alpha. *)
Theorem C56_plus ts base r alpha eps : compatible ts base -> 0 <= r -> 0 <= alpha -> 0 < eps ->
  exists out, ramplus ts base r alpha eps = Ok out /\ shp out = shp base /\ length (dat out) = length (dat base) /\
    forall i, (i < length (dat base))%nat ->
      match changers eps ts base i with
      | [] => nth i (dat out) 0 = nth i (dat base) 0
      | [t] => exists f, f = 1 + r * Rmin alpha (INR (shared_count eps ts base t) / Rmax (INR (unique_count eps ts base t)) eps) /\
                         1 <= f <= 1 + r * alpha /\ nth i (dat out) 0 = nth i (dat base) 0 + f * (nth i (dat t) 0 - nth i (dat base) 0)
      | l => nth i (dat out) 0 = nth i (dat base) 0 + rsum (map (delta base i) l) / INR (length l)
      end.
Proof.
  intros [Hne Hs] Hr Ha He. eexists. split.
  { unfold ramplus. rewrite (proj2 (same_shapes_iff ts base) Hs). destruct ts; [congruence|reflexivity]. }
  cbn [shp dat]. unfold positions. rewrite map_length, seq_length. split; [reflexivity|]. split; [reflexivity|]. intros i Hi.
  rewrite nth_map_seq by assumption. rewrite ram_position_spec. destruct (changers eps ts base i) as [|t [|t' l]].
  - unfold ent. lra.
  - exists (ram_lambda r alpha eps ts base t). unfold ram_lambda.
    assert (E1 : ram_count eps ts base t true = INR (shared_count eps ts base t)).
    { unfold ram_count, shared_count, positions. f_equal. apply filter_ext_len. intros j. rewrite andb_comm. reflexivity. }
    assert (E2 : ram_count eps ts base t false = INR (unique_count eps ts base t)).
    { unfold ram_count, unique_count, positions. f_equal. apply filter_ext_len. intros j. rewrite andb_comm. reflexivity. }
    rewrite E1, E2. set (q := INR (shared_count eps ts base t) / Rmax (INR (unique_count eps ts base t)) eps).
    assert (Hq : 0 <= q).
    { unfold q, Rdiv. apply Rmult_le_pos; [apply pos_INR|]. left. apply Rinv_0_lt_compat. eapply Rlt_le_trans; [exact He|apply Rmax_r]. }
    unfold clamp. rewrite (Rmax_left q 0) by exact Hq. rewrite (Rmin_comm q alpha). split; [reflexivity|]. split.
    + pose proof (Rmin_l alpha q). assert (0 <= Rmin alpha q) by (apply Rmin_glb; assumption). nra.
    + unfold ent, delta. lra.
  - reflexivity.
Qed.

(** ** Examples *)
Definition vec (l : list R) : tensor := {| shp := [length l]; dat := l |}.
Example C56_nonvacuous :
  let base := vec [0; 0; 0] in let a := vec [4; 1 / 2; 3] in let b := vec [2; 0; 0] in
  compatible [a; b] base /\ ram [a; b] base 1 = Ok (vec [3; 0; 3]) /\ ramplus [a; b] base (1 / 2) (1 / 5) 1 = Ok (vec [3; 0; 3 + 3 / 10]).
Proof.
  set (base := vec [0; 0; 0]). set (a := vec [4; 1 / 2; 3]). set (b := vec [2; 0; 0]). intros.
  assert (Hc : compatible [a; b] base) by (split; [discriminate|intros t [<-|[<-|[]]]; reflexivity]).
  assert (C0 : changers 1 [a; b] base 0 = [a; b]).
  { unfold changers. cbn. destruct (Rlt_dec 1 (Rabs (4 - 0))) as [|n]; [|contradiction n; rewrite Rabs_pos_eq; lra]. destruct (Rlt_dec 1 (Rabs (2 - 0))) as [|n]; [reflexivity|contradiction n; rewrite Rabs_pos_eq; lra]. }
  assert (C1 : changers 1 [a; b] base 1 = []).
  { unfold changers. cbn. destruct (Rlt_dec 1 (Rabs (1 / 2 - 0))) as [n|_]; [rewrite Rabs_pos_eq in n; lra|]. destruct (Rlt_dec 1 (Rabs (0 - 0))) as [n|]; [rewrite Rabs_pos_eq in n; lra|reflexivity]. }
  assert (C2 : changers 1 [a; b] base 2 = [a]).
  { unfold changers. cbn. destruct (Rlt_dec 1 (Rabs (3 - 0))) as [|n]; [|contradiction n; rewrite Rabs_pos_eq; lra]. destruct (Rlt_dec 1 (Rabs (0 - 0))) as [n|]; [rewrite Rabs_pos_eq in n; lra|reflexivity]. }
  split; [exact Hc|]. split; [change (ram [a; b] base 1 = Ok (vec [3; 0; 3]))|change (ramplus [a; b] base (1 / 2) (1 / 5) 1 = Ok (vec [3; 0; 3 + 3 / 10]))].
  - destruct (C56_mean [a; b] base 1 Hc) as (o & -> & S & L & V). destruct o as [s d]. cbn in S, L. subst s. f_equal. unfold vec. f_equal.
    assert (L' : length d = 3%nat) by exact L. apply nth_ext_R; [exact L'|]. rewrite L'. cbn [dat] in V.
    pose proof (V 0%nat ltac:(cbn; lia)) as V0. pose proof (V 1%nat ltac:(cbn; lia)) as V1. pose proof (V 2%nat ltac:(cbn; lia)) as V2. cbv zeta in *. rewrite changes_changers in V0, V1, V2. rewrite C0 in V0. rewrite C1 in V1. rewrite C2 in V2.
    intros [|[|[|]]] Hi; [| | |lia].
    + rewrite (proj2 V0) by discriminate. cbn. unfold delta. cbn. lra.
    + rewrite (proj1 V1) by reflexivity. reflexivity.
    + rewrite (proj2 V2) by discriminate. cbn. unfold delta. cbn. lra.
  - destruct (C56_plus [a; b] base (1 / 2) (1 / 5) 1 Hc ltac:(lra) ltac:(lra) ltac:(lra)) as (o & -> & S & L & V). destruct o as [s d]. cbn in S, L. subst s. f_equal. unfold vec. f_equal.
    assert (L' : length d = 3%nat) by exact L. apply nth_ext_R; [exact L'|]. rewrite L'. cbn [dat] in V.
    pose proof (V 0%nat ltac:(cbn; lia)) as V0. pose proof (V 1%nat ltac:(cbn; lia)) as V1. pose proof (V 2%nat ltac:(cbn; lia)) as V2. rewrite C0 in V0. rewrite C1 in V1. rewrite C2 in V2.
    intros [|[|[|]]] Hi; [| | |lia].
    + rewrite V0. cbn. unfold delta. cbn. lra.
    + rewrite V1. reflexivity.
    + destruct V2 as (f & Ef & _ & V2). rewrite V2.
      assert (Es : shared_count 1 [a; b] base a = 1%nat).
      { unfold shared_count. cbn [length dat base vec seq filter]. rewrite !changes_changers, C0, C1, C2. cbn. unfold active, delta. cbn. destruct (Rlt_dec 1 (Rabs (4 - 0))) as [|n]; [reflexivity|contradiction n; rewrite Rabs_pos_eq; lra]. }
      assert (Eu : unique_count 1 [a; b] base a = 1%nat).
      { unfold unique_count. cbn [length dat base vec seq filter]. rewrite !changes_changers, C0, C1, C2. cbn. unfold active, delta. cbn. destruct (Rlt_dec 1 (Rabs (3 - 0))) as [|n]; [reflexivity|contradiction n; rewrite Rabs_pos_eq; lra]. }
      rewrite Es, Eu in Ef. cbn [INR] in Ef. rewrite Rmax_left in Ef by lra. rewrite Rmin_left in Ef by lra. rewrite Ef. cbn. lra.
Qed.

Print Assumptions C56_mean.
Print Assumptions C56_plus.
