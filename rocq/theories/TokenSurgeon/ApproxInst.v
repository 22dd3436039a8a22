(** Functions meeting the contracts of ApproxSpec, for the concrete cases. *)
From Coq Require Import Reals Lra.
From Verif.Base Require Import LinAlg RList Py PyFacts.
From Verif.TokenSurgeon Require Import Approx ApproxSpec.
Local Open Scope list_scope.
Local Open Scope R_scope.

Fixpoint best (f : nat -> R) (i : nat) (l : list nat) : nat :=
  match l with [] => i | j :: l => best f (if Rle_dec (f i) (f j) then j else i) l end.
Definition argbest (f : nat -> R) (l : list nat) : nat := match l with [] => 0%nat | i :: l => best f i l end.
Lemma best_spec f : forall l i, In (best f i l) (i :: l) /\ forall j, In j (i :: l) -> f j <= f (best f i l).
Proof.
  induction l as [|j l IH]; intros i; [split; [now left|intros k [<-|[]]; cbn; lra]|].
  cbn [best]. destruct (Rle_dec (f i) (f j)) as [L|L]; [destruct (IH j) as (A & B)|destruct (IH i) as (A & B)]; split.
  - now right.
  - intros k [<-|[<-|Hk]]; [apply Rle_trans with (f j); [exact L|]|..]; apply B; (now left) || (now right).
  - destruct A as [A|A]; [now left|right; now right].
  - intros k [<-|[<-|Hk]]; [|apply Rle_trans with (f i); [lra|]|]; apply B; (now left) || (now right).
Qed.
Lemma argbest_spec f l : l <> [] -> In (argbest f l) l /\ forall j, In j l -> f j <= f (argbest f l).
Proof. destruct l as [|i l]; [congruence|]. intros _. apply best_spec. Qed.

Definition greedy_pick (D : nat) (pts : list row) (res : row) (sel : list nat) : nat :=
  argbest (fun i => Rabs (ip D res (pt pts i))) (filter (fun i => negb (existsb (Nat.eqb i) sel)) (seq 0 (length pts))).
Lemma greedy_is_pick D pts : is_pick D pts (greedy_pick D pts).
Proof.
  intros res sel N I L. unfold greedy_pick. set (l := filter _ _).
  assert (Hl : forall i, In i l <-> (i < length pts)%nat /\ ~ In i sel).
  { intros i. unfold l. rewrite filter_In, in_seq, negb_true_iff. split.
    - intros (H & E). split; [lia|]. intros H'. enough (existsb (Nat.eqb i) sel = true) by congruence. apply existsb_exists. exists i. split; [exact H'|apply Nat.eqb_refl].
    - intros (H & E). split; [lia|]. destruct (existsb (Nat.eqb i) sel) eqn:X; [|reflexivity]. apply existsb_exists in X as (j & Hj & X). apply Nat.eqb_eq in X as ->. contradiction. }
  assert (Hne : l <> []).
  { intros E. assert (Hall : incl (seq 0 (length pts)) sel).
    { intros i Hi. apply in_seq in Hi. destruct (in_dec Nat.eq_dec i sel) as [|Hn]; [assumption|]. assert (In i l) by (apply Hl; split; [lia|exact Hn]). rewrite E in H. destruct H. }
    pose proof (NoDup_incl_length (seq_NoDup (length pts) 0) Hall) as X. rewrite seq_length in X. lia. }
  destruct (argbest_spec (fun i => Rabs (ip D res (pt pts i))) l Hne) as (A & B). apply Hl in A as (A1 & A2). split; [exact A1|]. split; [exact A2|].
  intros i Hi Hn. apply (B i). now apply Hl.
Qed.

Fixpoint smallest (f : nat -> R) (k : nat) (l : list nat) : list nat :=
  match k with O => [] | S k => let i := argbest (fun i => - f i) l in i :: smallest f k (remove Nat.eq_dec i l) end.
Definition sort_topk (ds : list R) (k : nat) : list nat := smallest (fun i => nth i ds 0) k (seq 0 (length ds)).
Lemma remove_len l i : NoDup l -> In i l -> S (length (remove Nat.eq_dec i l)) = length l.
Proof.
  induction l as [|j l IH]; intros N H; [destruct H|]. apply NoDup_cons_iff in N as (N1 & N2). cbn. destruct (Nat.eq_dec i j) as [->|Hne].
  - rewrite notin_remove by exact N1. reflexivity.
  - destruct H as [->|H]; [congruence|]. cbn. now rewrite IH.
Qed.
Lemma remove_NoDup l i : NoDup l -> NoDup (remove Nat.eq_dec i l).
Proof.
  induction l as [|j l IH]; intros N; [constructor|]. apply NoDup_cons_iff in N as (N1 & N2). cbn. destruct (Nat.eq_dec i j); [auto|]. constructor; [|auto].
  intros H. apply in_remove in H as (H & _). contradiction.
Qed.
Lemma smallest_spec f : forall k l, NoDup l -> (k <= length l)%nat -> length (smallest f k l) = k /\ NoDup (smallest f k l) /\ incl (smallest f k l) l /\
  forall i j, In i (smallest f k l) -> In j l -> ~ In j (smallest f k l) -> f i <= f j.
Proof.
  induction k as [|k IH]; intros l N L; [cbn; repeat split; [constructor|intros ? []|intros ? ? []]|].
  cbn [smallest]. cbv zeta. assert (Hne : l <> []) by (destruct l; [cbn in L; lia|discriminate]).
  destruct (argbest_spec (fun i => - f i) l Hne) as (A & B). set (m := argbest _ l) in *. clearbody m. pose proof (remove_len l m N A) as Lr.
  destruct (IH (remove Nat.eq_dec m l) (remove_NoDup l m N) ltac:(lia)) as (I1 & I2 & I3 & I4). split; [cbn; lia|]. split; [|split].
  - constructor; [|exact I2]. intros H. apply I3 in H. now apply remove_In in H.
  - intros x [<-|H]; [exact A|]. apply I3, in_remove in H as (H & _). exact H.
  - intros i j [<-|Hi] Hj Hn; [specialize (B j Hj); cbv beta in B; lra|]. apply I4; [exact Hi| |intros H; apply Hn; now right].
    apply in_in_remove; [intros ->; apply Hn; now left|exact Hj].
Qed.
Lemma sort_is_topk : is_topk sort_topk.
Proof.
  intros ds k Hk. unfold sort_topk. destruct (smallest_spec (fun i => nth i ds 0) k (seq 0 (length ds)) (seq_NoDup _ _) ltac:(rewrite seq_length; lia)) as (A & B & C & E).
  split; [exact A|]. split; [exact B|]. split; [intros i Hi; apply C, in_seq in Hi; lia|]. intros i j Hi Hj Hn. apply E; [exact Hi|apply in_seq; lia|exact Hn].
Qed.

Definition same_qr (n : nat) (q : nat -> row) : (nat -> row) * (nat -> nat -> R) := (q, fun i j => if Nat.eqb i j then 1 else 0).
Lemma same_is_qr D : is_qr D same_qr.
Proof.
  intros n q H. cbn. split; [exact H|]. split; [|split].
  - intros j x Hj Hx. rewrite (Sum_single n j); [rewrite Nat.eqb_refl; ring|exact Hj|]. intros i _ Hi. destruct (Nat.eqb_spec i j); [congruence|ring].
  - intros i j Hij _. destruct (Nat.eqb_spec i j); [lia|reflexivity].
  - intros j _. rewrite Nat.eqb_refl. lra.
Qed.

(** back substitution: the last m unknowns *)
Fixpoint back (n : nat) (r : nat -> nat -> R) (b : nat -> R) (m : nat) : nat -> R :=
  match m with
  | O => fun _ => 0
  | S m' => let c := back n r b m' in let i := (n - m)%nat in
            fun j => if Nat.eqb j i then (b i - Sum n (fun l => if Nat.ltb i l then r i l * c l else 0)) / r i i else c j
  end.
Definition back_solve (n : nat) (r : nat -> nat -> R) (b : nat -> R) : nat -> R := back n r b n.
Lemma back_is_solve : is_solve back_solve.
Proof.
  intros n r b Hu Hd. assert (H : forall m, (m <= n)%nat -> forall i, (n - m <= i < n)%nat -> Sum n (fun j => r i j * back n r b m j) = b i).
  { induction m as [|m IH]; intros Hm i Hi; [lia|]. cbn [back]. cbv zeta. set (c := back n r b m) in *. set (p := (n - S m)%nat) in *.
    destruct (Nat.eq_dec i p) as [->|Hne].
    - set (v := (b p - _) / r p p).
      rewrite (Sum_ext n _ (fun j => (if Nat.eqb j p then r p p * v else 0) + (if Nat.ltb p j then r p j * c j else 0))).
      + rewrite Sum_plus, (Sum_single n p (fun j => if Nat.eqb j p then r p p * v else 0)); [|lia|intros l _ Hl; destruct (Nat.eqb_spec l p); [congruence|reflexivity]].
        rewrite Nat.eqb_refl. unfold v. field. apply Hd. lia.
      + intros j Hj. destruct (Nat.eqb_spec j p) as [->|]; [destruct (Nat.ltb_spec p p); [lia|ring]|]. destruct (Nat.ltb_spec p j); [ring|]. rewrite (Hu p j) by lia. ring.
    - rewrite <- (IH ltac:(lia) i ltac:(lia)). apply Sum_ext. intros j Hj. destruct (Nat.eqb_spec j p) as [->|]; [|reflexivity]. rewrite (Hu i p) by lia. ring. }
  intros i Hi. apply H; lia.
Qed.
