(** The directory a run of the writer leaves. *)
From Coq Require Import FinFun.
From Verif.Base Require Import Py PyFacts PyStr.
From Verif.IO Require Import Model Spec WriterProofs FsProofs.
Local Open Scope string_scope.
Local Open Scope list_scope.

Section D.
Context {T : Type}.
Implicit Types (w : writer T) (f : fs T).

(** ** last saves *)
Lemma last_saved_In (l : list (string * T)) n : In n (map fst l) -> exists t, last_saved l n t.
Proof.
  induction l as [|[m t] l IH]; [intros []|]. intros Hin.
  destruct (In_dec string_dec n (map fst l)) as [Hl|Hl].
  - destruct (IH Hl) as (t' & l1 & l2 & -> & H2). exists t', ((m, t) :: l1), l2. auto.
  - destruct Hin as [<- | Hin]; [|contradiction]. exists t, [], l. auto.
Qed.
Lemma last_saved_fun (l : list (string * T)) n t t' : last_saved l n t -> last_saved l n t' -> t = t'.
Proof.
  intros (a & b & -> & Hb) (c & d & E & Hd). revert c E. induction a as [|x a IH]; intros c E.
  - destruct c as [|y c]; cbn in E; [congruence|]. injection E as <- ->. exfalso. apply Hb. rewrite map_app. apply in_elt.
  - destruct c as [|y c]; cbn in E; [|injection E as _ E; eauto].
    injection E as -> <-. exfalso. apply Hd. rewrite map_app. apply in_elt.
Qed.
Lemma last_saved_names (l : list (string * T)) n t : last_saved l n t -> In n (map fst l).
Proof. intros (a & b & -> & _). rewrite map_app. apply in_elt. Qed.
Lemma last_saved_app (a b : list (string * T)) n t : last_saved a n t -> ~ In n (map fst b) -> last_saved (a ++ b) n t.
Proof.
  intros (l1 & l2 & -> & Hl) Hb. exists l1, (l2 ++ b). split; [now rewrite <- app_assoc|].
  rewrite map_app. intros Hin. apply in_app_or in Hin as [?|?]; auto.
Qed.
Lemma last_saved_app_r (a b : list (string * T)) n t : last_saved b n t -> last_saved (a ++ b) n t.
Proof. intros (l1 & l2 & -> & Hl). exists (a ++ l1), l2. split; [now rewrite <- app_assoc|exact Hl]. Qed.

Lemma dict_of_last (g : list (string * T)) n t : last_saved g n t -> dget (dict_of g) n = Some t.
Proof.
  revert t. induction g as [|[m s] g IH] using rev_ind; intros t (a & b & E & Hb); [destruct a; discriminate|].
  rewrite dict_of_snoc, dget_dset. destruct (eqb_spec n m) as [-> | Hne].
  - destruct b as [|y b] using rev_ind.
    + apply app_inj_tail in E as [_ [= <-]]. reflexivity.
    + exfalso. rewrite app_comm_cons, app_assoc in E. apply app_inj_tail in E as [_ <-]. apply Hb. rewrite map_app. apply in_elt.
  - apply IH. destruct b as [|y b _] using rev_ind.
    + apply app_inj_tail in E as [_ [= <- _]]. contradiction.
    + rewrite app_comm_cons, app_assoc in E. apply app_inj_tail in E as [-> _]. exists a, b. split; [reflexivity|].
      intros Hin. apply Hb. rewrite map_app. apply in_or_app. auto.
Qed.
Lemma dict_of_names (g : list (string * T)) n : In n (dkeys (dict_of g)) <-> In n (map fst g).
Proof.
  induction g as [|[m s] g IH] using rev_ind; [reflexivity|].
  rewrite dict_of_snoc, dkeys_dset_In, map_app, in_app_iff, IH. cbn. intuition.
Qed.

(** ** the weight map *)
Lemma map_shard_get name (g : list (string * T)) m k :
  dget (map_shard name g m) k = if mem k (map fst g) then Some name else dget m k.
Proof.
  assert (Hfold : forall (d : dict string T) m, dget (fold_left (fun m (kv : string * T) => dset m (fst kv) name) d m) k
                             = if mem k (dkeys d) then Some name else dget m k).
  { induction d as [|[x y] d IH]; intros m'; cbn [fold_left fst]; [reflexivity|].
    rewrite IH, dget_dset, dkeys_cons. cbn [mem existsb].
    destruct (eqb k x), (mem k (dkeys d)); reflexivity. }
  unfold map_shard. rewrite Hfold.
  assert (E : mem k (dkeys (dict_of g)) = mem k (map fst g)).
  { apply Bool.eq_true_iff_eq. rewrite !mem_In. apply dict_of_names. }
  now rewrite E.
Qed.

(** [k] was last saved in group [j] of [G] *)
Definition last_group (G : list (list (string * T))) (k : string) (j : nat) : Prop :=
  exists G1 g G2, G = G1 ++ g :: G2 /\ length G1 = j /\ In k (map fst g) /\ ~ In k (map fst (concat G2)).

Lemma last_group_exists G k : In k (map fst (concat G)) -> exists j, last_group G k j.
Proof.
  induction G as [|g G IH]; cbn; [intros []|]. rewrite map_app. intros Hin.
  destruct (In_dec string_dec k (map fst (concat G))) as [Hl|Hl].
  - destruct (IH Hl) as (j & G1 & g1 & G2 & -> & <- & H1 & H2). exists (S (length G1)), (g :: G1), g1, G2. auto.
  - apply in_app_or in Hin as [Hin|?]; [|contradiction]. exists 0, [], g, G. auto.
Qed.

Lemma map_of_get w G : forall i m k,
  (forall j, last_group G k j -> dget (map_of w i G m) k = Some (tmp_name w (i + j))) /\
  (~ In k (map fst (concat G)) -> dget (map_of w i G m) k = dget m k).
Proof.
  induction G as [|g G IH]; intros i m k; cbn [map_of concat].
  - split; [intros j (G1 & g & G2 & E & _); destruct G1; discriminate|reflexivity].
  - destruct (IH (S i) (map_shard (tmp_name w i) g m) k) as [I1 I2]. split.
    + intros j (G1 & g1 & G2 & E & <- & H1 & H2). destruct G1 as [|g0 G1]; cbn in E.
      * injection E as <- <-. rewrite I2 by auto. rewrite map_shard_get. cbn [length]. replace (i + 0) with i by lia.
        now rewrite (proj2 (mem_In _ _) H1).
      * injection E as <- ->. rewrite (I1 (length G1)); [f_equal; f_equal; cbn; lia|]. exists G1, g1, G2. auto.
    + rewrite map_app. intros Hn. rewrite I2, map_shard_get; [|intros ?; apply Hn, in_or_app; auto].
      destruct (mem k (map fst g)) eqn:E; [|reflexivity]. apply mem_In in E. exfalso. apply Hn, in_or_app. auto.
Qed.

Lemma map_of_NoDup w G : forall i m, NoDup (dkeys m) -> NoDup (dkeys (map_of w i G m)).
Proof.
  induction G as [|g G IH]; intros i m Hm; cbn [map_of]; [exact Hm|]. apply IH. unfold map_shard.
  generalize (dict_of g) as d. intros d. revert m Hm. induction d as [|[x y] d IHd]; intros m Hm; cbn [fold_left]; [exact Hm|].
  apply IHd. now apply dkeys_dset_NoDup.
Qed.

(** ** the shard files *)
Lemma jobs_names w G : forall k, map fst (jobs_of w k G) = map (tmp_name w) (seq k (length G)).
Proof. induction G as [|g G IH]; intros k; cbn; [reflexivity|]. now rewrite IH. Qed.
Lemma tmps_NoDup w k n : NoDup (map (tmp_name w) (seq k n)).
Proof. apply FinFun.Injective_map_NoDup; [intros x y; apply tmp_inj|apply seq_NoDup]. Qed.
Lemma jobs_get w G : forall k i g, nth_error G i = Some g -> dget (jobs_of w k G) (tmp_name w (k + i)) = Some (FShard (w_safe w) (dict_of g)).
Proof.
  induction G as [|g0 G IH]; intros k i g; [destruct i; discriminate|]. cbn [jobs_of dget]. destruct i as [|i]; cbn [nth_error].
  - intros [= <-]. replace (k + 0) with k by lia. now rewrite eqb_refl.
  - intros E. destruct (eqb_spec (tmp_name w (k + S i)) (tmp_name w k)) as [E'|_]; [apply tmp_inj in E'; lia|].
    replace (k + S i) with (S k + i) by lia. auto.
Qed.

(** ** finalize *)
Definition dest w (n i : nat) : string := if Nat.eqb n 1 then single_name w else final_name w n i.
Definition moves w (n : nat) : list (string * string) := map (fun i => (tmp_name w i, dest w n i)) (seq 0 n).

Lemma dest_inj w n i j : i < n -> j < n -> dest w n i = dest w n j -> i = j.
Proof. unfold dest. destruct (Nat.eqb_spec n 1); [lia|]. intros _ _. apply final_inj. Qed.
Lemma tmp_dest w n i j : tmp_name w i <> dest w n j.
Proof. unfold dest. destruct (Nat.eqb_spec n 1); [apply tmp_single|apply tmp_final]. Qed.
Lemma dict_of_id {V} (l : list (string * V)) : NoDup (map fst l) -> dict_of l = l.
Proof.
  unfold dict_of. assert (Hacc : forall l acc, NoDup (map fst (acc ++ l)) ->
    fold_left (fun d (kv : string * V) => dset d (fst kv) (snd kv)) l acc = acc ++ l).
  { clear. induction l as [|[k v] l IH]; intros acc Hnd; cbn [fold_left fst snd]; [now rewrite app_nil_r|].
    rewrite dset_fresh.
    - rewrite IH; rewrite <- app_assoc; auto.
    - rewrite map_app in Hnd. cbn in Hnd. apply NoDup_remove_2 in Hnd. intros Hin. apply Hnd, in_or_app. auto. }
  intros Hnd. exact (Hacc l [] Hnd).
Qed.
Lemma moves_fst w n : map fst (moves w n) = map (tmp_name w) (seq 0 n).
Proof. unfold moves. rewrite map_map. reflexivity. Qed.
Lemma moves_snd w n : map snd (moves w n) = map (dest w n) (seq 0 n).
Proof. unfold moves. rewrite map_map. reflexivity. Qed.
Lemma remap_moves w : name_remap w = moves w (w_written w).
Proof.
  unfold name_remap, moves, dest. destruct (Nat.eqb_spec (w_written w) 1) as [-> | Hn]; [reflexivity|].
  apply dict_of_id. rewrite map_map. apply tmps_NoDup.
Qed.
Lemma moves_get w n i : i < n -> dget (moves w n) (tmp_name w i) = Some (dest w n i).
Proof.
  intros Hi. apply dget_In_NoDup; [|apply in_map_iff; exists i; split; auto; apply in_seq; lia].
  change (NoDup (map fst (moves w n))). rewrite moves_fst. apply tmps_NoDup.
Qed.
Lemma dests_NoDup w n : NoDup (map (dest w n) (seq 0 n)).
Proof.
  assert (Hl : forall l, (forall i, In i l -> i < n) -> NoDup l -> NoDup (map (dest w n) l)).
  { induction l as [|i l IH]; intros Hb Hnd; cbn; constructor; inversion Hnd; subst.
    - intros Hin. apply in_map_iff in Hin as (j & E & Hj). apply dest_inj in E; [congruence| |]; apply Hb; cbn; auto.
    - apply IH; auto. intros j Hj. apply Hb. now right. }
  apply Hl; [|apply seq_NoDup]. intros i Hi. apply in_seq in Hi. lia.
Qed.

(** the index written by [finalize] *)
Definition final_map w : dict string string :=
  map (fun kv => (fst kv, match dget (name_remap w) (snd kv) with Some n => n | None => snd kv end)) (w_map w).
Lemma final_map_keys w : dkeys (final_map w) = dkeys (w_map w).
Proof. unfold final_map, dkeys. rewrite map_map. reflexivity. Qed.
Lemma final_map_get w k i : dget (w_map w) k = Some (tmp_name w i) -> i < w_written w ->
  dget (final_map w) k = Some (dest w (w_written w) i).
Proof.
  intros Hg Hi. unfold final_map. induction (w_map w) as [|[x y] m IH]; [discriminate|]. cbn [map dget fst snd] in *.
  destruct (eqb k x); [|auto]. injection Hg as ->. now rewrite remap_moves, moves_get.
Qed.

(** ** a complete run *)
Record written w G f f' : Prop := {
  wr_shard : forall i g, nth_error G i = Some g -> dget f' (dest w (length G) i) = Some (FShard (w_safe w) (dict_of g));
  wr_tmp : forall i, i < length G -> dget f' (tmp_name w i) = None;
  wr_index : 1 < length G -> dget f' (index_name w) = Some (FIndex (Z.of_nat (w_total w)) (final_map w));
  wr_other : forall x, ~ In x (map (tmp_name w) (seq 0 (length G))) -> ~ In x (map (dest w (length G)) (seq 0 (length G))) ->
     (1 < length G -> x <> index_name w) -> dget f' x = dget f x
}.

Definition index_ops w : list (op T) :=
  if Nat.ltb 1 (w_written w) then write_file (index_name w) (FIndex (Z.of_nat (w_total w)) (final_map w)) else [].
Lemma finalize_eq w : finalize_ops w = map ren (moves w (w_written w)) ++ index_ops w.
Proof. unfold finalize_ops, index_ops, final_map. now rewrite remap_moves. Qed.

Lemma dest_index w n i : dest w n i <> index_name w.
Proof.
  unfold dest. destruct (Nat.eqb n 1); [|apply final_index]. unfold single_name, index_name. intros E.
  apply app_str_inj_l in E. apply app_str_inj_l in E. revert E. unfold ext_of. destruct (w_safe w); discriminate.
Qed.

(** after the shard writes and the first [k] renames *)
Lemma partway w G q f k : merged (map wf (jobs_of w 0 G)) q -> k <= length G ->
  exists f1, apply_all (q ++ map ren (firstn k (moves w (length G)))) f = Ok f1 /\
    (forall i g, nth_error G i = Some g -> i < k -> dget f1 (dest w (length G) i) = Some (FShard (w_safe w) (dict_of g))) /\
    (forall i, i < k -> dget f1 (tmp_name w i) = None) /\
    (forall x, ~ In x (map (tmp_name w) (seq 0 (length G))) -> ~ In x (map (dest w (length G)) (seq 0 k)) -> dget f1 x = dget f x).
Proof.
  intros Hm Hk. destruct (writes_done _ q f Hm) as (f0 & E0 & G0).
  { rewrite jobs_names. apply tmps_NoDup. }
  set (R := firstn k (moves w (length G))).
  assert (ER : R = map (fun i => (tmp_name w i, dest w (length G) i)) (seq 0 k)).
  { unfold R, moves. rewrite firstn_map. f_equal.
    replace (length G) with (k + (length G - k)) by lia. rewrite seq_app. rewrite firstn_app, seq_length.
    replace (k - k) with 0 by lia. cbn. rewrite app_nil_r. rewrite firstn_all2; [reflexivity|rewrite seq_length; lia]. }
  assert (Ef : map fst R = map (tmp_name w) (seq 0 k)) by (rewrite ER, map_map; reflexivity).
  assert (Es : map snd R = map (dest w (length G)) (seq 0 k)) by (rewrite ER, map_map; reflexivity).
  assert (Hsub : forall i, In i (seq 0 k) -> exists g, nth_error G i = Some g).
  { intros i Hi. apply in_seq in Hi. destruct (nth_error G i) eqn:E; eauto. apply nth_error_None in E. lia. }
  destruct (renames_done R f0) as (f1 & E1 & F1 & F2 & F3).
  - rewrite Ef. apply tmps_NoDup.
  - rewrite Es. pose proof (dests_NoDup w (length G)) as Hd. replace (length G) with (k + (length G - k)) in Hd at 2 by lia.
    rewrite seq_app, map_app in Hd. now apply NoDup_app_remove_r in Hd.
  - rewrite Ef, Es. intros x Hx Hx'. apply in_map_iff in Hx as (i & <- & _). apply in_map_iff in Hx' as (j & E & _).
    symmetry in E. now apply tmp_dest in E.
  - rewrite Ef. intros x Hx. apply in_map_iff in Hx as (i & <- & Hi). destruct (Hsub i Hi) as (g & Hg).
    rewrite G0. pose proof (jobs_get w G 0 i g Hg) as E. cbn in E. rewrite E. eauto.
  - exists f1. split; [rewrite apply_all_app, E0; exact E1|]. split; [|split].
    + intros i g Hg Hi. rewrite (F1 (tmp_name w i)).
      * rewrite G0. pose proof (jobs_get w G 0 i g Hg) as E. cbn in E. now rewrite E.
      * rewrite ER. apply in_map_iff. exists i. split; auto. apply in_seq. lia.
    + intros i Hi. apply F2. rewrite Ef. apply in_map. apply in_seq. lia.
    + intros x N1 N2. rewrite F3.
      * rewrite G0. assert (E : dget (jobs_of w 0 G) x = None) by (apply dget_None; change (~ In x (map fst (jobs_of w 0 G))); now rewrite jobs_names).
        now rewrite E.
      * rewrite Ef. intros Hx. apply N1. apply in_map_iff in Hx as (i & <- & Hi). apply in_map. apply in_seq in Hi. apply in_seq. lia.
      * now rewrite Es.
Qed.

Lemma run_done w G q f : merged (map wf (jobs_of w 0 G)) q -> w_written w = length G ->
  exists f', apply_all (q ++ finalize_ops w) f = Ok f' /\ written w G f f'.
Proof.
  intros Hm Hn. destruct (partway w G q f (length G) Hm (le_n _)) as (f1 & E1 & F1 & F2 & F3).
  rewrite finalize_eq, Hn, app_assoc, apply_all_app.
  assert (Ef : firstn (length G) (moves w (length G)) = moves w (length G)).
  { apply firstn_all2. unfold moves. rewrite map_length, seq_length. lia. }
  rewrite Ef in E1. rewrite E1. cbn [rbind]. unfold index_ops. rewrite Hn. destruct (Nat.ltb_spec 1 (length G)) as [Hl|Hl].
  - cbn [apply_all write_file apply rbind]. eexists. split; [reflexivity|]. split.
    + intros i g Hg. rewrite !dget_dset_neq by apply dest_index. apply F1; auto. apply nth_error_Some. congruence.
    + intros i Hi. rewrite !dget_dset_neq by apply tmp_index. auto.
    + intros _. apply dget_dset_eq.
    + intros x N1 N2 N3. rewrite !dget_dset_neq by auto. auto.
  - exists f1. split; [reflexivity|]. split; auto; [|lia].
    intros i g Hg. apply F1; auto. apply nth_error_Some. congruence.
Qed.

(** ** an interrupted run *)
Lemma run_cut w G q f p r : merged (map wf (jobs_of w 0 G)) q -> w_written w = length G ->
  q ++ finalize_ops w = p ++ r -> r <> [] ->
  exists f1, apply_all p f = Ok f1 /\
    (length G = 1 -> dget f1 (single_name w) = dget f (single_name w)) /\
    (1 < length G -> dget f1 (index_name w) = dget f (index_name w) \/ dget f1 (index_name w) = Some FPartial) /\
    (forall x, ~ In x (map (tmp_name w) (seq 0 (length G))) -> ~ In x (map (dest w (length G)) (seq 0 (length G))) ->
       x <> index_name w -> dget f1 x = dget f x) /\
    (length G = 1 -> dget f1 (index_name w) = dget f (index_name w)).
Proof.
  intros Hm Hn E Hr. rewrite finalize_eq, Hn in E.
  assert (Htm : forall x, (forall i, x <> tmp_name w i) -> forall n, ~ In x (map (tmp_name w) (seq 0 n))).
  { intros x Hx n Hin. apply in_map_iff in Hin as (i & <- & _). now apply (Hx i). }
  assert (Hde : forall x n, (forall i, x <> dest w n i) -> forall k, ~ In x (map (dest w n) (seq 0 k))).
  { intros x n Hx k Hin. apply in_map_iff in Hin as (i & <- & _). now apply (Hx i). }
  destruct (prefix_app p r q _ E) as [(r' & Eq)|(p' & -> & E')].
  - (* during the shard writes *)
    destruct (writes_prefix _ q p r' f Hm Eq) as (f1 & E1 & F). rewrite jobs_names in F. exists f1.
    split; [exact E1|]. split; [|split; [|split]].
    + intros _. apply F, Htm. intros i. apply not_eq_sym, tmp_single.
    + intros _. left. apply F, Htm. intros i. apply not_eq_sym, tmp_index.
    + auto.
    + intros _. apply F, Htm. intros i. apply not_eq_sym, tmp_index.
  - destruct (prefix_app p' r _ _ E') as [(r' & Em)|(p'' & -> & Ei)].
    + (* during the renames *)
      assert (Hp : exists k, k <= length G /\ p' = map ren (firstn k (moves w (length G))) /\ (k < length G \/ 1 < length G \/ k = 0)).
      { assert (Hl : length (moves w (length G)) = length G) by (unfold moves; now rewrite map_length, seq_length).
        exists (length p'). assert (Hle : length p' <= length G).
        { rewrite <- Hl, <- (map_length (ren (T:=T)) (moves w (length G))), Em, app_length. lia. }
        split; [exact Hle|]. split.
        - rewrite <- firstn_map, Em, firstn_app, Nat.sub_diag, firstn_all. cbn. now rewrite app_nil_r.
        - destruct (Nat.lt_trichotomy 1 (length G)) as [?|[El|?]]; [auto| |lia].
          left. destruct r' as [|x r']; [|rewrite <- Hl, <- (map_length (ren (T:=T)) (moves w (length G))), Em, app_length; cbn; lia].
          exfalso. rewrite app_nil_r in Em. subst p'. apply Hr. unfold index_ops in E'. rewrite Hn in E'.
          destruct (Nat.ltb_spec 1 (length G)); [lia|]. rewrite app_nil_r in E'.
          apply (f_equal (@length _)) in E'. rewrite app_length in E'. destruct r; cbn in *; [auto|lia]. }
      destruct Hp as (k & Hk & -> & Hkk). destruct (partway w G q f k Hm Hk) as (f1 & E1 & F1 & F2 & F3).
      exists f1. split; [exact E1|]. split; [|split; [|split]].
      * intros H1. apply F3; [apply Htm; intros i; apply not_eq_sym, tmp_single|].
        assert (k = 0) as -> by lia. intros [].
      * intros _. left. apply F3; [apply Htm; intros i; apply not_eq_sym, tmp_index|].
        apply Hde. intros i. apply not_eq_sym, dest_index.
      * intros x N1 N2 N3. apply F3; auto. intros Hin. apply N2. apply in_map_iff in Hin as (i & <- & Hi).
        apply in_map. apply in_seq in Hi. apply in_seq. lia.
      * intros _. apply F3; [apply Htm; intros i; apply not_eq_sym, tmp_index|].
        apply Hde. intros i. apply not_eq_sym, dest_index.
    + (* during the write of the index *)
      destruct (partway w G q f (length G) Hm (le_n _)) as (f1 & E1 & F1 & F2 & F3).
      assert (Ef : firstn (length G) (moves w (length G)) = moves w (length G)).
      { apply firstn_all2. unfold moves. rewrite map_length, seq_length. lia. }
      rewrite Ef in E1. rewrite app_assoc, apply_all_app, E1. cbn [rbind].
      unfold index_ops in Ei. rewrite Hn in Ei. destruct (Nat.ltb_spec 1 (length G)) as [Hl|Hl].
      * assert (Hp : p'' = [] \/ p'' = [OTouch (index_name w)]).
        { unfold write_file in Ei. destruct p'' as [|a [|b p'']]; [auto| |].
          - cbn in Ei. injection Ei as <- _. auto.
          - exfalso. cbn in Ei. injection Ei as _ _ Ei. symmetry in Ei. apply app_eq_nil in Ei as [_ Ei]. auto. }
        destruct Hp as [-> | ->]; cbn [apply_all apply rbind].
        -- exists f1. split; [reflexivity|]. split; [lia|]. split; [|split; [|lia]].
           ++ intros _. left. apply F3; [apply Htm; intros i; apply not_eq_sym, tmp_index|].
              apply Hde. intros i. apply not_eq_sym, dest_index.
           ++ auto.
        -- eexists. split; [reflexivity|]. split; [lia|]. split; [|split; [|lia]].
           ++ intros _. right. apply dget_dset_eq.
           ++ intros x N1 N2 N3. rewrite dget_dset_neq by auto. auto.
      * exfalso. symmetry in Ei. apply app_eq_nil in Ei as [_ Ei]. auto.
Qed.
End D.
