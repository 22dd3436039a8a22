(** C33: NearSwap and Model Stock. *)
From Coq Require Import Reals Lra Psatz Permutation.
From Verif.Base Require Import Py PyFacts RList.
From Verif.Methods Require Import Model LinearProofs PropsLinear PropsSlerp.
Local Open Scope string_scope.
Local Open Scope list_scope.
Local Open Scope R_scope.

Definition s1 (a : R) : tensor := {| shp := [1%nat]; dat := [a] |}.

(** *** NearSwap *)
Lemma clamp_bounds lo hi v : lo <= hi -> lo <= clamp lo hi v <= hi.
Proof. intros H. unfold clamp. split; [apply Rmin_glb; [apply Rmax_r|exact H]|apply Rmin_r]. Qed.
Lemma clamp_id lo hi v : lo <= v <= hi -> clamp lo hi v = v.
Proof. intros [A B]. unfold clamp. rewrite Rmax_left by lra. now rewrite Rmin_left by lra. Qed.
Lemma tiny_pos : 0 < / 10 ^ 6.
Proof. apply Rinv_0_lt_compat, pow_lt. lra. Qed.

(** No element moves by more than [t]; it moves towards the other model and never
    past it; and it becomes the other model's element if the two differ by at most [t]. *)
Theorem C33_nearswap (a b : tensor) (t : R) : shp a = shp b -> wf a -> wf b -> 0 <= t ->
  exists y, nearswap [b] a t = Ok {| shp := shp a; dat := y |} /\ length y = length (dat a) /\
    forall i, (i < length (dat a))%nat ->
      let x := nth i (dat a) 0 in let z := nth i (dat b) 0 in
      Rabs (nth i y 0 - x) <= t /\
      Rmin x z <= nth i y 0 <= Rmax x z /\
      (Rabs (x - z) <= t -> / 10 ^ 6 <= t -> nth i y 0 = z).
Proof.
  intros Hs Wa Wb Ht. eexists. split; [unfold nearswap; rewrite (proj2 (shape_eqb_true _ _) Hs); reflexivity|].
  assert (L : length (dat a) = length (dat b)) by (unfold wf in *; congruence). split; [rewrite map2_length; lia|].
  intros i Hi x z. rewrite (map2_nth _ _ _ _ 0 0) by lia. fold x z. unfold nearswap_weight.
  set (m := Rmax (Rabs (x - z)) (/ 10 ^ 6)). pose proof tiny_pos. assert (Hm : 0 < m) by (eapply Rlt_le_trans; [exact H|apply Rmax_r]).
  assert (Hm' : Rabs (x - z) <= m) by apply Rmax_l.
  assert (Hq : 0 <= t / m) by (apply Rmult_le_pos; [exact Ht|left; now apply Rinv_0_lt_compat]).
  set (w := clamp 0 1 (t / m)). assert (Hw : 0 <= w <= 1) by (apply clamp_bounds; lra).
  assert (Hw' : w <= t / m) by (unfold w, clamp; rewrite Rmax_left by lra; apply Rmin_l).
  assert (Ex : w * z + (1 - w) * x - x = w * (z - x)) by ring. split; [|split].
  - rewrite Ex, Rabs_mult, (Rabs_pos_eq w) by lra. rewrite Rabs_minus_sym. apply Rle_trans with (t / m * m).
    + apply Rmult_le_compat; try lra. apply Rabs_pos.
    + right. field. lra.
  - destruct (Rle_dec x z) as [H1|H1].
    + rewrite Rmin_left, Rmax_right by lra. split; nra.
    + rewrite Rmin_right, Rmax_left by lra. split; nra.
  - intros Hd Ht'. assert (m <= t) by (apply Rmax_lub; assumption). assert (w = 1).
    { unfold w, clamp. assert (1 <= t / m) by (apply Rmult_le_reg_r with m; [lra|]; unfold Rdiv; rewrite Rmult_assoc, Rinv_l by lra; lra).
      rewrite Rmax_left by lra. apply Rmin_right. exact H1. }
    rewrite H1. ring.
Qed.

(** *** Model Stock *)
Definition others (bm : string) (tensors : dict string tensor) : list tensor :=
  map snd (filter (fun kt => negb (eqb (fst kt) bm)) tensors).
Definition average (ts : list tensor) (i : nat) : R := rsum (map (fun t => nth i (dat t) 0) ts) / INR (length ts).
(** the row that entry [i] belongs to, when rows are treated separately *)
Definition row_index (filter_wise : bool) (shape : list nat) (i : nat) : nat :=
  if filter_wise then (i / last shape 1)%nat else 0%nat.

Lemma stock_run e o fw bm tensors b : dget tensors bm = Some b -> (3 <= length tensors)%nat -> (forall k t, In (k, t) tensors -> shp t = shp b) ->
  model_stock e o fw bm tensors =
  (let r0 := stock_rows fw (shp b) (dat b) in
   let rs := map (fun w => stock_rows fw (shp b) (dat w)) (others bm tensors) in
   let! out := rmapM (fun k => stock_row (nth k r0 []) (map (fun r => nth k r []) rs)) (seq 0 (length r0)) in
   Ok (Some {| shp := shp b; dat := concat out |})).
Proof.
  intros Eb L Hs. unfold model_stock. rewrite Eb. destruct tensors as [|x1 [|x2 [|x3 r]]]; cbn [length] in L; try lia.
  set (ts := x1 :: x2 :: x3 :: r) in *. assert (Hlt : (length ts <? 3)%nat = false) by (apply Nat.ltb_ge; unfold ts; cbn; lia). rewrite Hlt. cbv iota.
  fold (others bm ts). assert (Ho : forall w, In w (others bm ts) -> shp w = shp b).
  { intros w Hw. unfold others in Hw. apply in_map_iff in Hw as ([k t] & <- & Hin). apply filter_In in Hin as [Hin _]. now apply (Hs k t). }
  rewrite rectify_fit. cbn [rbind].
  assert (Ef : map (fit e (b :: others bm ts)) (b :: others bm ts) = b :: others bm ts).
  { transitivity (map (fun t => t) (b :: others bm ts)); [|apply map_id]. apply map_ext_in. intros t Ht. apply (fit_same e _ (shp b)); [|exact Ht].
    intros w [<-|Hw]; auto. }
  rewrite Ef. replace (forallb _ _) with true.
  2:{ symmetry. apply forallb_forall. intros w Hw. apply shape_eqb_true. now apply Ho. }
  cbv zeta. erewrite (map_ext_in (fun w => stock_rows fw (shp w) (dat w))); [reflexivity|]. intros w Hw. now rewrite (Ho w Hw).
Qed.
Lemma stock_row_Ok w0 ws y : stock_row w0 ws = Ok y -> exists t, length y = length w0 /\
  forall i, (i < length w0)%nat -> nth i y 0 = t * (rsum (map (fun w => nth i w 0) ws) / INR (length ws)) + (1 - t) * nth i w0 0.
Proof.
  unfold stock_row. destruct (stock_ratio _) as [t|]; [|discriminate]. intros [= <-]. exists t. unfold vavg.
  rewrite map2_length, map_length, seq_length. split; [lia|]. intros i Hi.
  rewrite (map2_nth _ _ _ _ 0 0) by (rewrite ?map_length, ?seq_length; lia). rewrite (map_nth_in _ _ _ 0%nat) by (now rewrite seq_length). now rewrite seq_nth by auto.
Qed.
Lemma chunk_nth r c l k : (k < r)%nat -> nth k (chunk r c l) [] = firstn c (skipn (k * c) l).
Proof.
  revert l k. induction r as [|r IH]; intros l k Hk; [lia|]. cbn [chunk]. destruct k; [reflexivity|]. cbn [nth]. rewrite IH by lia.
  f_equal. clear. cbn [Nat.mul]. generalize (k * c)%nat. intros n. revert l. induction c; intros l; cbn; [reflexivity|]. destruct l; [now rewrite skipn_nil|]. apply IHc.
Qed.
Lemma chunk_length r c l : length (chunk r c l) = r.
Proof. revert l. induction r; intros; cbn; auto. Qed.
Lemma nth_firstn_lt {A} (l : list A) n i d : (i < n)%nat -> nth i (firstn n l) d = nth i l d.
Proof. revert n i. induction l as [|a l IH]; intros n i H; [now rewrite firstn_nil|]. destruct n; [lia|]. destruct i; [reflexivity|]. cbn. apply IH. lia. Qed.
Lemma nth_skipn_at {A} (l : list A) n j d : nth j (skipn n l) d = nth (n + j) l d.
Proof. revert l. induction n; intros l; [reflexivity|]. destruct l; [now destruct j|]. cbn. apply IHn. Qed.
Lemma chunk_entry r c l k j : (k < r)%nat -> (j < c)%nat -> nth j (nth k (chunk r c l) []) 0 = nth (k * c + j) l 0.
Proof. intros Hk Hj. rewrite chunk_nth by auto. rewrite nth_firstn_lt by auto. apply nth_skipn_at. Qed.
Lemma chunk_row_length r c l k : length l = (r * c)%nat -> (k < r)%nat -> length (nth k (chunk r c l) []) = c.
Proof. intros L Hk. rewrite chunk_nth by auto. rewrite firstn_length, skipn_length. nia. Qed.
Lemma numel_rev s : numel (rev s) = numel s.
Proof.
  unfold numel. assert (H : forall a b, fold_right Nat.mul 1%nat (a ++ b) = (fold_right Nat.mul 1 a * fold_right Nat.mul 1 b)%nat) by (induction a; intros; cbn; rewrite ?IHa; lia).
  induction s as [|x s IH]; [reflexivity|]. cbn [rev]. rewrite H, IH. cbn. lia.
Qed.
(** the rows of a tensor: [r] rows of [c] entries *)
Lemma stock_rows_spec fw s : exists r c, (r * c = numel s)%nat /\ (forall i, (i < numel s)%nat -> row_index fw s i = (i / c)%nat) /\
  forall l, length l = numel s -> length (stock_rows fw s l) = r /\ forall k, (k < r)%nat -> length (nth k (stock_rows fw s l) []) = c /\
    forall j, (j < c)%nat -> nth j (nth k (stock_rows fw s l) []) 0 = nth (k * c + j) l 0.
Proof.
  assert (Hone : forall l : list R, length [l] = 1%nat /\ forall k, (k < 1)%nat -> length (nth k [l] []) = length l /\ forall j, (j < length l)%nat -> nth j (nth k [l] []) 0 = nth (k * length l + j) l 0).
  { intros l. split; [reflexivity|]. intros k Hk. assert (k = 0%nat) as -> by lia. split; [reflexivity|]. intros; reflexivity. }
  unfold stock_rows, row_index. destruct fw.
  - destruct (rev s) as [|c rest] eqn:E.
    + assert (s = []) as -> by (rewrite <- (rev_involutive s), E; reflexivity). exists 1%nat, 1%nat. split; [reflexivity|]. split; [reflexivity|].
      intros l L. change (length l = 1%nat) in L. pose proof (Hone l) as Ho. rewrite L in Ho. exact Ho.
    + exists (fold_right Nat.mul 1%nat rest), c. assert (Hn : (fold_right Nat.mul 1 rest * c)%nat = numel s) by (rewrite <- (numel_rev s), E; unfold numel; cbn; lia).
      split; [exact Hn|]. split.
      * intros i _. f_equal. rewrite <- (rev_involutive s), E. cbn [rev]. apply last_last.
      * intros l L. split; [apply chunk_length|]. intros k Hk. split; [apply chunk_row_length; [lia|exact Hk]|]. intros j Hj. now apply chunk_entry.
  - exists 1%nat, (numel s). split; [lia|]. split; [intros i Hi; symmetry; now apply Nat.div_small|]. intros l L. rewrite <- L. apply Hone.
Qed.

(** The result lies on the line through the base and the average: one ratio for
    the whole tensor, or one per row when rows are treated separately. *)
Theorem C33_stock_line (e o fw : bool) (bm : string) (tensors : dict string tensor) (b : tensor) (y : tensor) :
  dget tensors bm = Some b -> (3 <= length tensors)%nat -> (forall k t, In (k, t) tensors -> shp t = shp b /\ wf t) ->
  model_stock e o fw bm tensors = Ok (Some y) ->
  shp y = shp b /\ length (dat y) = length (dat b) /\
  exists ratio : nat -> R, forall i, (i < length (dat b))%nat ->
    let t := ratio (row_index fw (shp b) i) in
    nth i (dat y) 0 = t * average (others bm tensors) i + (1 - t) * nth i (dat b) 0.
Proof.
  intros Eb L Hs E. rewrite (stock_run e o fw bm tensors b Eb L) in E by (intros k t Hin; now apply (Hs k t)).
  assert (Wb : length (dat b) = numel (shp b)) by (apply dget_In in Eb; now apply (Hs bm b)).
  assert (Wo : forall w, In w (others bm tensors) -> length (dat w) = numel (shp b)).
  { intros w Hw. unfold others in Hw. apply in_map_iff in Hw as ([k t] & <- & Hin). apply filter_In in Hin as [Hin _]. destruct (Hs k t Hin) as [S W]. unfold wf in W. now rewrite S in W. }
  destruct (stock_rows_spec fw (shp b)) as (r & c & Hrc & Hrow & Hspec).
  cbv zeta in E. destruct (Hspec (dat b) Wb) as [Lr Hr0]. rewrite Lr in E.
  destruct (rmapM _ (seq 0 r)) as [out|] eqn:Eo; [|discriminate]. cbn [rbind] in E. injection E as <-. cbn [shp dat].
  apply rmapM_Ok_Forall2 in Eo.
  assert (Lo : length out = r) by (clear - Eo; pose proof (seq_length r 0) as Ls; rewrite <- Ls; clear Ls; induction Eo; cbn; auto).
  assert (Hk : forall k, (k < r)%nat -> stock_row (nth k (stock_rows fw (shp b) (dat b)) []) (map (fun r0 => nth k r0 []) (map (fun w => stock_rows fw (shp b) (dat w)) (others bm tensors))) = Ok (nth k out [])).
  { assert (G : forall n0 l, Forall2 (fun k o => stock_row (nth k (stock_rows fw (shp b) (dat b)) []) (map (fun r0 => nth k r0 []) (map (fun w => stock_rows fw (shp b) (dat w)) (others bm tensors))) = Ok o) (seq n0 (length l)) l ->
        forall k, (k < length l)%nat -> stock_row (nth (n0 + k) (stock_rows fw (shp b) (dat b)) []) (map (fun r0 => nth (n0 + k) r0 []) (map (fun w => stock_rows fw (shp b) (dat w)) (others bm tensors))) = Ok (nth k l [])).
    { intros n0 l. revert n0. induction l as [|o' l IHl]; intros n0 HF k Hk0; cbn [length] in *; [lia|]. cbn [seq] in HF. inversion HF; subst. destruct k; [rewrite Nat.add_0_r; assumption|].
      cbn [nth]. replace (n0 + S k)%nat with (S n0 + k)%nat by lia. apply IHl; [assumption|lia]. }
    intros k Hk. apply (G 0%nat out); [now rewrite Lo|lia]. }
  assert (Hlen : forall k, (k < r)%nat -> length (nth k out []) = c).
  { intros k Hk'. destruct (stock_row_Ok _ _ _ (Hk k Hk')) as (t & Lt & _). rewrite Lt. now apply Hr0. }
  assert (Hall : forall x, In x out -> length x = c).
  { intros x Hx. destruct (In_nth out x [] Hx) as (k & Hk0 & <-). apply Hlen. lia. }
  assert (Lc : length (concat out) = (r * c)%nat).
  { rewrite <- Lo. clear - Hall. induction out as [|x out IH]; [reflexivity|]. cbn. rewrite app_length, IH by (intros; apply Hall; now right). rewrite (Hall x) by now left. lia. }
  split; [reflexivity|]. split; [lia|].
  assert (Hsel : forall n, (n <= r)%nat -> exists f : nat -> R, forall k, (k < n)%nat -> forall j, (j < c)%nat ->
     nth j (nth k out []) 0 = f k * (rsum (map (fun w => nth j w 0) (map (fun r0 => nth k r0 []) (map (fun w => stock_rows fw (shp b) (dat w)) (others bm tensors)))) / INR (length (others bm tensors))) + (1 - f k) * nth j (nth k (stock_rows fw (shp b) (dat b)) []) 0).
  { induction n as [|n IH]; intros Hn; [exists (fun _ => 0); intros; lia|]. destruct IH as (f & Hf); [lia|]. destruct (stock_row_Ok _ _ _ (Hk n ltac:(lia))) as (t & Lt & Ht).
    exists (fun k => if Nat.eqb k n then t else f k). intros k Hk' j Hj. destruct (Nat.eqb_spec k n) as [->|Hne]; [|apply Hf; lia].
    rewrite Ht by (rewrite (proj1 (Hr0 n ltac:(lia))); exact Hj). now rewrite !map_length. }
  destruct (Hsel r (le_n r)) as (f & Hf). exists f. intros i Hi. cbv zeta. rewrite Wb in Hi. rewrite Hrow by exact Hi.
  assert (Hc : (0 < c)%nat) by nia. set (k := (i / c)%nat). set (j := (i mod c)%nat).
  assert (Ei : (i = k * c + j)%nat) by (unfold k, j; rewrite Nat.mul_comm; apply Nat.div_mod; lia).
  assert (Hj : (j < c)%nat) by (apply Nat.mod_upper_bound; lia). assert (Hk' : (k < r)%nat) by nia.
  clearbody k j. subst i.
  replace (concat out) with (flat_map (fun x : list R => x) out) by (clear; induction out; cbn; congruence).
  rewrite (flat_map_nth _ out c k j 0 []) by (auto; lia). rewrite Hf by auto. rewrite (proj2 (Hr0 k Hk') j Hj). unfold average.
  f_equal. f_equal. f_equal. rewrite !map_map. apply rsum_ext. intros w Hw. destruct (Hspec (dat w) (Wo w Hw)) as [_ Hsw]. now apply (Hsw k Hk').
Qed.

Lemma pairs_cos_all c l : ForallOrdPairs (fun u v => pair_cos u v = c) l -> forall x, In x (pairs_cos l) -> x = c.
Proof.
  induction 1 as [|u l Hu HF IH]; cbn; [intros ? []|]. intros x Hx. apply in_app_iff in Hx as [Hx|Hx]; [|auto].
  apply in_map_iff in Hx as (v & <- & Hv). rewrite Forall_forall in Hu. now apply Hu.
Qed.
Lemma mean_const l c : l <> [] -> (forall x, In x l -> x = c) -> mean l = c.
Proof.
  intros Hne H. unfold mean. assert (E : rsum l = INR (length l) * c).
  { rewrite <- (map_id l) at 1. rewrite (rsum_ext _ (fun _ => c)) by exact H. apply rsum_const. }
  rewrite E. field. apply not_0_INR. destruct l; [congruence|discriminate].
Qed.

Lemma others_two bm tensors : NoDup (dkeys tensors) -> (3 <= length tensors)%nat -> (2 <= length (others bm tensors))%nat.
Proof.
  intros Hnd L. unfold others. rewrite map_length. assert (H : forall ts : dict string tensor, NoDup (dkeys ts) -> (length ts <= S (length (filter (fun kt => negb (eqb (fst kt) bm)) ts)))%nat).
  { clear. induction ts as [|[k t] ts IH]; intros Hn; cbn; [lia|]. rewrite dkeys_cons in Hn. inversion Hn as [|? ? Hni Hn' ]; subst. destruct (eqb_spec k bm) as [->|Hne]; cbn [negb].
    - assert (Hall : filter (fun kt : string * tensor => negb (eqb (fst kt) bm)) ts = ts).
      { clear - Hni. induction ts as [|[k' t'] ts IH]; [reflexivity|]. rewrite dkeys_cons in Hni. cbn [filter fst]. destruct (eqb_spec k' bm) as [->|]; [exfalso; apply Hni; now left|].
        cbn [negb]. f_equal. apply IH. intros Hin. apply Hni. now right. }
      rewrite Hall. lia.
    - cbn [length]. specialize (IH Hn'). lia. }
  specialize (H tensors Hnd). lia.
Qed.

(** If every two of the [N] differences to the base enclose the same angle with
    cosine [c], the ratio is N c / (1 + (N - 1) c); orthogonal differences give the
    base itself, coinciding ones the average. *)
Theorem C33_stock_ratio (e o : bool) (bm : string) (tensors : dict string tensor) (b : tensor) (c : R) :
  dget tensors bm = Some b -> NoDup (dkeys tensors) -> (3 <= length tensors)%nat -> (forall k t, In (k, t) tensors -> shp t = shp b /\ wf t) ->
  let offset t := vsub (dat t) (dat b) in
  let N := INR (length (others bm tensors)) in
  ForallOrdPairs (fun u v => dot (offset u) (offset v) = c * (norm2 (offset u) * norm2 (offset v)) /\
                             (c <> 0 -> / 10 ^ 6 <= norm2 (offset u) * norm2 (offset v))) (others bm tensors) ->
  -1 <= c <= 1 -> 1 + (N - 1) * c <> 0 ->
  exists y, model_stock e o false bm tensors = Ok (Some {| shp := shp b; dat := y |}) /\ length y = length (dat b) /\
    forall i, (i < length (dat b))%nat ->
      let t := N * c / (1 + (N - 1) * c) in
      nth i y 0 = t * average (others bm tensors) i + (1 - t) * nth i (dat b) 0.
Proof.
  intros Eb Hnd L Hs offset N Hp Hc Hden. rewrite (stock_run e o false bm tensors b Eb L) by (intros k t Hin; now apply (Hs k t)).
  pose proof (others_two bm tensors Hnd L) as HL.
  cbv zeta. cbn [stock_rows length seq]. rewrite rmapM_cons. cbn [nth].
  unfold stock_row at 1. assert (Er : stock_ratio (map (fun w => vsub w (dat b)) (map (fun r => nth 0 r []) (map (fun w => [dat w]) (others bm tensors)))) = Some (N * c / (1 + (N - 1) * c))).
  { rewrite !map_map. cbn [nth]. unfold stock_ratio. rewrite map_length. fold N. fold offset.
    assert (Em : mean (pairs_cos (map (fun x => vsub (dat x) (dat b)) (others bm tensors))) = c).
    { fold offset. apply mean_const.
      - destruct (others bm tensors) as [|u [|v r]]; cbn [length] in HL; try lia. discriminate.
      - apply pairs_cos_all. clear - Hp Hc. induction Hp as [|u l Hu HF IH]; cbn; constructor; [|exact IH]. rewrite Forall_forall in *. intros x Hx. apply in_map_iff in Hx as (v & <- & Hv).
        destruct (Hu v Hv) as [Hd Hn]. unfold pair_cos. rewrite Hd. destruct (Req_EM_T c 0) as [->|Hc0].
        + unfold Rdiv. rewrite !Rmult_0_l. apply clamp_id. lra.
        + specialize (Hn Hc0). rewrite Rmax_left by exact Hn. pose proof tiny_pos. set (q := norm2 (offset u) * norm2 (offset v)) in *. clearbody q. replace (c * q / q) with c by (field; lra). apply clamp_id. exact Hc. }
    fold offset in Em. rewrite Em. destruct (Req_EM_T (1 + (N - 1) * c) 0); [contradiction|reflexivity]. }
  rewrite Er. cbn [rbind]. eexists. split; [cbn [rmapM rbind]; cbn; rewrite app_nil_r; reflexivity|].
  rewrite map2_length. unfold vavg. rewrite map_length, seq_length. split; [lia|]. intros i Hi.
  rewrite (map2_nth _ _ _ _ 0 0) by (rewrite ?map_length, ?seq_length; lia). rewrite (map_nth_in _ _ _ 0%nat) by (now rewrite seq_length). rewrite seq_nth by auto. cbn [Nat.add].
  unfold average. rewrite !map_map, !map_length. cbn [nth]. reflexivity.
Qed.

Lemma vsub_length a b : length a = length b -> length (vsub a b) = length a.
Proof. intros H. unfold vsub. rewrite map2_length. lia. Qed.
Theorem C33_stock_orthogonal (e o : bool) (bm : string) (tensors : dict string tensor) (b : tensor) :
  dget tensors bm = Some b -> NoDup (dkeys tensors) -> (3 <= length tensors)%nat -> (forall k t, In (k, t) tensors -> shp t = shp b /\ wf t) ->
  ForallOrdPairs (fun u v => dot (vsub (dat u) (dat b)) (vsub (dat v) (dat b)) = 0) (others bm tensors) ->
  model_stock e o false bm tensors = Ok (Some b).
Proof.
  intros Eb Hnd L Hs Hp. destruct (C33_stock_ratio e o bm tensors b 0 Eb Hnd L Hs) as (y & E & Ly & Hy).
  - clear - Hp. induction Hp as [|u l Hu HF IH]; constructor; [|exact IH]. rewrite Forall_forall in *. intros v Hv. split; [rewrite (Hu v Hv); ring|congruence].
  - lra.
  - lra.
  - rewrite E. f_equal. f_equal. destruct b as [s d]. cbn [shp dat] in *. f_equal. apply nth_ext_R; [exact Ly|]. intros i Hi. rewrite Hy by lia. cbv zeta. unfold Rdiv. ring.
Qed.
(** All models agree: the result is that common model, provided the squared distance
    from the base is not below the 1e-6 at which the cosine is damped. *)
Theorem C33_stock_coincide (e o : bool) (bm : string) (tensors : dict string tensor) (b w : tensor) :
  dget tensors bm = Some b -> NoDup (dkeys tensors) -> (3 <= length tensors)%nat -> (forall k t, In (k, t) tensors -> shp t = shp b /\ wf t) ->
  (forall k t, In (k, t) tensors -> k <> bm -> t = w) ->
  / 10 ^ 6 <= dot (vsub (dat w) (dat b)) (vsub (dat w) (dat b)) ->
  model_stock e o false bm tensors = Ok (Some w).
Proof.
  intros Eb Hnd L Hs Hw Hn. set (d := dot _ _) in Hn. pose proof tiny_pos.
  assert (Hall : forall t, In t (others bm tensors) -> t = w).
  { intros t Ht. unfold others in Ht. apply in_map_iff in Ht as ([k t'] & <- & Hin). apply filter_In in Hin as [Hin Hne]. apply (Hw k t' Hin). cbn in Hne. destruct (eqb_spec k bm); [discriminate|assumption]. }
  assert (Hsq : norm2 (vsub (dat w) (dat b)) * norm2 (vsub (dat w) (dat b)) = d) by (rewrite norm2_dot; apply sqrt_sqrt; fold d; lra).
  assert (HP : ForallOrdPairs (fun u v : tensor => dot (vsub (dat u) (dat b)) (vsub (dat v) (dat b)) = 1 * (norm2 (vsub (dat u) (dat b)) * norm2 (vsub (dat v) (dat b))) /\
       (1 <> 0 -> / 10 ^ 6 <= norm2 (vsub (dat u) (dat b)) * norm2 (vsub (dat v) (dat b)))) (others bm tensors)).
  { clear L. induction (others bm tensors) as [|u l IH]; constructor; [|apply IH; intros; apply Hall; now right].
    rewrite Forall_forall. intros v Hv. rewrite (Hall u) by now left. rewrite (Hall v) by now right. fold d. rewrite Hsq. split; [ring|auto]. }
  pose proof (others_two bm tensors Hnd L) as HL. assert (HN : 2 <= INR (length (others bm tensors))) by (apply le_INR in HL; exact HL).
  destruct (C33_stock_ratio e o bm tensors b 1 Eb Hnd L Hs HP) as (y & E & Ly & Hy); [lra|lra|].
  rewrite E. f_equal. f_equal.
  assert (exists t0, In t0 (others bm tensors)) as (t0 & Ht0) by (destruct (others bm tensors) as [|t0 ?]; [cbn in HL; lia|exists t0; now left]).
  assert (Hw' : shp w = shp b /\ wf w).
  { rewrite <- (Hall t0 Ht0). unfold others in Ht0. apply in_map_iff in Ht0 as ([k t'] & <- & Hin). apply filter_In in Hin as [Hin _]. now apply (Hs k t'). }
  assert (Wb : wf b) by (apply dget_In in Eb; now apply (Hs bm b)). destruct Hw' as [Sw Ww]. unfold wf in *. rewrite Sw in Ww.
  destruct w as [sw dw]. cbn [shp dat] in *. subst sw. f_equal. apply nth_ext_R; [lia|]. intros i Hi. rewrite Hy by lia. cbv zeta.
  assert (Ea : average (others bm tensors) i = nth i dw 0).
  { unfold average. rewrite (rsum_ext _ (fun _ => nth i dw 0)) by (intros t Ht; now rewrite (Hall t Ht)). rewrite rsum_const. field. lra. }
  rewrite Ea. field. lra.
Qed.

(** A cosine between models that are close to the base is damped: two equal models
    at distance 1/10000 from the base are merged to a point near the base. *)
Definition close : dict string tensor := [("base", s1 0); ("a", s1 (/ 10000)); ("b", s1 (/ 10000))].
Theorem C33_stock_close_models_refuted :
  exists y, model_stock false false false "base" close = Ok (Some (s1 y)) /\ y < / 10000 / 10.
Proof.
  assert (Eb : dget close "base" = Some (s1 0)) by reflexivity.
  rewrite (stock_run false false false "base" close (s1 0) Eb) by (cbn; try lia; intros k t [[= <- <-]|[[= <- <-]|[[= <- <-]|[]]]]; reflexivity).
  change (others "base" close) with [s1 (/ 10000); s1 (/ 10000)]. cbn [stock_rows s1 shp dat map length seq]. cbv zeta. rewrite rmapM_cons. cbn [nth map].
  unfold stock_row, stock_ratio. cbn [map length vsub map2 pairs_cos app]. fold (vsub [/ 10000] [0]).
  assert (Ec : mean [pair_cos [/ 10000 - 0] [/ 10000 - 0]] = / 100).
  { unfold mean, pair_cos, dot, vmul, norm2. cbn [map2 map rsum fold_right length INR].
    replace ((/ 10000 - 0) * (/ 10000 - 0) + 0) with (/ 10000 * / 10000) by ring. rewrite sqrt_square by lra.
    rewrite Rmax_right by (cbn; lra). rewrite clamp_id by (cbn; lra). cbn. lra. }
  rewrite Ec. cbn [INR]. destruct (Req_EM_T (1 + (1 + 1 - 1) * / 100) 0); [lra|]. cbn [rbind rmapM]. cbn [rbind concat app]. unfold s1, vavg. cbn -[Rmult Rplus Rinv Rminus Rdiv].
  eexists. split; [reflexivity|]. cbn. lra.
Qed.

Example C33_stock_nonvacuous : let ts := [("base", s1 0); ("a", s1 1); ("b", s1 1)] in
  dget ts "base" = Some (s1 0) /\ NoDup (dkeys ts) /\ (3 <= length ts)%nat /\ (forall k t, In (k, t) ts -> shp t = shp (s1 0) /\ wf t) /\
  model_stock false false false "base" ts = Ok (Some (s1 1)).
Proof.
  cbv zeta. assert (A : dget [("base", s1 0); ("a", s1 1); ("b", s1 1)] "base" = Some (s1 0)) by reflexivity.
  assert (B : NoDup (dkeys [("base", s1 0); ("a", s1 1); ("b", s1 1)])).
  { unfold dkeys. cbn [map fst]. repeat constructor; cbn; intuition discriminate. }
  assert (C : forall k t, In (k, t) [("base", s1 0); ("a", s1 1); ("b", s1 1)] -> shp t = shp (s1 0) /\ wf t).
  { intros k t [[= <- <-]|[[= <- <-]|[[= <- <-]|[]]]]; split; reflexivity. }
  repeat (split; [assumption || (cbn; lia)|]). apply (C33_stock_coincide false false "base" _ (s1 0)); auto.
  - intros k t [[= <- <-]|[[= <- <-]|[[= <- <-]|[]]]] Hne; congruence.
  - unfold dot, vmul, vsub. cbn [s1 dat map2 rsum fold_right]. replace ((1 - 0) * (1 - 0) + 0) with 1 by ring.
    rewrite <- Rinv_1. apply Rinv_le_contravar; [lra|apply pow_R1_Rle; lra].
Qed.
Example C33_nearswap_nonvacuous : shp (s1 2) = shp (s1 5) /\ wf (s1 2) /\ wf (s1 5) /\ 0 <= 1.
Proof. repeat split; lra. Qed.

Print Assumptions C33_nearswap.
Print Assumptions C33_stock_line.
Print Assumptions C33_stock_coincide.
