(** C79: a merge method chosen by name runs its arithmetic with the configured parameters. *)
From Coq Require Import Reals QArith Qreals Lia Lra Permutation.
From Verif.Base Require Import Py PyFacts RList.
From Verif.Config Require Import Model.
From Verif.Arch Require Import Model.
From Verif.Plan Require Import Model Spec.
From Verif.Plan Require Proofs.
From Verif.Sparsify Require Import Model.
From Verif.Methods Require Import Model More Easy Spec LinearProofs GtaProofs PropsLinear PropsGta PropsSlerp PropsEasy Dispatch DispatchSpec.
Local Open Scope string_scope.
Local Open Scope list_scope.
Local Open Scope R_scope.

(** ** The names *)
Definition names : list string :=
  ["linear"; "slerp"; "nuslerp"; "passthrough"; "model_stock"; "arcee_fusion"; "karcher";
   "task_arithmetic"; "ties"; "dare_ties"; "dare_linear"; "breadcrumbs"; "breadcrumbs_ties"; "della"; "della_linear";
   "multislerp"; "nearswap"; "ram"; "ramplus_tl"; "sce"].

Lemma bool_field_flag d key b : bool_field d key = Ok b <-> exists v, dget d key = Some v /\ flag v b.
Proof.
  unfold bool_field, dgetE. destruct (dget d key) as [v|]; cbn [rbind].
  2:{ split; [discriminate|intros (v & [=] & _)]. }
  split.
  - intros E. exists v. split; [reflexivity|]. destruct v as [q| | |]; try discriminate. exists q. split; [reflexivity|].
    destruct (Qeq_bool q 0) eqn:E0; [injection E as <-; now apply Qeq_bool_iff|].
    destruct (Qeq_bool q 1) eqn:E1; [injection E as <-; now apply Qeq_bool_iff|discriminate].
  - intros (v' & [= <-] & q & -> & Hq). destruct (Qeq_bool q 0) eqn:E0.
    + apply Qeq_bool_iff in E0. destruct b; [|reflexivity]. exfalso. rewrite E0 in Hq. discriminate Hq.
    + destruct b; [now rewrite (proj2 (Qeq_bool_iff q 1) Hq)|]. apply Qeq_bool_iff in Hq. congruence.
Qed.
Lemma float_field_number d key x : float_field d key = Ok x <-> exists v, dget d key = Some v /\ number v x.
Proof.
  unfold float_field, dgetE, number. destruct (dget d key) as [v|]; cbn [rbind].
  2:{ split; [discriminate|intros (v & [=] & _)]. }
  split.
  - intros E. exists v. split; [reflexivity|]. destruct v as [q| | |]; try discriminate. injection E as <-. eauto.
  - intros (v' & [= <-] & q & -> & ->). reflexivity.
Qed.
Lemma Qtrunc_inject q z : (q == inject_Z z)%Q -> Qtrunc q = z.
Proof.
  intros E. unfold Qtrunc. unfold Qeq in E. cbn in E. rewrite Z.mul_1_r in E. rewrite E. apply Z.quot_mul. lia.
Qed.
Lemma int_field_integer d key z : int_field d key = Ok z <-> exists v, dget d key = Some v /\ integer v z.
Proof.
  unfold int_field, dgetE, integer. destruct (dget d key) as [v|]; cbn [rbind].
  2:{ split; [discriminate|intros (v & [=] & _)]. }
  split.
  - intros E. exists v. split; [reflexivity|]. destruct v as [q| | |]; try discriminate. exists q. split; [reflexivity|].
    destruct (Qeq_bool q (inject_Z (Qtrunc q))) eqn:E0; [|discriminate]. injection E as <-. now apply Qeq_bool_iff.
  - intros (v' & [= <-] & q & -> & Hq). rewrite (Qtrunc_inject _ _ Hq). now rewrite (proj2 (Qeq_bool_iff q (inject_Z z)) Hq).
Qed.
Lemma base_field_Some b x : base_field b = Ok x <-> b = Some x.
Proof. destruct b; cbn; split; congruence. Qed.
Lemma num_number v x : num v = Ok x <-> number v x.
Proof.
  unfold num, number. destruct v; (split; [intros [= <-]; eauto|intros (q' & [=] & ->); subst; reflexivity]) || (split; [discriminate|intros (? & [=] & _)]).
Qed.

(** Settings as planned. *)
Section Planned.
Context {name : string} {W : world string} {r : reader string} {w : weight_info} {ins : list (string * weight_info)} {task : merge_task string}.
Hypothesis HP : planned name W r w ins task.

Lemma registry_parameters k : get name = Ok k -> NoDup (map pd_name (parameters k)) /\ NoDup (map pd_name (tensor_parameters k)).
Proof.
  intros _. split; [destruct k|destruct k as [| | | | | | |[c [[]|]] ? ?| | | | |]]; cbn; repeat constructor; cbn; intuition discriminate.
Qed.
Lemma planned_parts : mt_weight task = w /\ mt_base task = reader_base r.
Proof. destruct HP as (_ & (-> & _ & _ & _ & _ & -> & _) & _). auto. Qed.
Lemma planned_setting k p : get name = Ok k -> In p (parameters k) ->
  exists v, dget (mt_params task) (pd_name p) = Some v /\
    parameter (for_tensor r (wi_name w)) (pd_name p) None (pd_default p) (pd_required p) = Ok v.
Proof.
  intros Hk Hp. destruct HP as ((k' & Hk' & Ep & _) & (_ & _ & _ & _ & _ & _ & M & _) & _). rewrite Hk in Hk'. injection Hk' as <-.
  rewrite Ep in M. apply M; [apply (registry_parameters k Hk)|auto].
Qed.
Lemma planned_model_setting k m p : get name = Ok k -> In m (map fst ins) -> In p (tensor_parameters k) ->
  exists wi d v, In (m, wi) ins /\ dget (mt_tparams task) m = Some d /\ dget d (pd_name p) = Some v /\
    parameter (for_tensor r (wi_name wi)) (pd_name p) (Some m) (pd_default p)
      (pd_required p && match reader_base r with Some b => negb (eqb m b) | None => true end) = Ok v.
Proof.
  intros Hk Hm Hp. destruct HP as ((k' & Hk' & _ & Ep) & (_ & _ & _ & _ & _ & _ & _ & M) & HN). rewrite Hk in Hk'. injection Hk' as <-.
  apply in_map_iff in Hm as ([m' wi] & <- & Hin). rewrite Ep in M.
  destruct (M HN (proj2 (registry_parameters k Hk)) m' wi p Hin Hp) as (d & v & H1 & H2 & H3). exists wi, d, v. auto.
Qed.

Lemma planned_flag k n (d : bool) b : get name = Ok k -> In (opt n (of_bool d)) (parameters k) ->
  bool_field (mt_params task) n = Ok b -> exists v, setting r w n (PNum (if d then 1 else 0)) v /\ flag v b.
Proof.
  intros Hk Hp E. apply bool_field_flag in E as (v & Ev & Hf). destruct (planned_setting k _ Hk Hp) as (v' & Ev' & Hr). cbn in Ev', Hr.
  exists v. split; [|exact Hf]. rewrite Ev in Ev'. injection Ev' as <-. exact Hr.
Qed.
Lemma planned_number k n d x : get name = Ok k -> In (opt n d) (parameters k) ->
  float_field (mt_params task) n = Ok x -> exists v, setting r w n d v /\ number v x.
Proof.
  intros Hk Hp E. apply float_field_number in E as (v & Ev & Hf). destruct (planned_setting k _ Hk Hp) as (v' & Ev' & Hr). cbn in Ev', Hr.
  exists v. split; [|exact Hf]. rewrite Ev in Ev'. injection Ev' as <-. exact Hr.
Qed.
Lemma planned_required k n x : get name = Ok k -> In (req n) (parameters k) ->
  float_field (mt_params task) n = Ok x -> exists v, required_setting r w n v /\ number v x.
Proof.
  intros Hk Hp E. apply float_field_number in E as (v & Ev & Hf). destruct (planned_setting k _ Hk Hp) as (v' & Ev' & Hr). cbn in Ev', Hr.
  exists v. split; [|exact Hf]. rewrite Ev in Ev'. injection Ev' as <-. eexists. exact Hr.
Qed.
Lemma planned_model_number k n m x : get name = Ok k -> In m (map fst ins) -> In (req n) (tensor_parameters k) ->
  model_number task n m = Ok x -> exists v, required_model_setting r ins m n v /\ number v x.
Proof.
  intros Hk Hm Hp E. destruct (planned_model_setting k m _ Hk Hm Hp) as (wi & d & v & Hin & Ed & Ev & Hr). cbn in Ev, Hr.
  unfold model_number, model_value, dgetE in E. rewrite Ed in E. cbn [rbind] in E. rewrite Ev in E. cbn [rbind] in E. apply num_number in E.
  exists v. split; [|exact E]. exists wi. eexists. split; [exact Hin|exact Hr].
Qed.
Lemma planned_model_default k n df m x : get name = Ok k -> In m (map fst ins) -> In (opt n df) (tensor_parameters k) ->
  model_number task n m = Ok x -> exists v, model_setting r ins m n df v /\ number v x.
Proof.
  intros Hk Hm Hp E. destruct (planned_model_setting k m _ Hk Hm Hp) as (wi & d & v & Hin & Ed & Ev & Hr). cbn in Ev, Hr.
  unfold model_number, model_value, dgetE in E. rewrite Ed in E. cbn [rbind] in E. rewrite Ev in E. cbn [rbind] in E. apply num_number in E.
  exists v. split; [|exact E]. exists wi. split; [exact Hin|exact Hr].
Qed.
Lemma optional_as_number k n df m x : get name = Ok k -> In m (map fst ins) -> In (opt n df) (tensor_parameters k) ->
  optional_number task n m = Ok x -> model_number task n m = Ok x.
Proof.
  intros Hk Hm Hp E. destruct (planned_model_setting k m _ Hk Hm Hp) as (wi & d & v & Hin & Ed & Ev & Hr). cbn in Ev, Hr.
  unfold optional_number, model_number, model_value, dgetE in *. rewrite Ed in *. cbn [rbind] in *. rewrite Ev in *. exact E.
Qed.
End Planned.

Lemma some_Ok {A} (x : result A) o : some x = Ok o -> exists y, x = Ok y /\ o = Some y.
Proof. unfold some. destruct x; cbn [rbind]; [intros [= <-]; eauto|discriminate]. Qed.

Lemma numbers_get (t : merge_task string) key ms ws : numbers t key ms = Ok ws ->
  map fst ws = ms /\ forall m, In m ms -> exists x, dget ws m = Some x /\ model_number t key m = Ok x.
Proof.
  unfold numbers. intros E. apply rmapM_Ok_Forall2 in E. induction E as [|m mx ms ws H _ [IH1 IH2]]; [split; [reflexivity|intros m []]|].
  destruct (model_number t key m) as [x|] eqn:Ex; cbn [rbind] in H; [|discriminate]. injection H as <-. cbn. split; [congruence|].
  intros m' Hm. destruct (eqb_spec m' m) as [Ek|Hne]; [exists x; rewrite Ek; auto|].
  destruct Hm as [->|Hm]; [congruence|]. exact (IH2 m' Hm).
Qed.

Lemma merge_with_inv name L t ds o k : get name = Ok k -> merge_with name L t ds = Ok o ->
  exists ex, make_task k t = Ok ex /\ ex L ds = Ok o.
Proof. intros Hk. unfold merge_with. rewrite Hk. cbn [rbind]. destruct (make_task k t) as [ex|]; cbn [rbind]; [eauto|discriminate]. Qed.

Lemma linear_nonzero e ds ws y : (forall k t, In (k, t) ds -> dget ws k <> None) -> linear e true ds ws = Ok y -> PropsLinear.total ws ds <> 0.
Proof.
  intros Hget E H0. rewrite linear_lin, (lookup_all ws ds Hget) in E. set (l := map _ (map _ ds)) in E.
  assert (El : rsum (map fst l) = 0) by (unfold l; rewrite !map_map; exact H0). clearbody l. unfold lin in E. destruct l as [|[w0 t0] l]; [discriminate|].
  destruct (forallb _ _); [|discriminate]. destruct (Req_EM_T _ 0); [discriminate|contradiction].
Qed.

(** Exactly twenty names are methods; any other is refused. *)
Theorem C79_names (name : string) :
  (In name names -> exists k, get name = Ok k) /\ (~ In name names -> get name = Err RuntimeError).
Proof.
  unfold get. split.
  - intros Hin. assert (H : In name (dkeys registry)) by exact Hin. apply dget_Some_key in H as (k & ->). eauto.
  - intros Hn. assert (H : dget registry name = None) by (apply dget_None; exact Hn). now rewrite H.
Qed.

(** ** Linear *)
(** Tensors of one shape are averaged with the configured weights; the division by their sum is left out only when
    [normalize] is set to false. *)
Theorem C79_linear W r w ins task L ds o :
  planned "linear" W r w ins task -> incl (dkeys ds) (map fst ins) ->
  merge_with "linear" L task ds = Ok o ->
  exists y normalize weights,
    o = Some y /\
    (exists v, setting r w "normalize" (PNum 1) v /\ flag v normalize) /\
    (forall m, In m (dkeys ds) -> exists v, required_model_setting r ins m "weight" v /\ number v (weights m)) /\
    linear (wi_embed w) normalize ds (map (fun m => (m, weights m)) (dkeys ds)) = Ok y /\
    forall s, (forall m t, In (m, t) ds -> shp t = s /\ wf t) ->
      let total := rsum (map (fun m => weights m) (dkeys ds)) in
      shp y = s /\ length (dat y) = numel s /\ (normalize = true -> total <> 0) /\
      forall i, (i < numel s)%nat ->
        nth i (dat y) 0 = rsum (map (fun mt => weights (fst mt) * nth i (dat (snd mt)) 0) ds) / (if normalize then total else 1).
Proof.
  intros HP Hincl E. destruct (merge_with_inv "linear" L task ds o KLinear eq_refl E) as (ex & Em & Ex). clear E.
  cbn [make_task] in Em. destruct (planned_parts HP) as [Ew _].
  destruct (bool_field (mt_params task) "normalize") as [n|] eqn:En; cbn [rbind] in Em; [|discriminate]. injection Em as <-.
  destruct (numbers task "weight" (dkeys ds)) as [ws|] eqn:Ews; cbn [rbind] in Ex; [|discriminate].
  apply some_Ok in Ex as (y & Ey & ->). rewrite Ew in Ey. destruct (numbers_get _ _ _ _ Ews) as [Hk Hg].
  set (weights := fun m => match dget ws m with Some x => x | None => 0 end).
  assert (Hws : linear (wi_embed w) n ds (map (fun m => (m, weights m)) (dkeys ds)) = Ok y).
  { rewrite <- Ey. unfold linear.
    assert (Hr : rmapM (fun kt : string * tensor => match dget (map (fun m => (m, weights m)) (dkeys ds)) (fst kt) with Some x => Ok x | None => Err KeyError end) ds =
            rmapM (fun kt : string * tensor => match dget ws (fst kt) with Some x => Ok x | None => Err KeyError end) ds).
    { apply rmapM_ext. intros [m t] Hin. cbn [fst]. assert (Hm : In m (dkeys ds)) by (unfold dkeys; apply (in_map fst) in Hin; exact Hin).
      destruct (Hg m Hm) as (x & Hx & _). rewrite Hx. assert (Hd : dget (map (fun m => (m, weights m)) (dkeys ds)) m = Some (weights m)).
      { clear -Hm. induction (dkeys ds) as [|k l IH]; [destruct Hm|]. cbn. destruct (eqb_spec m k) as [->|Hne]; [reflexivity|]. apply IH. destruct Hm; [congruence|auto]. }
      rewrite Hd. unfold weights. now rewrite Hx. }
    now rewrite Hr. }
  exists y, n, weights. split; [reflexivity|]. split; [exact (planned_flag HP KLinear "normalize" true n eq_refl (or_introl eq_refl) En)|]. split.
  { intros m Hm. destruct (Hg m Hm) as (x & Hx & Hnum). unfold weights. rewrite Hx.
    apply (planned_model_number HP KLinear "weight" m x eq_refl (Hincl m Hm) (or_introl eq_refl) Hnum). }
  split; [exact Hws|]. intros s Hs total.
  assert (Hne : ds <> []) by (intros ->; rewrite linear_lin in Ey; discriminate Ey).
  assert (Hget : forall k t, In (k, t) ds -> dget ws k <> None).
  { intros k t Hin. assert (Hm : In k (dkeys ds)) by (unfold dkeys; apply (in_map fst) in Hin; exact Hin). destruct (Hg k Hm) as (x & -> & _). discriminate. }
  assert (Htot : PropsLinear.total ws ds = total).
  { unfold PropsLinear.total, total, dkeys. rewrite map_map. apply rsum_ext. intros [k t] _. reflexivity. }
  assert (Hn0 : n = true -> total <> 0).
  { intros ->. rewrite <- Htot. exact (linear_nonzero _ _ _ _ Hget Ey). }
  destruct (C29_value (wi_embed w) n ds ws s Hne) as (yd & Ey' & Hl & Hv).
  { intros k t Hin. destruct (Hs k t Hin) as [H1 H2]. split; [exact H1|]. split; [exact H2|]. eapply Hget; eauto. }
  { rewrite Htot. exact Hn0. }
  rewrite Ey in Ey'. injection Ey' as ->. cbn [shp dat]. split; [reflexivity|]. split; [exact Hl|]. split; [exact Hn0|].
  intros i Hi. rewrite Hv by exact Hi. rewrite Htot. reflexivity.
Qed.

(** ** Slerp *)
(** Two tensors of one shape, one of them the base model's, are interpolated from the base model's to the other's by the
    configured [t]; a single tensor is passed on. *)
Theorem C79_slerp W r w ins task L ds o :
  planned "slerp" W r w ins task ->
  merge_with "slerp" L task ds = Ok o ->
  exists y base t,
    o = Some y /\ reader_base r = Some base /\
    (exists v, required_setting r w "t" v /\ number v t) /\
    slerp_task (wi_embed w) t base ds = Ok y /\
    (forall m x, ds = [(m, x)] -> y = x) /\
    (forall m a b, m <> base -> shp a = shp b -> ds = [(base, a); (m, b)] \/ ds = [(m, b); (base, a)] ->
       y = {| shp := shp a; dat := slerp t (dat a) (dat b) |}).
Proof.
  intros HP E. destruct (merge_with_inv "slerp" L task ds o KSlerp eq_refl E) as (ex & Em & Ex). clear E.
  cbn [make_task] in Em. destruct (planned_parts HP) as [Ew Eb].
  destruct (base_field (mt_base task)) as [b|] eqn:Ebf; cbn [rbind] in Em; [|discriminate]. apply base_field_Some in Ebf.
  destruct (float_field (mt_params task) "t") as [t|] eqn:Et; cbn [rbind] in Em; [|discriminate]. injection Em as <-.
  apply some_Ok in Ex as (y & Ey & ->). rewrite Ew in Ey. exists y, b, t. split; [reflexivity|]. split; [congruence|].
  split; [exact (planned_required HP KSlerp "t" t eq_refl (or_introl eq_refl) Et)|]. split; [exact Ey|]. split.
  - intros m x ->. cbn in Ey. congruence.
  - intros m a c Hm Hs Hds. destruct (C32_task (wi_embed w) t b m a c ds Hm Hs Hds) as [H _]. rewrite H in Ey. congruence.
Qed.

(** ** NuSLERP, the Karcher mean, model stock, fusion *)
Theorem C79_nuslerp W r w ins task L ds o :
  planned "nuslerp" W r w ins task -> incl (dkeys ds) (map fst ins) ->
  merge_with "nuslerp" L task ds = Ok o ->
  exists y row_wise flatten weights,
    o = Some y /\
    (exists v, setting r w "nuslerp_row_wise" (PNum 0) v /\ flag v row_wise) /\
    (exists v, setting r w "nuslerp_flatten" (PNum 1) v /\ flag v flatten) /\
    (length ds <> 1%nat -> forall m, In m (dkeys ds) -> reader_base r <> Some m ->
       exists x v, dget weights m = Some x /\ required_model_setting r ins m "weight" v /\ number v x) /\
    nuslerp_task (wi_embed w) row_wise flatten (reader_base r) ds weights = Ok y.
Proof.
  intros HP Hincl E. destruct (merge_with_inv "nuslerp" L task ds o KNuslerp eq_refl E) as (ex & Em & Ex). clear E.
  cbn [make_task] in Em. destruct (planned_parts HP) as [Ew Eb].
  destruct (bool_field (mt_params task) "nuslerp_row_wise") as [rw|] eqn:E1; cbn [rbind] in Em; [|discriminate].
  destruct (bool_field (mt_params task) "nuslerp_flatten") as [fl|] eqn:E2; cbn [rbind] in Em; [|discriminate]. injection Em as <-.
  destruct (match ds with [_] => Ok [] | _ => numbers task "weight" (others (mt_base task) ds) end) as [ws|] eqn:Ews; cbn [rbind] in Ex; [|discriminate].
  apply some_Ok in Ex as (y & Ey & ->). rewrite Ew, Eb in Ey. exists y, rw, fl, ws. split; [reflexivity|].
  split; [exact (planned_flag HP KNuslerp "nuslerp_row_wise" false rw eq_refl (or_introl eq_refl) E1)|].
  split; [exact (planned_flag HP KNuslerp "nuslerp_flatten" true fl eq_refl (or_intror (or_introl eq_refl)) E2)|]. split; [|exact Ey].
  intros Hl m Hm Hb. assert (En : numbers task "weight" (others (mt_base task) ds) = Ok ws) by (destruct ds as [|? [|? ?]]; [exact Ews|now destruct Hl|exact Ews]).
  destruct (numbers_get _ _ _ _ En) as [_ Hg]. destruct (Hg m) as (x & Hx & Hn).
  { unfold others. apply filter_In. split; [exact Hm|]. rewrite Eb. destruct (reader_base r) as [b|]; [|reflexivity].
    destruct (eqb_spec m b) as [Ek|]; [congruence|reflexivity]. }
  destruct (planned_model_number HP KNuslerp "weight" m x eq_refl (Hincl m Hm) (or_introl eq_refl) Hn) as (v & Hv1 & Hv2). eauto 6.
Qed.

Theorem C79_karcher W r w ins task L ds o :
  planned "karcher" W r w ins task ->
  merge_with "karcher" L task ds = Ok o ->
  exists y max_iter tol,
    o = Some y /\
    (exists v, setting r w "max_iter" (PNum 10) v /\ integer v max_iter) /\
    (exists v, setting r w "tol" (PNum (1 # 100000)) v /\ number v tol) /\
    karcher (wi_embed w) (Z.to_nat max_iter) tol ds = Ok y.
Proof.
  intros HP E. destruct (merge_with_inv "karcher" L task ds o KKarcher eq_refl E) as (ex & Em & Ex). clear E.
  cbn [make_task] in Em. destruct (planned_parts HP) as [Ew Eb].
  destruct (int_field (mt_params task) "max_iter") as [mi|] eqn:E1; cbn [rbind] in Em; [|discriminate].
  destruct (float_field (mt_params task) "tol") as [tol|] eqn:E2; cbn [rbind] in Em; [|discriminate]. injection Em as <-.
  apply some_Ok in Ex as (y & Ey & ->). rewrite Ew in Ey. exists y, mi, tol. split; [reflexivity|]. split; [|split; [|exact Ey]].
  - apply int_field_integer in E1 as (v & Ev & Hi). destruct (planned_setting HP KKarcher _ eq_refl (or_introl eq_refl)) as (v' & Ev' & Hr).
    cbn in Ev', Hr. exists v. split; [|exact Hi]. rewrite Ev in Ev'. injection Ev' as <-. exact Hr.
  - exact (planned_number HP KKarcher "tol" _ tol eq_refl (or_intror (or_introl eq_refl)) E2).
Qed.

Theorem C79_model_stock W r w ins task L ds o :
  planned "model_stock" W r w ins task ->
  merge_with "model_stock" L task ds = Ok o ->
  exists base filter_wise,
    reader_base r = Some base /\
    (exists v, setting r w "filter_wise" (PNum 0) v /\ flag v filter_wise) /\
    model_stock (wi_embed w) (wi_optional w) filter_wise base ds = Ok o.
Proof.
  intros HP E. destruct (merge_with_inv "model_stock" L task ds o KStock eq_refl E) as (ex & Em & Ex). clear E.
  cbn [make_task] in Em. destruct (planned_parts HP) as [Ew Eb].
  destruct (base_field (mt_base task)) as [b|] eqn:Ebf; cbn [rbind] in Em; [|discriminate]. apply base_field_Some in Ebf.
  destruct (bool_field (mt_params task) "filter_wise") as [fw|] eqn:E1; cbn [rbind] in Em; [|discriminate]. injection Em as <-.
  rewrite Ew in Ex. exists b, fw. split; [congruence|]. split; [|exact Ex].
  exact (planned_flag HP KStock "filter_wise" false fw eq_refl (or_introl eq_refl) E1).
Qed.

Theorem C79_arcee_fusion W r w ins task L ds o :
  planned "arcee_fusion" W r w ins task ->
  merge_with "arcee_fusion" L task ds = Ok o ->
  exists y base, o = Some y /\ reader_base r = Some base /\
    arcee_fusion (wi_embed w) (l_perm1 L) (l_perm2 L) base ds = Ok y.
Proof.
  intros HP E. destruct (merge_with_inv "arcee_fusion" L task ds o KFusion eq_refl E) as (ex & Em & Ex). clear E.
  cbn [make_task] in Em. destruct (planned_parts HP) as [Ew Eb].
  destruct (base_field (mt_base task)) as [b|] eqn:Ebf; cbn [rbind] in Em; [|discriminate]. apply base_field_Some in Ebf. injection Em as <-.
  apply some_Ok in Ex as (y & Ey & ->). rewrite Ew in Ey. exists y, b. split; [reflexivity|]. split; [congruence|exact Ey].
Qed.

(** ** Passthrough *)
(** The only tensor, multiplied by [scale] where one is set. *)
Theorem C79_passthrough W r w ins task L ds o :
  planned "passthrough" W r w ins task -> incl (dkeys ds) (map fst ins) ->
  merge_with "passthrough" L task ds = Ok o ->
  exists m x y, ds = [(m, x)] /\ o = Some y /\
    ((y = x /\ model_setting r ins m "scale" (PList []) (PList [])) \/
     exists v s, model_setting r ins m "scale" (PList []) v /\ number v s /\
       y = {| shp := shp x; dat := map (fun e => e * s) (dat x) |}).
Proof.
  intros HP Hincl E. destruct (merge_with_inv "passthrough" L task ds o KPassthrough eq_refl E) as (ex & Em & Ex). clear E.
  cbn [make_task] in Em. injection Em as <-. destruct ds as [|[m x] [|? ?]]; try discriminate.
  destruct (planned_model_setting HP KPassthrough m _ eq_refl (Hincl m (or_introl eq_refl)) (or_introl eq_refl)) as (wi & d & v & Hin & Ed & Ev & Hr).
  cbn in Ev, Hr. unfold dgetE in Ex. rewrite Ed in Ex. cbn [rbind] in Ex. rewrite Ev in Ex.
  assert (Hset : model_setting r ins m "scale" (PList []) v) by (exists wi; auto).
  exists m, x. destruct v as [q| | |[|? ?]]; cbn in Ex; try discriminate.
  - rewrite eqb_refl in Ex. cbn in Ex. injection Ex as <-. eexists. split; [reflexivity|]. split; [reflexivity|]. right.
    exists (PNum q), (Q2R q). split; [exact Hset|]. split; [exists q; auto|reflexivity].
  - injection Ex as <-. eexists. split; [reflexivity|]. split; [reflexivity|]. left. auto.
Qed.

(** ** Task arithmetic and its relatives *)
(** what the documentation says of the eight methods: sign consensus, sparsification, normalisation and rescaling by default *)
Definition family : list (string * (option consensus * option method * bool * bool)) :=
  [("task_arithmetic", (None, None, false, false));
   ("ties", (Some CSum, Some Magnitude, true, false));
   ("dare_ties", (Some CSum, Some Random, false, true));
   ("dare_linear", (None, Some Random, false, true));
   ("breadcrumbs", (None, Some MagnitudeOutliers, false, false));
   ("breadcrumbs_ties", (Some CSum, Some MagnitudeOutliers, false, false));
   ("della", (Some CSum, Some DellaMagprune, true, true));
   ("della_linear", (None, Some DellaMagprune, false, true))].

(** the parameters of one model *)
Definition model_parameters (r : reader string) (ins : list (string * weight_info)) (sp : option method) (m : string) (p : tparams) : Prop :=
  (exists v, required_model_setting r ins m "weight" v /\ number v (p_weight p)) /\
  (exists v, model_setting r ins m "density" (PNum 1) v /\ number v (p_density p)) /\
  (if match sp with Some MagnitudeOutliers => true | _ => false end
   then exists v, model_setting r ins m "gamma" (PNum (1 # 100)) v /\ number v (p_gamma p) else True) /\
  (if match sp with Some DellaMagprune => true | _ => false end
   then exists v, model_setting r ins m "epsilon" (PNum (15 # 100)) v /\ number v (p_epsilon p) else True).

Lemma gta_params_get {name W r w ins task} (HP : planned name W r w ins task) g dn dr ms ps :
  get name = Ok (KGta g dn dr) -> incl ms (map fst ins) -> rmapM (gta_params task) ms = Ok ps ->
  map fst ps = ms /\ forall m, In m ms -> exists p, dget ps m = Some p /\ model_parameters r ins (g_sparsify g) m p.
Proof.
  intros Hk Hincl E. apply rmapM_Ok_Forall2 in E. induction E as [|m mx ms ps H _ IH]; [split; [reflexivity|intros m []]|].
  destruct IH as [IH1 IH2]; [intros m' Hm; apply Hincl; now right|].
  unfold gta_params in H.
  destruct (model_number task "weight" m) as [x1|] eqn:E1; cbn [rbind] in H; [|discriminate].
  destruct (model_number task "density" m) as [x2|] eqn:E2; cbn [rbind] in H; [|discriminate].
  destruct (optional_number task "gamma" m) as [x3|] eqn:E3; cbn [rbind] in H; [|discriminate].
  destruct (optional_number task "epsilon" m) as [x4|] eqn:E4; cbn [rbind] in H; [|discriminate].
  injection H as <-. cbn [map fst]. split; [congruence|]. intros m' Hm'. cbn [dget fst snd].
  destruct (eqb_spec m' m) as [Ek|Hne].
  2:{ destruct Hm' as [->|Hm']; [congruence|]. exact (IH2 m' Hm'). }
  rewrite Ek. eexists. split; [reflexivity|]. assert (Hm : In m (map fst ins)) by (apply Hincl; now left).
  unfold model_parameters. cbn [p_weight p_density p_gamma p_epsilon].
  split; [exact (planned_model_number HP _ "weight" m x1 Hk Hm (or_introl eq_refl) E1)|].
  split; [exact (planned_model_default HP _ "density" _ m x2 Hk Hm (or_intror (or_introl eq_refl)) E2)|].
  destruct g as [c [[]|]]; cbn [g_sparsify]; (split; try exact I).
  - pose proof (optional_as_number HP _ "gamma" (PNum (1 # 100)) m x3 Hk Hm (or_intror (or_intror (or_introl eq_refl))) E3) as E3'.
    exact (planned_model_default HP _ "gamma" _ m x3 Hk Hm (or_intror (or_intror (or_introl eq_refl))) E3').
  - pose proof (optional_as_number HP _ "epsilon" (PNum (15 # 100)) m x4 Hk Hm (or_intror (or_intror (or_introl eq_refl))) E4) as E4'.
    exact (planned_model_default HP _ "epsilon" _ m x4 Hk Hm (or_intror (or_intror (or_introl eq_refl))) E4').
Qed.

Theorem C79_task_arithmetic name c sp dn dr W r w ins task L ds o :
  In (name, (c, sp, dn, dr)) family ->
  planned name W r w ins task -> incl (dkeys ds) (map fst ins) ->
  merge_with name L task ds = Ok o ->
  exists y base normalize rescale lambda params,
    o = Some y /\ reader_base r = Some base /\
    (exists v, setting r w "normalize" (PNum (if dn then 1 else 0)) v /\ flag v normalize) /\
    (exists v, setting r w "rescale" (PNum (if dr then 1 else 0)) v /\ forall q, v = PNum q -> (rescale = None <-> (q == 0)%Q)) /\
    (rescale = None \/ rescale = Some L1) /\
    (exists v, setting r w "lambda" (PNum 1) v /\ number v lambda) /\
    (forall m, In m (dkeys ds) -> m <> base -> exists p, dget params m = Some p /\ model_parameters r ins sp m p) /\
    gta {| g_consensus := c; g_sparsify := sp |} (wi_embed w) normalize rescale lambda base ds params (l_choice L) = Ok y.
Proof.
  intros Hfam HP Hincl E.
  assert (Hk : get name = Ok (KGta {| g_consensus := c; g_sparsify := sp |} dn dr)).
  { cbn [family In] in Hfam. repeat (destruct Hfam as [Hf|Hfam]; [injection Hf as <- <- <- <- <-; reflexivity|]). destruct Hfam. }
  clear Hfam. destruct (merge_with_inv name L task ds o _ Hk E) as (ex & Em & Ex). clear E.
  cbn [make_task] in Em. destruct (planned_parts HP) as [Ew Eb].
  destruct (base_field (mt_base task)) as [b|] eqn:Ebf; cbn [rbind] in Em; [|discriminate]. apply base_field_Some in Ebf.
  destruct (bool_field (mt_params task) "int8_mask") as [i8|]; cbn [rbind] in Em; [|discriminate].
  destruct (bool_field (mt_params task) "normalize") as [n|] eqn:E1; cbn [rbind] in Em; [|discriminate].
  destruct (float_field (mt_params task) "lambda") as [l|] eqn:E2; cbn [rbind] in Em; [|discriminate].
  destruct (dgetE (mt_params task) "rescale") as [rs|] eqn:E3; cbn [rbind] in Em; [|discriminate]. injection Em as <-.
  destruct (rmapM (gta_params task) (others (Some b) ds)) as [pr|] eqn:Epr; cbn [rbind] in Ex; [|discriminate].
  apply some_Ok in Ex as (y & Ey & ->). rewrite Ew in Ey.
  exists y, b, n, (if truthy rs then Some L1 else None), l, pr. split; [reflexivity|]. split; [congruence|].
  split; [exact (planned_flag HP _ "normalize" dn n Hk (or_intror (or_introl eq_refl)) E1)|].
  split.
  { destruct (planned_setting HP _ (opt "rescale" (of_bool dr)) Hk (or_intror (or_intror (or_introl eq_refl)))) as (v & Ev & Hr). cbn in Ev, Hr.
    exists v. split; [exact Hr|]. intros q ->. unfold dgetE in E3. rewrite Ev in E3. injection E3 as <-. cbn [truthy].
    destruct (Qeq_bool q 0) eqn:E0; cbn [negb].
    - apply Qeq_bool_iff in E0. tauto.
    - split; [discriminate|]. intros Hq. apply Qeq_bool_iff in Hq. congruence. }
  split; [destruct (truthy rs); auto|].
  split; [exact (planned_number HP _ "lambda" _ l Hk (or_intror (or_intror (or_intror (or_introl eq_refl)))) E2)|].
  split; [|exact Ey].
  assert (Hi : incl (others (Some b) ds) (map fst ins)) by (intros m Hm; apply filter_In in Hm as [Hm _]; auto).
  destruct (gta_params_get HP _ dn dr _ pr Hk Hi Epr) as [_ Hg]. intros m Hm Hne. apply Hg.
  apply filter_In. split; [exact Hm|]. now rewrite (proj2 (eqb_neq m b) Hne).
Qed.

(** With full density nothing is dropped and nothing rescaled, whichever the method. *)
Lemma dense_contribution sp norm base params choice mx wd p :
  contributes sp norm base params choice mx wd -> dget params (fst mx) = Some p -> 1 <= p_density p ->
  length (snd mx) = length (dat base) -> wf base -> wd = (p_weight p, vsub (snd mx) (dat base)).
Proof.
  intros (p' & Ep & Ew & Hd) Hp Hden Hlen Hwf. rewrite Hp in Ep. injection Ep as <-. destruct wd as [x d]. cbn [fst snd] in *. subst x. f_equal.
  destruct sp as [s|]; [|exact Hd]. destruct Hd as (rows & Er & Es).
  destruct s; cbn [rows_of sparsify concat] in *; try (injection Er as <-; cbn [concat] in Es; rewrite app_nil_r in Es;
    unfold magnitude, bernoulli, magnitude_outliers in Es; (destruct (Rle_dec 1 (p_density p)); [congruence|contradiction])).
  assert (Hn : length (vsub (snd mx) (dat base)) = numel (shp base)) by (unfold vsub; rewrite map2_length; unfold wf in *; lia).
  unfold della_magprune in Es. destruct (Rle_dec 1 (p_density p)); [|contradiction].
  unfold numel in Hn. destruct (shp base) as [|a [|b [|? ?]]]; try discriminate; injection Er as <-.
  - cbn [concat] in Es. rewrite app_nil_r in Es. congruence.
  - rewrite chunk_concat in Es; [congruence|]. rewrite Hn. cbn. lia.
Qed.
Lemma merged_same e bm base ds : (forall m x, In (m, x) ds -> shp x = shp base) ->
  merged e bm base ds = map (fun kx => (fst kx, dat (snd kx))) (apart bm ds).
Proof.
  intros H. unfold merged, apart. induction ds as [|[m x] ds IH]; [reflexivity|]. cbn [flat_map filter fst].
  rewrite IH by (intros m' x' Hin; apply (H m' x'); now right). destruct (eqb m bm); [reflexivity|]. cbn [negb map fst snd].
  now rewrite (proj2 (shape_eqb_true (shp x) (shp base)) (H m x (or_introl eq_refl))).
Qed.

(** ... so the merged tensor is the base plus [lambda] times the mean of the weighted differences, or of those that agree
    with the elected sign. *)
Theorem C79_dense name c sp dn dr W r w ins task L ds o b :
  In (name, (c, sp, dn, dr)) family ->
  planned name W r w ins task -> incl (dkeys ds) (map fst ins) -> NoDup (dkeys ds) ->
  merge_with name L task ds = Ok o ->
  (forall base, reader_base r = Some base -> dget ds base = Some b) ->
  (forall m x, In (m, x) ds -> shp x = shp b /\ wf x) ->
  (forall m v x, In m (dkeys ds) -> model_setting r ins m "density" (PNum 1) v -> number v x -> 1 <= x) ->
  exists y base normalize lambda (weights : string -> R),
    o = Some y /\ reader_base r = Some base /\
    (exists v, setting r w "normalize" (PNum (if dn then 1 else 0)) v /\ flag v normalize) /\
    (exists v, setting r w "lambda" (PNum 1) v /\ number v lambda) /\
    (forall m, In m (dkeys ds) -> m <> base -> exists v, required_model_setting r ins m "weight" v /\ number v (weights m)) /\
    shp y = shp b /\ length (dat y) = numel (shp b) /\
    forall i, (i < numel (shp b))%nat ->
      let value kx := weights (fst kx) * (nth i (dat (snd kx)) 0 - nth i (dat b) 0) in
      match c with
      | None =>
          let total := rsum (map (fun kx => weights (fst kx)) (apart base ds)) in
          let divisor := if normalize then if Rlt_dec (Rabs total) (/ 10 ^ 8) then 1 else total else 1 in
          nth i (dat y) 0 = nth i (dat b) 0 + lambda * (rsum (map value (apart base ds)) / divisor)
      | Some c =>
          let s := elected c (map value (apart base ds)) in
          let kept := filter (fun kx => agrees s (value kx)) (apart base ds) in
          let total := rsum (map (fun kx => weights (fst kx)) kept) in
          let divisor := if normalize then if Req_EM_T total 0 then 1 else total else 1 in
          nth i (dat y) 0 = nth i (dat b) 0 + lambda * (rsum (map value kept) / divisor)
      end.
Proof.
  intros Hfam HP Hincl HN E Hb Hsh Hden.
  destruct (C79_task_arithmetic name c sp dn dr W r w ins task L ds o Hfam HP Hincl E)
    as (y & base & n & rs & lam & params & Eo & Ebase & Hn & _ & _ & Hl & Hp & Eg).
  pose proof (Hb base Ebase) as Eb. assert (Wb : wf b) by (apply dget_In in Eb; now destruct (Hsh _ _ Eb)).
  set (weights := fun m => match dget params m with Some p => p_weight p | None => 0 end).
  exists y, base, n, lam, weights. split; [exact Eo|]. split; [exact Ebase|]. split; [exact Hn|]. split; [exact Hl|]. split.
  { intros m Hm Hne. destruct (Hp m Hm Hne) as (p & Ep & (v & Hv) & _). unfold weights. rewrite Ep. eauto. }
  set (f := fun kx : string * tensor => (weights (fst kx), vsub (dat (snd kx)) (dat b))).
  assert (Hcs : forall cs, Forall2 (contributes sp rs b params (l_choice L)) (merged (wi_embed w) base b ds) cs -> cs = map f (apart base ds)).
  { intros cs HF. rewrite merged_same in HF by (intros m x Hin; now destruct (Hsh m x Hin)).
    assert (Hin : forall kx, In kx (apart base ds) -> In kx ds /\ fst kx <> base).
    { intros kx Hk. apply filter_In in Hk as [H1 H2]. split; [exact H1|]. intros He. rewrite He, eqb_refl in H2. discriminate. }
    revert cs HF. induction (apart base ds) as [|kx l IH]; intros cs HF; cbn [map] in HF; inversion HF as [|? wd ? cs' Hc HF']; subst; [reflexivity|].
    cbn [map]. f_equal; [|apply IH; [intros k Hk; apply Hin; now right|exact HF']].
    destruct (Hin kx (or_introl eq_refl)) as [Hk Hne]. assert (Hk' : In (fst kx) (dkeys ds)) by (unfold dkeys; now apply in_map).
    destruct (Hp _ Hk' Hne) as (p & Ep & Hmp). destruct kx as [m x]. cbn [fst snd] in *.
    destruct Hmp as (_ & (v & Hv1 & Hv2) & _). unfold f, weights. cbn [fst snd]. rewrite Ep.
    destruct (Hsh m x Hk) as [Hs Hw]. apply (dense_contribution sp rs b params (l_choice L) (m, dat x) wd p Hc Ep); cbn [snd]; auto.
    - exact (Hden m v _ Hk' Hv1 Hv2).
    - unfold wf in *. congruence. }
  assert (Hval : forall i, (i < numel (shp b))%nat -> forall kx, In kx (apart base ds) ->
            fst (f kx) * nth i (snd (f kx)) 0 = weights (fst kx) * (nth i (dat (snd kx)) 0 - nth i (dat b) 0)).
  { intros i Hi [m x] Hk. apply filter_In in Hk as [Hk _]. destruct (Hsh m x Hk) as [Hs Hw]. unfold f. cbn [fst snd].
    unfold vsub. rewrite (map2_nth _ _ _ _ 0 0); [reflexivity| |]; unfold wf in *; rewrite ?Hw, ?Wb, ?Hs; exact Hi. }
  destruct c as [c|].
  - destruct (C31_value _ _ _ _ _ _ _ _ _ _ _ Eg) as (b' & cs & Eb' & HF & Es & Hlen & Hv). rewrite Eb in Eb'. injection Eb' as <-.
    rewrite (Hcs cs HF) in Hv. rewrite Wb in Hv, Hlen. split; [exact Es|]. split; [exact Hlen|]. intros i Hi value s kept total divisor.
    destruct (Hv i Hi) as [Hvi _]. rewrite Hvi. clear Hv Hvi.
    assert (Em : map (fun k : R * list R => fst k * nth i (snd k) 0) (map f (apart base ds)) = map value (apart base ds)).
    { rewrite map_map. apply map_ext_in. intros kx Hk. apply (Hval i Hi kx Hk). }
    rewrite Em. fold s.
    assert (Ek : filter (fun k : R * list R => agrees s (fst k * nth i (snd k) 0)) (map f (apart base ds)) = map f kept).
    { unfold kept. clearbody s. clear Em. assert (Hv : forall kx, In kx (apart base ds) -> fst (f kx) * nth i (snd (f kx)) 0 = value kx) by (intros; now apply Hval).
      clear -Hv. clearbody f value. induction (apart base ds) as [|kx l IH]; [reflexivity|]. cbn [map filter]. rewrite Hv by now left.
      rewrite IH by (intros k Hk; apply Hv; now right). destruct (agrees s (value kx)); reflexivity. }
    rewrite Ek, !map_map. cbn [fst f].
    assert (Ek' : map (fun x => fst (f x) * nth i (snd (f x)) 0) kept = map value kept).
    { apply map_ext_in. intros kx Hk. unfold kept in Hk. apply filter_In in Hk as [Hk _]. apply (Hval i Hi kx Hk). }
    unfold f in Ek'. cbn [fst snd] in Ek'. unfold f. cbn [fst snd]. rewrite Ek'. reflexivity.
  - destruct (C30_value _ _ _ _ _ _ _ _ _ _ Eg) as (b' & cs & Eb' & HF & Es & Hlen & Hv). rewrite Eb in Eb'. injection Eb' as <-.
    rewrite (Hcs cs HF) in Hv. rewrite Wb in Hv, Hlen. split; [exact Es|]. split; [exact Hlen|]. intros i Hi value total divisor.
    rewrite (Hv i Hi). cbv zeta. rewrite !map_map.
    assert (Em : map (fun x => fst (f x) * nth i (snd (f x)) 0) (apart base ds) = map value (apart base ds)).
    { apply map_ext_in. intros kx Hk. apply (Hval i Hi kx Hk). }
    rewrite Em. reflexivity.
Qed.

(** ** The decorated functions *)
Lemma easy_params (d : decl) (t : merge_task string) L ds c key : easy d t L ds = Ok c -> In key (d_params d) ->
  dget (c_params c) key = dget (mt_params t) key.
Proof.
  intros E Hk. destruct (execute_inv _ _ _ _ _ _ _ E) as (_ & HF & _). clear E. induction HF as [|k [k' v] ks ps [H1 H2] _ IH]; [destruct Hk|].
  cbn [fst snd] in *. subst k'. cbn [dget]. destruct (eqb_spec key k) as [Ek|Hne]; [now rewrite Ek|]. destruct Hk as [->|Hk]; [congruence|auto].
Qed.
Lemma arg_number d t L ds c key x : easy d t L ds = Ok c -> In key (d_params d) -> arg c key = Ok x ->
  exists v, dget (mt_params t) key = Some v /\ number v x.
Proof.
  intros E Hk Ha. unfold arg, dgetE in Ha. rewrite (easy_params d t L ds c key E Hk) in Ha. destruct (dget (mt_params t) key) as [v|]; cbn [rbind] in Ha; [|discriminate].
  exists v. split; [reflexivity|]. now apply num_number.
Qed.
Lemma planned_arg {name W r w ins task} (HP : planned name W r w ins task) k d L ds c key df x :
  get name = Ok k -> In (opt key df) (parameters k) -> easy d task L ds = Ok c -> In key (d_params d) -> arg c key = Ok x ->
  exists v, setting r w key df v /\ number v x.
Proof.
  intros Hk Hp E Hd Ha. destruct (arg_number _ _ _ _ _ _ _ E Hd Ha) as (v & Ev & Hn). destruct (planned_setting HP k _ Hk Hp) as (v' & Ev' & Hr). cbn in Ev', Hr.
  exists v. split; [|exact Hn]. rewrite Ev in Ev'. injection Ev' as <-. exact Hr.
Qed.

(** the base model's tensor and the tensors of the other models, in some order *)
Definition split_base (r : reader string) (ds : dict string tensor) (b : tensor) (ts : list tensor) : Prop :=
  exists base refs, reader_base r = Some base /\ dget ds base = Some b /\ Permutation (base :: refs) (dkeys ds) /\
    Forall2 (fun m t => dget ds m = Some t) refs ts.

Lemma easy_split {name W r w ins task} (HP : planned name W r w ins task) d L ds c b :
  d_base_tensor d = true -> d_require_base d = true -> NoDup (dkeys ds) -> Permutation (l_order L (dkeys ds)) (dkeys ds) ->
  easy d task L ds = Ok c -> base_arg c = Ok b -> split_base r ds b (c_tensors c).
Proof.
  intros Hd Hr HN Ho E Hb. unfold base_arg in Hb. destruct (planned_parts HP) as [_ Eb].
  destruct (c_base c) as [b'|] eqn:Ec; [|discriminate]. injection Hb as ->. unfold easy in E. rewrite Eb in E.
  destruct (reader_base r) as [base|] eqn:Er.
  2:{ destruct (C55_no_base d (@None string) ds (mt_params task) (mt_tparams task) _ Hd Ho) as [H _]; [discriminate|]. exfalso. exact (H Hr c E). }
  destruct (mem base (dkeys ds)) eqn:Em.
  2:{ destruct (C55_no_base d (Some base) ds (mt_params task) (mt_tparams task) _ Hd Ho) as [H _]; [|exfalso; exact (H Hr c E)].
      intros b0 [= <-] Hin. apply mem_In in Hin. congruence. }
  apply mem_In in Em. destruct (C55_base_separate d base ds (mt_params task) (mt_tparams task) _ c Hd HN Ho Em E) as (Hb & refs & Hp & Ha & _).
  exists base, refs. split; [exact Er|]. split; [congruence|]. auto.
Qed.

Theorem C79_nearswap W r w ins task L ds o :
  planned "nearswap" W r w ins task -> NoDup (dkeys ds) -> Permutation (l_order L (dkeys ds)) (dkeys ds) ->
  merge_with "nearswap" L task ds = Ok o ->
  exists y b ts t, o = Some y /\ split_base r ds b ts /\
    (exists v, required_setting r w "t" v /\ number v t) /\ nearswap ts b t = Ok y.
Proof.
  intros HP HN Ho E. destruct (merge_with_inv "nearswap" L task ds o KNearswap eq_refl E) as (ex & Em & Ex). clear E. cbn [make_task] in Em.
  destruct (base_field (mt_base task)); cbn [rbind] in Em; [|discriminate]. injection Em as <-.
  destruct (easy nearswap_decl task L ds) as [c|] eqn:Ec; cbn [rbind] in Ex; [|discriminate].
  destruct (base_arg c) as [b|] eqn:Eb; cbn [rbind] in Ex; [|discriminate].
  destruct (arg c "t") as [t|] eqn:Et; cbn [rbind] in Ex; [|discriminate]. apply some_Ok in Ex as (y & Ey & ->).
  exists y, b, (c_tensors c), t. split; [reflexivity|]. split; [exact (easy_split HP nearswap_decl L ds c b eq_refl eq_refl HN Ho Ec Eb)|]. split; [|exact Ey].
  destruct (arg_number _ _ _ _ _ _ _ Ec (or_introl eq_refl) Et) as (v & Ev & Hn).
  destruct (planned_setting HP KNearswap _ eq_refl (or_introl eq_refl)) as (v' & Ev' & Hr). cbn in Ev', Hr.
  exists v. split; [|exact Hn]. rewrite Ev in Ev'. injection Ev' as <-. eexists. exact Hr.
Qed.

Theorem C79_ram W r w ins task L ds o :
  planned "ram" W r w ins task -> NoDup (dkeys ds) -> Permutation (l_order L (dkeys ds)) (dkeys ds) ->
  merge_with "ram" L task ds = Ok o ->
  exists y b ts eps, o = Some y /\ split_base r ds b ts /\
    (exists v, setting r w "epsilon" (PNum (1 # 100000)) v /\ number v eps) /\ ram ts b eps = Ok y.
Proof.
  intros HP HN Ho E. destruct (merge_with_inv "ram" L task ds o KRam eq_refl E) as (ex & Em & Ex). clear E. cbn [make_task] in Em.
  destruct (base_field (mt_base task)); cbn [rbind] in Em; [|discriminate]. injection Em as <-.
  destruct (easy ram_decl task L ds) as [c|] eqn:Ec; cbn [rbind] in Ex; [|discriminate].
  destruct (base_arg c) as [b|] eqn:Eb; cbn [rbind] in Ex; [|discriminate].
  destruct (arg c "epsilon") as [t|] eqn:Et; cbn [rbind] in Ex; [|discriminate]. apply some_Ok in Ex as (y & Ey & ->).
  exists y, b, (c_tensors c), t. split; [reflexivity|]. split; [exact (easy_split HP ram_decl L ds c b eq_refl eq_refl HN Ho Ec Eb)|]. split; [|exact Ey].
  exact (planned_arg HP KRam ram_decl L ds c "epsilon" _ t eq_refl (or_introl eq_refl) Ec (or_introl eq_refl) Et).
Qed.

Theorem C79_ramplus W r w ins task L ds o :
  planned "ramplus_tl" W r w ins task -> NoDup (dkeys ds) -> Permutation (l_order L (dkeys ds)) (dkeys ds) ->
  merge_with "ramplus_tl" L task ds = Ok o ->
  exists y b ts rr alpha eps, o = Some y /\ split_base r ds b ts /\
    (exists v, setting r w "r" (PNum (1 # 10)) v /\ number v rr) /\
    (exists v, setting r w "alpha" (PNum (2 # 10)) v /\ number v alpha) /\
    (exists v, setting r w "epsilon" (PNum (1 # 100000)) v /\ number v eps) /\ ramplus ts b rr alpha eps = Ok y.
Proof.
  intros HP HN Ho E. destruct (merge_with_inv "ramplus_tl" L task ds o KRamplus eq_refl E) as (ex & Em & Ex). clear E. cbn [make_task] in Em.
  destruct (base_field (mt_base task)); cbn [rbind] in Em; [|discriminate]. injection Em as <-.
  destruct (easy ramplus_decl task L ds) as [c|] eqn:Ec; cbn [rbind] in Ex; [|discriminate].
  destruct (base_arg c) as [b|] eqn:Eb; cbn [rbind] in Ex; [|discriminate].
  destruct (arg c "r") as [rr|] eqn:E1; cbn [rbind] in Ex; [|discriminate].
  destruct (arg c "alpha") as [al|] eqn:E2; cbn [rbind] in Ex; [|discriminate].
  destruct (arg c "epsilon") as [ep|] eqn:E3; cbn [rbind] in Ex; [|discriminate]. apply some_Ok in Ex as (y & Ey & ->).
  exists y, b, (c_tensors c), rr, al, ep. split; [reflexivity|]. split; [exact (easy_split HP ramplus_decl L ds c b eq_refl eq_refl HN Ho Ec Eb)|].
  split; [exact (planned_arg HP KRamplus ramplus_decl L ds c "r" _ rr eq_refl (or_introl eq_refl) Ec (or_introl eq_refl) E1)|].
  split; [exact (planned_arg HP KRamplus ramplus_decl L ds c "alpha" _ al eq_refl (or_intror (or_introl eq_refl)) Ec (or_intror (or_introl eq_refl)) E2)|].
  split; [|exact Ey].
  exact (planned_arg HP KRamplus ramplus_decl L ds c "epsilon" _ ep eq_refl (or_intror (or_intror (or_introl eq_refl))) Ec (or_intror (or_intror (or_introl eq_refl))) E3).
Qed.

Theorem C79_sce W r w ins task L ds o :
  planned "sce" W r w ins task -> NoDup (dkeys ds) -> Permutation (l_order L (dkeys ds)) (dkeys ds) ->
  merge_with "sce" L task ds = Ok o ->
  exists y b ts k, o = Some y /\ split_base r ds b ts /\
    (exists v, setting r w "select_topk" (PNum 1) v /\ number v k) /\ sce (l_topk L) ts b k = Ok y.
Proof.
  intros HP HN Ho E. destruct (merge_with_inv "sce" L task ds o KSce eq_refl E) as (ex & Em & Ex). clear E. cbn [make_task] in Em.
  destruct (base_field (mt_base task)); cbn [rbind] in Em; [|discriminate]. injection Em as <-.
  destruct (easy sce_decl task L ds) as [c|] eqn:Ec; cbn [rbind] in Ex; [|discriminate].
  destruct (base_arg c) as [b|] eqn:Eb; cbn [rbind] in Ex; [|discriminate].
  destruct (arg c "select_topk") as [t|] eqn:Et; cbn [rbind] in Ex; [|discriminate]. apply some_Ok in Ex as (y & Ey & ->).
  exists y, b, (c_tensors c), t. split; [reflexivity|]. split; [exact (easy_split HP sce_decl L ds c b eq_refl eq_refl HN Ho Ec Eb)|]. split; [|exact Ey].
  exact (planned_arg HP KSce sce_decl L ds c "select_topk" _ t eq_refl (or_intror (or_introl eq_refl)) Ec (or_intror (or_introl eq_refl)) Et).
Qed.

(** multislerp: the weights are those of the tensors' own models; the base model's tensor, if there is one, is kept apart *)
Theorem C79_multislerp W r w ins task L ds o :
  planned "multislerp" W r w ins task -> incl (dkeys ds) (map fst ins) -> NoDup (dkeys ds) ->
  Permutation (l_order L (dkeys ds)) (dkeys ds) ->
  merge_with "multislerp" L task ds = Ok o ->
  exists y refs ts ws ob nw eps, o = Some y /\
    (match ob with
     | Some b => exists base, reader_base r = Some base /\ dget ds base = Some b /\ Permutation (base :: refs) (dkeys ds)
     | None => (forall base, reader_base r = Some base -> ~ In base (dkeys ds)) /\ Permutation refs (dkeys ds)
     end) /\
    Forall2 (fun m t => dget ds m = Some t) refs ts /\
    Forall2 (fun m x => exists v, required_model_setting r ins m "weight" v /\ number v x) refs ws /\
    (exists v, setting r w "normalize_weights" (PNum 1) v /\ forall q, v = PNum q -> (nw = false <-> (q == 0)%Q)) /\
    (exists v, setting r w "eps" (PNum (1 # 100000000)) v /\ number v eps) /\
    multislerp ts ws ob nw eps = Ok y.
Proof.
  intros HP Hincl HN Ho E. destruct (merge_with_inv "multislerp" L task ds o KMultislerp eq_refl E) as (ex & Em & Ex). clear E. cbn [make_task] in Em. injection Em as <-.
  destruct (easy multislerp_decl task L ds) as [c|] eqn:Ec; cbn [rbind] in Ex; [|discriminate].
  destruct (dgetE (c_tensor_params c) "weight") as [vs|] eqn:Evs; cbn [rbind] in Ex; [|discriminate].
  destruct (rmapM num vs) as [ws|] eqn:Ews; cbn [rbind] in Ex; [|discriminate].
  destruct (dgetE (c_params c) "normalize_weights") as [nv|] eqn:Env; cbn [rbind] in Ex; [|discriminate].
  destruct (arg c "eps") as [ep|] eqn:Eep; cbn [rbind] in Ex; [|discriminate]. apply some_Ok in Ex as (y & Ey & ->).
  destruct (planned_parts HP) as [_ Eb].
  assert (Hrefs : exists refs, aligned ds (mt_tparams task) refs c ["weight"] /\
     match c_base c with
     | Some b => exists base, reader_base r = Some base /\ dget ds base = Some b /\ Permutation (base :: refs) (dkeys ds)
     | None => (forall base, reader_base r = Some base -> ~ In base (dkeys ds)) /\ Permutation refs (dkeys ds)
     end).
  { unfold easy in Ec. rewrite Eb in Ec. destruct (reader_base r) as [base|] eqn:Er.
    - destruct (mem base (dkeys ds)) eqn:Em.
      + apply mem_In in Em. destruct (C55_base_separate multislerp_decl base ds _ _ _ c eq_refl HN Ho Em Ec) as (Hb & refs & Hp & Ha).
        exists refs. split; [exact Ha|]. rewrite Hb. apply dget_Some_key in Em as (b & Edb). rewrite Edb. eauto.
      + destruct (C55_no_base multislerp_decl (Some base) ds (mt_params task) (mt_tparams task) _ eq_refl Ho) as [_ H].
        { intros b0 [= <-] Hin. apply mem_In in Hin. congruence. }
        destruct (H c Ec) as (Hb & refs & Hp & Ha). exists refs. split; [exact Ha|]. rewrite Hb. split; [|exact Hp].
        intros b0 [= <-] Hin. apply mem_In in Hin. congruence.
    - destruct (C55_no_base multislerp_decl (@None string) ds (mt_params task) (mt_tparams task) _ eq_refl Ho) as [_ H]; [discriminate|].
      destruct (H c Ec) as (Hb & refs & Hp & Ha). exists refs. split; [exact Ha|]. rewrite Hb. split; [discriminate|exact Hp]. }
  destruct Hrefs as (refs & [Ht Hw] & Hbase).
  assert (Hsub : incl refs (dkeys ds)).
  { intros m Hm. destruct (c_base c) as [b|]; [destruct Hbase as (base & _ & _ & Hp)|destruct Hbase as [_ Hp]]; (eapply Permutation_in; [exact Hp|]); [now right|exact Hm]. }
  exists y, refs, (c_tensors c), ws, (c_base c), (truthy nv), ep. split; [reflexivity|]. split; [exact Hbase|]. split; [exact Ht|].
  split; [|split; [|split; [|exact Ey]]].
  - destruct (c_tensor_params c) as [|[k' vs'] tl]; inversion Hw as [|? ? ? ? [H1 H2] H3]; subst. cbn [fst snd] in *. subst k'.
    unfold dgetE in Evs. cbn in Evs. injection Evs as ->.
    apply rmapM_Ok_Forall2 in Ews. clear -H2 Ews Hsub Hincl HP. revert ws Ews.
    induction H2 as [|m v ms vs (p & Ep & Ev) _ IH]; intros ws Ews; inversion Ews as [|? x ? ws' Hx Hr]; subst; constructor.
    + destruct (planned_model_setting HP KMultislerp m _ eq_refl (Hincl m (Hsub m (or_introl eq_refl))) (or_introl eq_refl)) as (wi & d & v' & Hin & Ed & Ev' & Hread).
      cbn in Ev', Hread. rewrite Ep in Ed. injection Ed as <-. rewrite Ev in Ev'. injection Ev' as <-.
      exists v. split; [exists wi; eexists; split; [exact Hin|exact Hread]|now apply num_number].
    + apply IH; [intros m' Hm; apply Hsub; now right|exact Hr].
  - destruct (planned_setting HP KMultislerp _ eq_refl (or_introl eq_refl)) as (v & Ev & Hr). cbn in Ev, Hr.
    exists v. split; [exact Hr|]. unfold dgetE in Env. rewrite (easy_params multislerp_decl task L ds c "normalize_weights" Ec (or_introl eq_refl)), Ev in Env.
    injection Env as <-. intros q ->. cbn. destruct (Qeq_bool q 0) eqn:E0; cbn.
    + apply Qeq_bool_iff in E0. tauto.
    + split; [discriminate|]. intros Hq. apply Qeq_bool_iff in Hq. congruence.
  - exact (planned_arg HP KMultislerp multislerp_decl L ds c "eps" _ ep eq_refl (or_intror (or_introl eq_refl)) Ec (or_intror (or_introl eq_refl)) Eep).
Qed.

(** ** When a task can be built *)
(** the methods that need a base model *)
Definition needs_base : list string :=
  ["slerp"; "model_stock"; "arcee_fusion"; "task_arithmetic"; "ties"; "dare_ties"; "dare_linear"; "breadcrumbs"; "breadcrumbs_ties";
   "della"; "della_linear"; "nearswap"; "ram"; "ramplus_tl"; "sce"].
(** the parameters that must be yes or no, with their defaults *)
Definition flags : list (string * (string * bool)) :=
  [("linear", ("normalize", true)); ("nuslerp", ("nuslerp_row_wise", false)); ("nuslerp", ("nuslerp_flatten", true)); ("model_stock", ("filter_wise", false))] ++
  flat_map (fun f => let '(name, (_, _, n, _)) := f in [(name, ("int8_mask", false)); (name, ("normalize", n))]) family.
(** the parameters that must be numbers *)
Definition numeric : list (string * (string * pval)) :=
  ("karcher", ("tol", PNum (1 # 100000))) :: map (fun f => (fst f, ("lambda", PNum 1))) family.

Definition kbase (k : kind) : bool :=
  match k with KSlerp | KStock | KFusion | KGta _ _ _ | KNearswap | KRam | KRamplus | KSce => true | _ => false end.
Definition kflags (k : kind) : list (string * bool) :=
  match k with
  | KLinear => [("normalize", true)] | KNuslerp => [("nuslerp_row_wise", false); ("nuslerp_flatten", true)]
  | KStock => [("filter_wise", false)] | KGta _ n _ => [("int8_mask", false); ("normalize", n)] | _ => [] end.
Definition kfloats (k : kind) : list (string * pval) :=
  match k with KKarcher => [("tol", PNum (1 # 100000))] | KGta _ _ _ => [("lambda", PNum 1)] | _ => [] end.

Lemma make_task_Ok k t :
  (exists ex, make_task k t = Ok ex) <->
  (kbase k = true -> exists b, base_field (mt_base t) = Ok b) /\
  (forall p d, In (p, d) (kflags k) -> exists b, bool_field (mt_params t) p = Ok b) /\
  (forall p d, In (p, d) (kfloats k) -> exists x, float_field (mt_params t) p = Ok x) /\
  (k = KSlerp -> exists x, float_field (mt_params t) "t" = Ok x) /\
  (k = KKarcher -> exists z, int_field (mt_params t) "max_iter" = Ok z) /\
  (forall g n r, k = KGta g n r -> exists v, dgetE (mt_params t) "rescale" = Ok v).
Proof.
  split.
  - intros (ex & E). destruct k; cbn [make_task kbase kflags kfloats In] in *;
      repeat (match goal with
              | H : rbind ?x _ = Ok _ |- _ => let Ex := fresh "Ex" in destruct x eqn:Ex in H; cbn [rbind] in H; [|discriminate H]
              end);
      repeat split; intros; try discriminate; try contradiction; eauto;
      repeat (match goal with
              | H : (_ = _ \/ _) |- _ => destruct H as [H|H]; [injection H as <- <-; eauto|]
              | H : False |- _ => destruct H
              end).
  - intros (Hb & Hf & Hn & Ht & Hi & Hr). destruct k; cbn [make_task kbase kflags kfloats In] in *;
      try (destruct (Hb eq_refl) as (b & ->)); cbn [rbind]; eauto.
    + destruct (Hf _ _ (or_introl eq_refl)) as (x & ->). cbn [rbind]. eauto.
    + destruct (Ht eq_refl) as (x & ->). cbn [rbind]. eauto.
    + destruct (Hf _ _ (or_introl eq_refl)) as (x & ->). cbn [rbind]. destruct (Hf _ _ (or_intror (or_introl eq_refl))) as (x' & ->). cbn [rbind]. eauto.
    + destruct (Hf _ _ (or_introl eq_refl)) as (x & ->). cbn [rbind]. eauto.
    + destruct (Hi eq_refl) as (x & ->). cbn [rbind]. destruct (Hn _ _ (or_introl eq_refl)) as (x' & ->). cbn [rbind]. eauto.
    + destruct (Hf _ _ (or_introl eq_refl)) as (x & ->). cbn [rbind]. destruct (Hf _ _ (or_intror (or_introl eq_refl))) as (x' & ->). cbn [rbind].
      destruct (Hn _ _ (or_introl eq_refl)) as (y & ->). cbn [rbind]. destruct (Hr _ _ _ eq_refl) as (v & ->). cbn [rbind]. eauto.
Qed.

Lemma registry_In name k : get name = Ok k -> In (name, k) registry.
Proof. unfold get. destruct (dget registry name) as [k'|] eqn:E; [|discriminate]. intros [= <-]. now apply dget_In. Qed.
Lemma tables name k : get name = Ok k ->
  (In name needs_base <-> kbase k = true) /\
  (forall pd, In (name, pd) flags <-> In pd (kflags k)) /\
  (forall pd, In (name, pd) numeric <-> In pd (kfloats k)) /\
  (name = "slerp" <-> k = KSlerp) /\ (name = "karcher" <-> k = KKarcher).
Proof.
  intros Hk. apply registry_In in Hk.
  repeat (destruct Hk as [Hk|Hk];
    [injection Hk as <- <-; cbn; repeat split; intros; try reflexivity; try discriminate; repeat (match goal with H : _ \/ _ |- _ => destruct H as [H|H] end);
     try contradiction; try discriminate; try (injection H as <-); subst; auto 30|]). destruct Hk.
Qed.

(** A task can be built exactly when there is a base model for the methods that need one and every parameter is of the
    right sort: a yes-or-no parameter must be 0 or 1, a count must be integral. Whatever else is wrong - a missing
    tensor, a size mismatch, a weight missing for the base model - shows only when the task is run. *)
Theorem C79_accepted name W r w ins task k :
  planned name W r w ins task -> get name = Ok k ->
  ((exists ex, make_task k task = Ok ex) <->
   (In name needs_base -> reader_base r <> None) /\
   (forall p d v, In (name, (p, d)) flags -> setting r w p (PNum (if d then 1 else 0)) v -> exists b, flag v b) /\
   (forall p d v, In (name, (p, d)) numeric -> setting r w p d v -> exists x, number v x) /\
   (name = "slerp" -> exists v x, required_setting r w "t" v /\ number v x) /\
   (name = "karcher" -> exists v z, setting r w "max_iter" (PNum 10) v /\ integer v z)).
Proof.
  intros HP Hk. destruct (planned_parts HP) as [_ Eb]. rewrite make_task_Ok, Eb. destruct (tables name k Hk) as (Tb & Tf & Tn & Ts & Tk).
  assert (Hfl : forall p d, In (p, d) (kflags k) -> In (opt p (of_bool d)) (parameters k)).
  { intros p d Hin. destruct k; cbn in Hin; repeat (destruct Hin as [Hin|Hin]; [injection Hin as <- <-; cbn; auto|]); destruct Hin. }
  assert (Hfn : forall p d, In (p, d) (kfloats k) -> In (opt p d) (parameters k)).
  { intros p d Hin. destruct k; cbn in Hin; repeat (destruct Hin as [Hin|Hin]; [injection Hin as <- <-; cbn; auto 10|]); destruct Hin. }
  split.
  - intros (Hb & Hf & Hn & Ht & Hi & _). split; [|split; [|split; [|split]]].
    + intros Hin. destruct (Hb (proj1 Tb Hin)) as (b & E). apply base_field_Some in E. congruence.
    + intros p d v Hin Hs. apply Tf in Hin. destruct (Hf p d Hin) as (b & E). apply bool_field_flag in E as (v' & Ev & Hfl').
      destruct (planned_setting HP k _ Hk (Hfl p d Hin)) as (v'' & Ev'' & Hr). cbn in Ev'', Hr. exists b.
      unfold setting in Hs. unfold of_bool in Hr. rewrite Hs in Hr. injection Hr as <-. rewrite Ev in Ev''. injection Ev'' as <-. exact Hfl'.
    + intros p d v Hin Hs. apply Tn in Hin. destruct (Hn p d Hin) as (x & E). apply float_field_number in E as (v' & Ev & Hx).
      destruct (planned_setting HP k _ Hk (Hfn p d Hin)) as (v'' & Ev'' & Hr). cbn in Ev'', Hr. exists x.
      unfold setting in Hs. rewrite Hs in Hr. injection Hr as <-. rewrite Ev in Ev''. injection Ev'' as <-. exact Hx.
    + intros Es. apply Ts in Es. destruct (Ht Es) as (x & E). subst k. destruct (planned_required HP KSlerp "t" x Hk (or_introl eq_refl) E) as (v & H1 & H2). eauto.
    + intros Es. apply Tk in Es. destruct (Hi Es) as (z & E). subst k. apply int_field_integer in E as (v & Ev & Hz).
      destruct (planned_setting HP KKarcher _ Hk (or_introl eq_refl)) as (v' & Ev' & Hr). cbn in Ev', Hr. exists v, z. split; [|exact Hz].
      rewrite Ev in Ev'. injection Ev' as <-. exact Hr.
  - intros (Hb & Hf & Hn & Ht & Hi). split; [|split; [|split; [|split; [|split]]]].
    + intros Hkb. apply Tb in Hkb. specialize (Hb Hkb). destruct (reader_base r) as [b|]; [exists b; reflexivity|congruence].
    + intros p d Hin. destruct (planned_setting HP k _ Hk (Hfl p d Hin)) as (v & Ev & Hr). cbn in Ev, Hr.
      destruct (Hf p d v (proj2 (Tf (p, d)) Hin) Hr) as (b & Hfb). exists b. apply bool_field_flag. eauto.
    + intros p d Hin. destruct (planned_setting HP k _ Hk (Hfn p d Hin)) as (v & Ev & Hr). cbn in Ev, Hr.
      destruct (Hn p d v (proj2 (Tn (p, d)) Hin) Hr) as (x & Hx). exists x. apply float_field_number. eauto.
    + intros ->. destruct (Ht (proj2 Ts eq_refl)) as (v & x & (df & Hs) & Hx). destruct (planned_setting HP KSlerp _ Hk (or_introl eq_refl)) as (v' & Ev & Hr). cbn in Ev, Hr.
      exists x. apply float_field_number. exists v'. split; [exact Ev|]. assert (Ed : forall a b : pval, parameter (for_tensor r (wi_name w)) "t" (@None string) a true = parameter (for_tensor r (wi_name w)) "t" None b true) by reflexivity.
      rewrite (Ed df none_value) in Hs. congruence.
    + intros ->. destruct (Hi (proj2 Tk eq_refl)) as (v & z & Hs & Hz). destruct (planned_setting HP KKarcher _ Hk (or_introl eq_refl)) as (v' & Ev & Hr). cbn in Ev, Hr.
      exists z. apply int_field_integer. exists v'. split; [exact Ev|]. unfold setting in Hs. congruence.
    + intros g n rr ->. destruct (planned_setting HP _ (opt "rescale" (of_bool rr)) Hk (or_intror (or_intror (or_introl eq_refl)))) as (v & Ev & _). cbn in Ev.
      exists v. unfold dgetE. now rewrite Ev.
Qed.

(** * Examples *)
Lemma planned_of_plan name k W w win models r task :
  get name = Ok k -> w_params W = parameters k -> w_tparams W = tensor_parameters k ->
  plan_tensor W w win models r = Ok (Some task) -> NoDup (map fst (combine models win)) ->
  planned name W r w (combine models win) task.
Proof.
  intros Hk Hp Ht E HN. split; [exists k; auto|]. split; [|exact HN].
  destruct (Verif.Plan.Proofs.plan_tensor_ok W w win models r (Some task) E) as [(E' & _)|(t & E' & Hm & _)]; [discriminate|].
  injection E' as <-. exact Hm.
Qed.

(** two models, one weight called "w" in both *)
Definition ew : weight_info := {| wi_name := "w"; wi_embed := false; wi_optional := false; wi_aliases := None; wi_dtype := None; wi_tied := None |}.
Definition eworld (k : kind) : world string :=
  {| w_arch := []; w_cfg := fun _ => CVNone; w_tensors := fun _ => ["w"]; w_params := parameters k; w_tparams := tensor_parameters k; w_tokenizer := false |}.
Definition esource (m : string) (p : params) : input_slice string := {| is_model := m; is_start := 0; is_end := 1; is_params := p |}.
Definition ereader (base : option string) (t : Q) (global pa pb : params) : reader string :=
  {| r_config := {| mc_modules := None; mc_slices := None; mc_models := None; mc_base := base; mc_params := global; mc_dtype := None; mc_out_dtype := None |};
     r_t := t; r_tensor := None; r_module := None;
     r_slice := Some {| os_sources := [esource "a" pa; esource "b" pb]; os_base := None; os_params := None |} |}.
Definition eins : list (string * weight_info) := [("a", ew); ("b", ew)].
Definition elib : lib :=
  {| l_choice := fun _ => {| c_order := []; c_ranks := []; c_draw := [] |};
     l_order := fun l => l; l_topk := fun _ _ => []; l_perm1 := []; l_perm2 := [] |}.
Definition etensors : dict string tensor :=
  [("a", {| shp := [1%nat]; dat := [1] |}); ("b", {| shp := [1%nat]; dat := [4] |})].
Definition weight (q : Q) : params := Some [("weight", PNum q)].
Definition task_of (k : kind) (r : reader string) : merge_task string :=
  match plan_tensor (eworld k) ew [ew; ew] ["a"; "b"] r with
  | Ok (Some t) => t
  | _ => {| mt_weight := ew; mt_gather := []; mt_dtype := None; mt_permuted := false; mt_params := []; mt_tparams := []; mt_base := None |}
  end.
Lemma task_of_planned name k r t : get name = Ok k -> plan_tensor (eworld k) ew [ew; ew] ["a"; "b"] r = Ok (Some t) ->
  planned name (eworld k) r ew eins (task_of k r).
Proof.
  intros Hk E. unfold task_of. rewrite E. change eins with (combine ["a"; "b"] [ew; ew]).
  apply (planned_of_plan name k); auto. repeat constructor; cbn; intuition discriminate.
Qed.

(** weights 1 and 3 of a linear merge *)
Definition lin_reader := ereader None 1 None (weight 1) (weight 3).
Example C79_linear_nonvacuous :
  planned "linear" (eworld KLinear) lin_reader ew eins (task_of KLinear lin_reader) /\
  incl (dkeys etensors) (map fst eins) /\
  merge_with "linear" elib (task_of KLinear lin_reader) etensors = Ok (Some {| shp := [1%nat]; dat := [13 / 4] |}).
Proof.
  split; [eapply task_of_planned; [reflexivity|vm_compute; reflexivity]|]. split; [apply incl_refl|].
  unfold merge_with. change (get "linear") with (Ok KLinear). cbn [rbind make_task].
  change (bool_field (mt_params (task_of KLinear lin_reader)) "normalize") with (Ok true). cbn [rbind].
  change (numbers (task_of KLinear lin_reader) "weight" (dkeys etensors)) with (Ok [("a", Q2R 1); ("b", Q2R 3)] : result (dict string R)). cbn [rbind].
  unfold some. assert (E1 : Q2R 1 = 1) by (unfold Q2R; cbn; lra). assert (E3 : Q2R 3 = 3) by (unfold Q2R; cbn; lra). rewrite E1, E3.
  change (linear _ true etensors [("a", 1); ("b", 3)]) with
    (if Req_EM_T (1 + (3 + 0)) 0 then Err ZeroDivisionError else Ok {| shp := [1%nat]; dat := [(1 * 1 + (3 * 4 + 0)) / (1 + (3 + 0))] |}).
  destruct (Req_EM_T (1 + (3 + 0)) 0) as [E|_]; [lra|]. cbn [rbind].
  replace ((1 * 1 + (3 * 4 + 0)) / (1 + (3 + 0))) with (13 / 4) by field. reflexivity.
Qed.

(** a spherical interpolation at 1/2; nothing is left to the default *)
Definition slerp_reader := ereader (Some "a") 1 (Some [("t", PNum (1 # 2))]) None None.
Example C79_slerp_nonvacuous :
  planned "slerp" (eworld KSlerp) slerp_reader ew eins (task_of KSlerp slerp_reader) /\
  exists y, merge_with "slerp" elib (task_of KSlerp slerp_reader) etensors = Ok (Some y).
Proof.
  split; [eapply task_of_planned; [reflexivity|vm_compute; reflexivity]|]. eexists.
  unfold merge_with. change (get "slerp") with (Ok KSlerp). cbn [rbind make_task]. reflexivity.
Qed.

(** one model, scaled *)
Definition pass_reader := ereader None 1 None (Some [("scale", PNum 2)]) None.
Example C79_passthrough_nonvacuous :
  planned "passthrough" (eworld KPassthrough) pass_reader ew eins (task_of KPassthrough pass_reader) /\
  merge_with "passthrough" elib (task_of KPassthrough pass_reader) [("a", {| shp := [1%nat]; dat := [1] |})] = Ok (Some {| shp := [1%nat]; dat := [1 * Q2R 2] |}).
Proof. split; [eapply task_of_planned; [reflexivity|vm_compute; reflexivity]|reflexivity]. Qed.

(** a dense task arithmetic, scaled by one half *)
Definition ta_kind : kind := KGta (gta_of None None) false false.
Definition ta_reader := ereader (Some "a") 1 (Some [("lambda", PNum (1 # 2))]) None (weight 2).
Example C79_dense_nonvacuous :
  In ("task_arithmetic", (None, None, false, false)) family /\
  planned "task_arithmetic" (eworld ta_kind) ta_reader ew eins (task_of ta_kind ta_reader) /\
  (forall base, reader_base ta_reader = Some base -> dget etensors base = Some {| shp := [1%nat]; dat := [1] |}) /\
  (forall m x, In (m, x) etensors -> shp x = [1%nat] /\ wf x) /\
  (forall m v x, In m (dkeys etensors) -> model_setting ta_reader eins m "density" (PNum 1) v -> number v x -> 1 <= x) /\
  exists y, merge_with "task_arithmetic" elib (task_of ta_kind ta_reader) etensors = Ok (Some y).
Proof.
  split; [now left|]. split; [eapply task_of_planned; [reflexivity|vm_compute; reflexivity]|].
  split; [intros base [= <-]; reflexivity|].
  split; [intros m x [[= <- <-]|[[= <- <-]|[]]]; split; reflexivity|]. split.
  - intros m v x Hm (wi & Hin & E) (q & -> & ->).
    destruct Hm as [<-|[<-|[]]]; destruct Hin as [Hin|[Hin|[]]]; injection Hin as <-; try discriminate; vm_compute in E; injection E as <-; unfold Q2R; cbn; lra.
  - unfold merge_with. change (get "task_arithmetic") with (Ok ta_kind). cbn [rbind]. unfold ta_kind at 1. cbn [make_task].
    change (mt_base (task_of ta_kind ta_reader)) with (Some "a"). cbn [base_field rbind].
    change (bool_field (mt_params (task_of ta_kind ta_reader)) "int8_mask") with (Ok false).
    change (bool_field (mt_params (task_of ta_kind ta_reader)) "normalize") with (Ok false). cbn [rbind].
    change (float_field (mt_params (task_of ta_kind ta_reader)) "lambda") with (Ok (Q2R (1 # 2))). cbn [rbind].
    change (dgetE (mt_params (task_of ta_kind ta_reader)) "rescale") with (Ok (PNum 0)). cbn [rbind].
    change (gta_of None None) with {| g_consensus := None; g_sparsify := None |}. change (wi_embed _) with false.
    destruct (C30_succeeds None false (Q2R (1 # 2)) None "a" etensors [("b", {| p_weight := Q2R 2; p_density := Q2R 1; p_gamma := 0; p_epsilon := 0 |})] (l_choice elib)) as (y & Ey).
    + now left.
    + intros k x [[= <- <-]|[[= <- <-]|[]]] Hne; unfold dkeys; cbn; try congruence; auto.
    + exists y. change (rmapM (gta_params (task_of ta_kind ta_reader)) (others (Some "a") etensors)) with
        (Ok [("b", {| p_weight := Q2R 2; p_density := Q2R 1; p_gamma := 0; p_epsilon := 0 |})] : result (dict string tparams)).
      cbn [rbind]. change (if truthy (PNum 0) then Some L1 else None) with (@None rescale_norm). unfold some. rewrite Ey. reflexivity.
Qed.

(** ** Findings *)
(** A yes-or-no parameter given as a gradient over the layers is read without complaint, but the task cannot be built
    at the layers where it is neither 0 nor 1. *)
Theorem C79_gradient_flag_refuted :
  exists W r w ins task v q,
    planned "linear" W r w ins task /\ setting r w "normalize" (PNum 1) v /\ v = PNum q /\ (q == 1 # 2)%Q /\
    make_task KLinear task = Err ValidationError.
Proof.
  set (r := ereader None (1 # 2) (Some [("normalize", PList [PNum 0; PNum 1])]) (weight 1) (weight 1)).
  exists (eworld KLinear), r, ew, eins, (task_of KLinear r).
  eexists _, _. split; [eapply task_of_planned; [reflexivity|vm_compute; reflexivity]|].
  split; [vm_compute; reflexivity|]. split; [reflexivity|]. split; [reflexivity|]. vm_compute. reflexivity.
Qed.

(** A base model may go without the required weight: a linear merge that contains its base model is planned and its
    task built, but running it fails. *)
Theorem C79_base_weight_refuted :
  exists W r w ins task ds,
    planned "linear" W r w ins task /\ (exists ex, make_task KLinear task = Ok ex) /\
    dkeys ds = map fst ins /\ (forall m x, In (m, x) ds -> shp x = [1%nat] /\ wf x) /\
    forall L, merge_with "linear" L task ds = Err TypeError.
Proof.
  set (r := ereader (Some "a") 1 None None (weight 1)).
  exists (eworld KLinear), r, ew, eins, (task_of KLinear r), etensors.
  split; [eapply task_of_planned; [reflexivity|vm_compute; reflexivity]|]. split; [eexists; reflexivity|].
  split; [reflexivity|]. split; [intros m x [[= <- <-]|[[= <- <-]|[]]]; split; reflexivity|]. intros L. reflexivity.
Qed.

Print Assumptions C79_names.
Print Assumptions C79_linear.
Print Assumptions C79_slerp.
Print Assumptions C79_nuslerp.
Print Assumptions C79_karcher.
Print Assumptions C79_model_stock.
Print Assumptions C79_arcee_fusion.
Print Assumptions C79_passthrough.
Print Assumptions C79_task_arithmetic.
Print Assumptions C79_dense.
Print Assumptions C79_nearswap.
Print Assumptions C79_ram.
Print Assumptions C79_ramplus.
Print Assumptions C79_sce.
Print Assumptions C79_multislerp.
Print Assumptions C79_accepted.
Print Assumptions C79_gradient_flag_refuted.
Print Assumptions C79_base_weight_refuted.
