(** C46 and C50: LoRA extraction. *)
From Coq Require Import Reals Lra.
From Verif.Base Require Import LinAlg Py PyFacts.
From Verif.ExtractLora Require Import Model Spec Proofs PlanProofs.
Local Open Scope string_scope.
Local Open Scope list_scope.
Local Open Scope R_scope.

(** the matrix that is decomposed: the task vector, transposed for embeddings *)
Definition target (t : dtask) (base model : mat) : mat :=
  let tv := task_vector base model in if dt_transpose t then tr tv else tv.

(** ** C46 *)
(** The stored factors have inner dimension r <= max_rank and their product is the truncation of the delta to its r
    leading singular triples, whether or not the scale is distributed. *)
Theorem C46_product svd t base model (m := target t base model) a b :
  is_svd m (svd m) -> decompose svd t (task_vector base model) = (a, b) ->
  rows a = cols b /\ (rows a <= dt_max_rank t)%nat /\ cols a = cols m /\ rows b = rows m /\
  truncation (svd m) (rows a) (mmul b a) m.
Proof.
  intros Hs E. pose proof (decompose_product svd t (task_vector base model) Hs) as H. rewrite E in H. fold m in H.
  change (if dt_transpose t then tr (task_vector base model) else task_vector base model) with m in H.
  destruct H as (H1 & H2 & H3 & H4 & H5). rewrite H1, H4. repeat split; auto.
  unfold rank_of. destruct (svd m) as [[u s] vh]. destruct (Rlt_dec 0 (dt_eps t)); lia.
Qed.

(** Distributing the scale does not change the product. *)
Theorem C46_distribute svd t base model a b a' b' (m := target t base model) :
  is_svd m (svd m) ->
  decompose svd {| dt_max_rank := dt_max_rank t; dt_distribute := true; dt_transpose := dt_transpose t; dt_eps := dt_eps t |}
    (task_vector base model) = (a, b) ->
  decompose svd {| dt_max_rank := dt_max_rank t; dt_distribute := false; dt_transpose := dt_transpose t; dt_eps := dt_eps t |}
    (task_vector base model) = (a', b') ->
  rows a = rows a' /\
  forall i j, (i < rows m)%nat -> (j < cols m)%nat -> at_ (mmul b a) i j = at_ (mmul b' a') i j.
Proof.
  intros Hs E E'.
  pose proof (decompose_product svd {| dt_max_rank := dt_max_rank t; dt_distribute := true; dt_transpose := dt_transpose t; dt_eps := dt_eps t |} (task_vector base model) Hs) as H.
  pose proof (decompose_product svd {| dt_max_rank := dt_max_rank t; dt_distribute := false; dt_transpose := dt_transpose t; dt_eps := dt_eps t |} (task_vector base model) Hs) as H'.
  rewrite E in H. rewrite E' in H'. cbn [dt_transpose] in H, H'.
  change (if dt_transpose t then tr (task_vector base model) else task_vector base model) with m in H, H'.
  destruct H as (R1 & _ & _ & _ & T1). destruct H' as (R2 & _ & _ & _ & T2).
  assert (Er : forall d d', rank_of svd {| dt_max_rank := dt_max_rank t; dt_distribute := d; dt_transpose := dt_transpose t; dt_eps := dt_eps t |} m
    = rank_of svd {| dt_max_rank := dt_max_rank t; dt_distribute := d'; dt_transpose := dt_transpose t; dt_eps := dt_eps t |} m) by reflexivity.
  rewrite (Er true false) in *. split; [congruence|]. intros i j Hi Hj. unfold truncation in T1, T2. destruct (svd m) as [[u s] vh].
  destruct T1 as (_ & _ & T1). destruct T2 as (_ & _ & T2). now rewrite T1, T2.
Qed.

(** The squared error is the sum of the squares of the discarded singular values... *)
Theorem C46_error svd t base model (m := target t base model) u s vh a b :
  svd m = (u, s, vh) -> is_svd m (u, s, vh) -> decompose svd t (task_vector base model) = (a, b) ->
  dist2 m (mmul b a) = Sum (Nat.min (rows m) (cols m) - rows a) (fun i => s (rows a + i)%nat * s (rows a + i)%nat).
Proof.
  intros Es Hs E. pose proof (decompose_product svd t (task_vector base model)) as H. cbv zeta in H. rewrite E in H.
  change (if dt_transpose t then tr (task_vector base model) else task_vector base model) with m in H. rewrite Es in H.
  destruct (H Hs) as (H1 & _ & _ & _ & H5). pose proof (rank_le svd t m) as Hr. rewrite <- H1 in Hr, H5.
  exact (truncation_error m u vh s Hs (rows a) _ Hr H5).
Qed.
(** ...and no factors of the same inner dimension come closer to the delta. *)
Theorem C46_best svd t base model (m := target t base model) a b x y :
  is_svd m (svd m) -> decompose svd t (task_vector base model) = (a, b) ->
  rows x = rows m -> cols x = rows a -> rows y = rows a -> cols y = cols m ->
  dist2 m (mmul b a) <= dist2 m (mmul x y).
Proof.
  intros Hs E X1 X2 Y1 Y2. destruct (svd m) as [[u s] vh] eqn:Es.
  pose proof (C46_error svd t base model u s vh a b Es Hs E) as Herr. cbv zeta in Herr. fold m in Herr. rewrite Herr.
  pose proof (decompose_product svd t (task_vector base model)) as H. cbv zeta in H. rewrite E in H.
  change (if dt_transpose t then tr (task_vector base model) else task_vector base model) with m in H. rewrite Es in H.
  destruct (H Hs) as (H1 & _). pose proof (rank_le svd t m) as Hr. rewrite <- H1 in Hr.
  exact (any_error m u vh s Hs (rows a) x y Hr X1 X2 Y1 Y2).
Qed.

(** With no threshold and a large enough rank nothing is lost. *)
Theorem C46_exact svd t base model (m := target t base model) a b :
  is_svd m (svd m) -> decompose svd t (task_vector base model) = (a, b) ->
  dt_eps t <= 0 -> (Nat.min (rows m) (cols m) <= dt_max_rank t)%nat ->
  forall i j, (i < rows m)%nat -> (j < cols m)%nat -> at_ (mmul b a) i j = at_ m i j.
Proof.
  intros Hs E He Hr i j Hi Hj. pose proof (decompose_product svd t (task_vector base model) Hs) as H. rewrite E in H.
  change (if dt_transpose t then tr (task_vector base model) else task_vector base model) with m in H.
  destruct H as (_ & _ & _ & _ & H5). unfold rank_of in H5. destruct (svd m) as [[u s] vh].
  destruct (Rlt_dec 0 (dt_eps t)); [lra|]. rewrite Nat.min_r in H5 by exact Hr.
  destruct H5 as (_ & _ & H5). destruct Hs as (_ & _ & _ & _ & Hm & _). now rewrite H5, Hm.
Qed.

(** With a threshold, exactly the singular values above it are kept, up to max_rank of them. *)
Theorem C46_threshold svd t base model (m := target t base model) u s vh a b :
  svd m = (u, s, vh) -> is_svd m (u, s, vh) -> decompose svd t (task_vector base model) = (a, b) -> 0 < dt_eps t ->
  forall l, (l < Nat.min (rows m) (cols m))%nat -> (l < rows a)%nat <-> (l < dt_max_rank t)%nat /\ dt_eps t < s l.
Proof.
  intros Es Hs E He l Hl. pose proof (decompose_product svd t (task_vector base model)) as H. cbv zeta in H. rewrite E in H.
  change (if dt_transpose t then tr (task_vector base model) else task_vector base model) with m in H. rewrite Es in H.
  destruct (H Hs) as (-> & _). unfold rank_of. rewrite Es. destruct (Rlt_dec 0 (dt_eps t)); [|lra].
  destruct Hs as (_ & _ & _ & _ & _ & _ & _ & _ & Hm). pose proof (count_gt_spec s (dt_eps t) _ Hm l Hl). split.
  - intros Hlt. split; [lia|]. apply H0. lia.
  - intros [H1 H2]. apply H0 in H2. lia.
Qed.

(** The configuration names, for every extracted module, the rank of its stored factor; alpha is that rank too... *)
Theorem C46_recorded_rank mts mods c n a b : NoDup (map fst mods) ->
  adapter mts (map (fun nm => ((fst nm ++ ".weight")%string, snd nm)) mods) = Ok c -> In (n, (a, b)) mods ->
  peft_rank c n = rows a /\ peft_alpha c n = rows a /\ In (last_part n) (ac_targets c).
Proof.
  intros Hnd E Hin. destruct (rank_recorded mts mods c n (a, b) Hnd E Hin) as [H1 H2]. split; [exact H1|]. split; [exact H2|].
  unfold adapter in E. fold (named mods) in E. pose proof (ranks_get mods [] n (a, b) Hnd Hin) as Hg. fold (real_ranks (named mods)) in Hg.
  destruct (real_ranks (named mods)) as [|x l] eqn:El; [discriminate|]. rewrite <- El in *. injection E as <-. cbn [ac_targets make_config].
  apply dedup_In, in_map. apply dget_Some_key. eauto.
Qed.

(** ...so the update PEFT applies, (alpha/r) B A, is the truncation itself, as long as the rank is not 0. *)
Theorem C46_applied svd t mts mods c n base model (m := target t base model) a b :
  is_svd m (svd m) -> decompose svd t (task_vector base model) = (a, b) ->
  NoDup (map fst mods) -> adapter mts (map (fun nm => ((fst nm ++ ".weight")%string, snd nm)) mods) = Ok c ->
  In (n, (a, b)) mods -> (0 < rows a)%nat ->
  truncation (svd m) (peft_rank c n)
    {| rows := rows b; cols := cols a; at_ := fun i j => INR (peft_alpha c n) / INR (peft_rank c n) * at_ (mmul b a) i j |} m.
Proof.
  intros Hs E Hnd Hc Hin H0. destruct (C46_recorded_rank mts mods c n a b Hnd Hc Hin) as (H1 & H2 & _). rewrite H1, H2.
  destruct (C46_product svd t base model a b Hs E) as (_ & _ & _ & _ & H5). fold m in H5. unfold truncation in *.
  destruct (svd m) as [[u s] vh]. destruct H5 as (R1 & C1 & H5). split; [exact R1|]. split; [exact C1|].
  intros i j Hi Hj. cbn [at_]. change (at_ (mmul b a) i j) with (at_ (mmul b a) i j) in H5. rewrite <- H5 by assumption.
  field. apply not_0_INR. lia.
Qed.

(** The stored rank can be 0: an unchanged module with a positive threshold gets factors of inner dimension 0 and the
    configuration asks PEFT for r = 0, which PEFT rejects. *)
Theorem C46_zero_rank_refuted svd t base model (m := target t base model) u s vh a b :
  svd m = (u, s, vh) -> is_svd m (u, s, vh) -> decompose svd t (task_vector base model) = (a, b) -> 0 < dt_eps t ->
  (forall i j, at_ model i j = at_ base i j) ->
  rows a = 0%nat /\
  exists c, adapter [] [("m.weight", (a, b))] = Ok c /\ peft_rank c "m" = 0%nat.
Proof.
  intros Es Hs E He Heq.
  assert (Hs0 : forall l, (l < Nat.min (rows m) (cols m))%nat -> s l = 0).
  { intros l Hl. pose proof (svd_norm m u vh s Hs s) as Hn. destruct Hs as (_ & _ & _ & _ & Hm & _ & _ & Hpos & _).
    assert (Hz : Sum (Nat.min (rows m) (cols m)) (fun l => s l * s l) = 0).
    { rewrite <- Hn. apply Sum_0. intros i Hi. apply Sum_0. intros j Hj. rewrite <- Hm by assumption.
      assert (Ez : at_ m i j = 0). { unfold m, target. destruct (dt_transpose t); cbn; rewrite Heq; ring. } rewrite Ez. ring. }
    assert (Hsq : s l * s l = 0).
    { pose proof (Sum_zero_inv (Nat.min (rows m) (cols m)) (fun l => s l * s l)) as Hi. cbv beta in Hi. apply Hi; auto.
      intros i Hi'. apply Rle_0_sqr. }
    apply Rmult_integral in Hsq. destruct Hsq; assumption. }
  assert (Hr : rows a = 0%nat).
  { destruct (rows a) as [|r] eqn:Er; [reflexivity|]. exfalso.
    pose proof (decompose_product svd t (task_vector base model)) as H. cbv zeta in H. rewrite E in H.
    change (if dt_transpose t then tr (task_vector base model) else task_vector base model) with m in H. rewrite Es in H.
    destruct (H Hs) as (H1 & _). pose proof (rank_le svd t m) as Hle. rewrite <- H1, Er in Hle.
    destruct (C46_threshold svd t base model u s vh a b Es Hs E He 0%nat ltac:(fold m; lia)) as [H2 _].
    destruct (H2 ltac:(rewrite Er; lia)) as [_ H3]. fold m in Hs0. rewrite Hs0 in H3 by lia. lra. }
  split; [exact Hr|]. unfold adapter, real_ranks. cbn [fold_left fst snd]. rewrite Hr. vm_compute. eexists. split; reflexivity.
Qed.

(** With no module to extract the script ends in an error after writing the weights. *)
Theorem C46_nothing_extracted_refuted mts : adapter mts [] = Err ValueError.
Proof. reflexivity. Qed.

(** A concrete case: diag(3,1), rank 1. *)
Definition ex_base : mat := {| rows := 2; cols := 2; at_ := fun _ _ => 0 |}.
Definition ex_model : mat := diag 2 (fun i => match i with O => 4 | _ => 1 end).
Definition ex_svd (m : mat) : mat * (nat -> R) * mat := (eye 2, (fun i => match i with O => 4 | _ => 1 end), eye 2).
Definition ex_task : dtask := {| dt_max_rank := 1; dt_distribute := true; dt_transpose := true; dt_eps := 1 / 2 |}.
Lemma ex_is_svd d tp eps r : is_svd (target {| dt_max_rank := r; dt_distribute := d; dt_transpose := tp; dt_eps := eps |} ex_base ex_model)
  (eye 2, (fun i => match i with O => 4 | _ => 1 end), eye 2).
Proof.
  unfold target. destruct tp; cbn [dt_transpose]; unfold is_svd; cbn.
  all: repeat split; try reflexivity.
  all: try (intros i j Hi Hj; destruct i as [|[|i]]; destruct j as [|[|j]]; try lia; unfold ip; cbn; lra).
  all: try (intros l Hl; destruct l as [|[|l]]; try lia; lra).
  all: try (intros a b Hab Hb; destruct a as [|[|a]]; destruct b as [|[|b]]; try lia; lra).
Qed.
Example C46_nonvacuous :
  is_svd (target ex_task ex_base ex_model) (ex_svd (target ex_task ex_base ex_model)) /\
  (let '(a, b) := decompose ex_svd ex_task (task_vector ex_base ex_model) in
   rows a = 1%nat /\ at_ (mmul b a) 0 0 = 4 /\ at_ (mmul b a) 1 1 = 0 /\ at_ (target ex_task ex_base ex_model) 1 1 = 1 /\
   exists c, adapter [] [("lm.weight", (a, b))] = Ok c /\ ac_r c = 1%nat).
Proof.
  split; [apply ex_is_svd|].
  unfold decompose, ex_svd, ex_task, rank_of. cbn [dt_transpose dt_max_rank dt_distribute dt_eps].
  assert (Hr : (if Rlt_dec 0 (1 / 2) then Nat.min (count_gt (Nat.min (rows (tr (task_vector ex_base ex_model))) (cols (tr (task_vector ex_base ex_model))))
     (fun i => match i with O => 4 | _ => 1 end) (1 / 2)) (Nat.min 1 (Nat.min (rows (tr (task_vector ex_base ex_model))) (cols (tr (task_vector ex_base ex_model)))))
     else Nat.min 1 (Nat.min (rows (tr (task_vector ex_base ex_model))) (cols (tr (task_vector ex_base ex_model))))) = 1%nat).
  { cbn. destruct (Rlt_dec 0 (1 / 2)); [|lra]. destruct (Rlt_dec (1 / 2) 4); [|lra]. destruct (Rlt_dec (1 / 2) 1); [|lra]. reflexivity. }
  cbn [rows cols tr task_vector] in Hr |- *. rewrite Hr. split; [reflexivity|]. split.
  { cbn. pose proof (sqrt_sqrt 4 ltac:(lra)). lra. }
  split; [cbn; lra|]. split; [cbn; lra|]. eexists. split; reflexivity.
Qed.
Example C46_zero_rank_nonvacuous : is_svd (target ex_task ex_base ex_base)
  ((eye 2, (fun _ => 0), eye 2) : mat * (nat -> R) * mat).
Proof.
  unfold is_svd. cbn. repeat split; try reflexivity.
  all: try (intros i j Hi Hj; destruct i as [|[|i]]; destruct j as [|[|j]]; try lia; unfold ip; cbn; lra).
  all: intros; lra.
Qed.

(** ** C50 *)
Local Close Scope R_scope.
Section C50.
Variables (o : options) (is_tuple : bool).

(** Each module is planned at most once; what is planned is a module of the model; a module saved in full is listed in
    modules_to_save (by its name or its last component); a module is decomposed only if it is of a supported class,
    included and not excluded. *)
Theorem C50_plan ms mts acts mts' : NoDup (map mo_name ms) -> plan_modules o is_tuple ms mts = Ok (acts, mts') ->
  NoDup (map action_name acts) /\
  (forall a, In a acts -> exists m, In m ms /\ action_name a = mo_name m) /\
  (forall n b, In (AFull n b) acts -> In n mts' \/ In (last_part n) mts') /\
  (forall n t b, In (ALora n t b) acts -> exists m, In m ms /\ mo_name m = n /\ mo_kind m <> KOther /\
     op_exclude o n = false /\ (forall f, op_include o = Some f -> f n = true)).
Proof.
  intros Hnd E. destruct (plan_sublist o is_tuple ms mts acts mts' E) as (H1 & H2 & H3 & H4 & _).
  split; [auto|]. split; [exact H2|]. split; [exact H3|]. intros n t b Hin.
  destruct (H4 n t b Hin) as (m & Hm & En & Hs & He). exists m. split; [exact Hm|]. split; [exact En|].
  unfold supported in Hs. unfold should_extract in He. apply andb_true_iff in He as [Hi Hx]. apply negb_true_iff in Hx.
  split; [intros Hk; rewrite Hk in Hs; discriminate|]. split; [exact Hx|]. intros f Hf. now rewrite Hf in Hi.
Qed.

(** Nothing gets into modules_to_save without a module saved in full under that last component, and what the user
    listed stays. *)
Theorem C50_modules_to_save ms mts acts mts' : plan_modules o is_tuple ms mts = Ok (acts, mts') ->
  (forall x, In x mts -> In x mts') /\
  (forall x, In x mts' -> In x mts \/ exists m b, In m ms /\ x = last_part (mo_name m) /\ In (AFull (mo_name m) b) acts).
Proof.
  intros E. split; [exact (plan_grows o is_tuple ms mts acts mts' E)|]. intros x Hx.
  destruct (plan_sublist o is_tuple ms mts acts mts' E) as (_ & _ & _ & _ & H). destruct (H x Hx) as [?|(m & b & H1 & H2 & _ & H4)]; eauto 7.
Qed.

(** A module with a weight that the user listed is saved in full; so is every embedding that is not excluded unless
    embeddings are to be decomposed, and every included module of an unsupported class unless those are skipped. *)
Theorem C50_full ms mts acts mts' m : plan_modules o is_tuple ms mts = Ok (acts, mts') -> In m ms ->
  mo_known m = true \/ mo_has_weight m = true ->
  In (mo_name m) mts \/ In (last_part (mo_name m)) mts \/
  (op_embed_lora o = false /\ is_emb m = true /\ op_exclude o (mo_name m) = false) \/
  (mo_kind m = KOther /\ should_extract o (mo_name m) = true /\ op_skip o = false) ->
  In (AFull (mo_name m) (mo_bias m)) acts.
Proof.
  intros E Hin Hw Hc. apply in_split in Hin as (pre & post & ->).
  destruct (plan_split o is_tuple pre m post mts acts mts' E) as (a1 & mts1 & a & mts2 & a2 & E1 & E2 & _ & ->).
  pose proof (plan_grows o is_tuple _ _ _ _ E1) as Hg.
  destruct (plan_module_spec o is_tuple m mts1 a mts2 E2) as (_ & _ & _ & Hf & _).
  apply in_app_iff. right. apply in_app_iff. left. rewrite Hf; [now left|exact Hw|].
  destruct Hc as [Hc|[Hc|[Hc|(Hk & H2 & H3)]]].
  - left. left. auto.
  - left. right. auto.
  - right. left. exact Hc.
  - right. right. unfold supported. rewrite Hk. auto.
Qed.

(** Every other included module of a supported class is decomposed, provided no earlier module put its last component
    in the list; transposed exactly when it is an embedding. *)
Theorem C50_lora ms mts acts mts' m : plan_modules o is_tuple ms mts = Ok (acts, mts') -> In m ms ->
  mo_known m = true \/ mo_has_weight m = true ->
  ~ In (mo_name m) mts' -> ~ In (last_part (mo_name m)) mts' ->
  op_embed_lora o = true \/ is_emb m = false -> mo_kind m <> KOther -> should_extract o (mo_name m) = true ->
  exists t, In (ALora (mo_name m) t (mo_bias m)) acts /\ (t = true <-> mo_kind m = KEmbedding).
Proof.
  intros E Hin Hw Hn1 Hn2 He Hk Hs. pose proof E as Efull. apply in_split in Hin as (pre & post & ->).
  destruct (plan_split o is_tuple pre m post mts acts mts' E) as (a1 & mts1 & a & mts2 & a2 & E1 & E2 & E3 & ->).
  pose proof (plan_grows o is_tuple _ _ _ _ E3) as Hg3.
  destruct (plan_module_spec o is_tuple m mts1 a mts2 E2) as (Hg2 & _ & _ & _ & Hl & _).
  assert (Hsup : supported m = true) by (unfold supported; destruct (mo_kind m); congruence).
  exists (match mo_kind m with KEmbedding => true | _ => false end). split.
  - apply in_app_iff. right. apply in_app_iff. left. rewrite Hl; [now left|exact Hw| | |exact Hs|exact Hsup].
    + intros [H|H]; auto.
    + intros [(H1 & H2 & _)|(H1 & _)]; [|congruence]. destruct He; congruence.
  - destruct (mo_kind m); split; congruence.
Qed.

(** A module that is excluded and that nobody listed is left out. *)
Theorem C50_excluded ms mts acts mts' m : NoDup (map mo_name ms) -> plan_modules o is_tuple ms mts = Ok (acts, mts') -> In m ms ->
  ~ In (mo_name m) mts' -> ~ In (last_part (mo_name m)) mts' -> op_exclude o (mo_name m) = true ->
  ~ In (mo_name m) (map action_name acts).
Proof.
  intros Hnd E Hin Hn1 Hn2 Hx Hin2. apply in_map_iff in Hin2 as (a & Ha & Hin2).
  destruct (C50_plan ms mts acts mts' Hnd E) as (_ & _ & H3 & H4). destruct a as [n t b|n b]; cbn in Ha; subst n.
  - destruct (H4 _ _ _ Hin2) as (_ & _ & _ & _ & H & _). congruence.
  - destruct (H3 _ _ Hin2); contradiction.
Qed.
End C50.

(** When the user gives --save-module, the option is a tuple: the first embedding not covered by it ends the run in an
    AttributeError, whatever the rest of the model. *)
Theorem C50_save_module_refuted o ms mts m : In m ms -> mo_known m = true \/ mo_has_weight m = true ->
  op_embed_lora o = false -> is_emb m = true -> op_exclude o (mo_name m) = false ->
  ~ In (last_part (mo_name m)) mts -> exists e, plan_modules o true ms mts = Err e.
Proof.
  intros Hin Hw He Hemb Hx Hn. destruct (plan_modules o true ms mts) as [[acts mts']|e] eqn:E; [exfalso|eauto].
  assert (Hsame : forall m mts acts mts', plan_module o true m mts = Ok (acts, mts') -> mts' = mts).
  { clear. intros m mts acts mts'. unfold plan_module, append_key.
    repeat match goal with |- context [if ?c then _ else _] => destruct c; cbn [rbind] end; intros [=]; congruence. }
  assert (Hsames : forall ms mts acts mts', plan_modules o true ms mts = Ok (acts, mts') -> mts' = mts).
  { clear -Hsame. induction ms as [|m ms IH]; intros mts acts mts' E; cbn [plan_modules] in E; [congruence|].
    destruct (plan_module o true m mts) as [[a mts1]|] eqn:E1; cbn [rbind] in E; [|discriminate].
    destruct (plan_modules o true ms mts1) as [[rest mts2]|] eqn:E2; cbn [rbind] in E; [|discriminate].
    apply Hsame in E1. apply IH in E2. congruence. }
  apply in_split in Hin as (pre & post & ->).
  destruct (plan_split o true pre m post mts acts mts' E) as (a1 & mts1 & a & mts2 & a2 & E1 & E2 & _ & _).
  apply Hsames in E1. subst mts1. unfold plan_module in E2.
  assert (Ew : negb (mo_known m) && negb (mo_has_weight m) = false) by (destruct Hw as [->| ->]; destruct (mo_known m); reflexivity).
  rewrite Ew, He, Hemb, Hx in E2. cbn [negb andb] in E2. unfold append_key in E2.
  rewrite (proj2 (mem_nIn _ _) Hn) in E2. discriminate.
Qed.

Definition ex_opt : options := {| op_embed_lora := false; op_include := None; op_exclude := fun n => eqb n "model.skip"; op_skip := false |}.
Definition mo n k := {| mo_name := n; mo_kind := k; mo_has_weight := true; mo_is_io := false; mo_known := false; mo_bias := false |}.

(** The list depends on the order: a module decomposed before another one of the same last component is found to be
    unsupported is both decomposed and listed in modules_to_save, so PEFT will look for a full copy that is not there. *)
Theorem C50_order_refuted :
  plan_modules ex_opt false [mo "a.norm" KLinear; mo "b.norm" KOther] [] =
    Ok ([ALora "a.norm" false false; AFull "b.norm" false], ["norm"]) /\
  plan_modules ex_opt false [mo "b.norm" KOther; mo "a.norm" KLinear] [] =
    Ok ([AFull "b.norm" false; AFull "a.norm" false], ["norm"]).
Proof. split; reflexivity. Qed.

Example C50_nonvacuous :
  plan_modules ex_opt false
    [mo "model.embed" KEmbedding; mo "model.q" KLinear; mo "model.skip" KLinear; mo "model.norm" KOther; mo "lm_head" KLinear] ["lm_head"] =
  Ok ([AFull "model.embed" false; ALora "model.q" false false; AFull "model.norm" false; AFull "lm_head" false],
      ["lm_head"; "embed"; "norm"]).
Proof. reflexivity. Qed.
Example C50_save_module_nonvacuous :
  plan_modules ex_opt true [mo "model.embed" KEmbedding; mo "lm_head" KLinear] ["lm_head"] = Err AttributeError.
Proof. reflexivity. Qed.

Print Assumptions C46_product.
Print Assumptions C46_distribute.
Print Assumptions C46_error.
Print Assumptions C46_best.
Print Assumptions C46_exact.
Print Assumptions C46_threshold.
Print Assumptions C46_recorded_rank.
Print Assumptions C46_applied.
Print Assumptions C46_zero_rank_refuted.
Print Assumptions C46_nothing_extracted_refuted.
Print Assumptions C50_plan.
Print Assumptions C50_modules_to_save.
Print Assumptions C50_full.
Print Assumptions C50_lora.
Print Assumptions C50_excluded.
Print Assumptions C50_save_module_refuted.
Print Assumptions C50_order_refuted.
