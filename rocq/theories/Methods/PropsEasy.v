(** C55: what the functions decorated with @merge_method receive. *)
From Coq Require Import Permutation.
From Verif.Base Require Import Py PyFacts.
From Verif.Methods Require Import Easy.
Local Open Scope string_scope.
Local Open Scope list_scope.

Section Easy.
Context {M T V : Type} `{Eqb M}.

Lemma dgetE_Ok {K W} `{Eqb K} (d : dict K W) k v : dgetE d k = Ok v <-> dget d k = Some v.
Proof. unfold dgetE. destruct (dget d k); split; congruence. Qed.

(** The tensors are those of the models [refs] in that order, and each per-model parameter is the list of the values of
    the same models in the same order. *)
Definition aligned (tensors : dict M T) (tparams : dict M (dict string V)) (refs : list M) (c : call T V) (names : list string) : Prop :=
  Forall2 (fun m t => dget tensors m = Some t) refs (c_tensors c) /\
  Forall2 (fun k kv => fst kv = k /\ Forall2 (fun m v => exists p, dget tparams m = Some p /\ dget p k = Some v) refs (snd kv))
    names (c_tensor_params c).

Lemma execute_inv d bm (tensors : dict M T) params (tparams : dict M (dict string V)) order c :
  execute d bm tensors params tparams order = Ok c ->
  let refs := refs_of d (field_base d bm) tensors order in
  aligned tensors tparams refs c (d_tensor_params d) /\
  Forall2 (fun k kv => fst kv = k /\ dget params k = Some (snd kv)) (d_params d) (c_params c) /\
  c_base c = (if d_base_tensor d then match field_base d bm with Some b => dget tensors b | None => None end else None).
Proof.
  intros E refs. unfold execute in E. fold refs in E. destruct (rmapM (dgetE tensors) refs) as [ts|] eqn:Et; [|discriminate]. cbn [rbind] in E.
  destruct (d_base_tensor d && d_require_base d && _); [discriminate|].
  destruct (rmapM _ (d_params d)) as [ps|] eqn:Ep; [|discriminate]. cbn [rbind] in E.
  destruct (rmapM _ (d_tensor_params d)) as [tps|] eqn:Eq; [|discriminate]. cbn [rbind] in E. injection E as <-.
  unfold aligned. cbn [c_tensors c_tensor_params c_params c_base]. apply rmapM_Ok_Forall2 in Et, Ep, Eq. repeat split.
  - clear -Et. induction Et; constructor; auto. now apply dgetE_Ok.
  - clear -Eq. induction Eq as [|k kv l l' Hk]; constructor; auto.
    destruct (rmapM _ refs) as [vs|] eqn:Ev; [|discriminate]. cbn [rbind] in Hk. injection Hk as <-. split; [reflexivity|]. cbn [snd].
    apply rmapM_Ok_Forall2 in Ev. clear -Ev. induction Ev as [|m v ms vs Hm]; constructor; auto.
    destruct (dgetE tparams m) as [p|] eqn:Epp; [|discriminate]. cbn [rbind] in Hm. exists p. split; now apply dgetE_Ok.
  - clear -Ep. induction Ep as [|k kv l l' Hk]; constructor; auto.
    destruct (dgetE params k) as [v|] eqn:Ev; [|discriminate]. cbn [rbind] in Hk. injection Hk as <-. split; [reflexivity|]. now apply dgetE_Ok.
Qed.

Lemma filter_out_perm (b : M) l : NoDup l -> In b l -> Permutation l (b :: filter (fun m => negb (eqb m b)) l).
Proof.
  induction l as [|x l IH]; [contradiction|]. intros Nd Hin. inversion Nd as [|? ? Nx Nl]; subst. cbn [filter]. destruct (eqb_spec x b) as [->|Hne].
  - cbn [negb]. constructor. replace (filter _ l) with l; [reflexivity|]. clear -Nx. induction l as [|y l IH]; [reflexivity|]. cbn [filter].
    assert (Hy : eqb y b = false) by (apply eqb_neq; intros ->; apply Nx; left; reflexivity). rewrite Hy. cbn [negb]. f_equal. apply IH. intros Hb. apply Nx. right. exact Hb.
  - cbn [negb]. destruct Hin as [->|Hin]; [contradiction|]. rewrite (IH Nl Hin) at 1. apply perm_swap.
Qed.

(** A function with a base_tensor argument, run with the base model's tensor present: base_tensor is that tensor, and
    tensors holds exactly the other models' tensors, each once, with every per-model parameter list in the same order. *)
Theorem C55_base_separate d b (tensors : dict M T) params (tparams : dict M (dict string V)) order c :
  d_base_tensor d = true -> NoDup (dkeys tensors) -> Permutation order (dkeys tensors) -> In b (dkeys tensors) ->
  execute d (Some b) tensors params tparams order = Ok c ->
  c_base c = dget tensors b /\
  exists refs, Permutation (b :: refs) (dkeys tensors) /\ aligned tensors tparams refs c (d_tensor_params d).
Proof.
  intros Hd Nd Hp Hb E. destruct (execute_inv _ _ _ _ _ _ _ E) as (Ha & _ & Hc). assert (Ef : field_base d (Some b) = Some b) by (unfold field_base; rewrite Hd, orb_true_r; reflexivity).
  rewrite Ef, Hd in *. split; [exact Hc|]. eexists. split; [|exact Ha]. unfold refs_of. rewrite (proj2 (mem_In b (dkeys tensors)) Hb), Hd.
  rewrite <- filter_out_perm; [exact Hp| |]. - eapply Permutation_NoDup; [symmetry; exact Hp|exact Nd]. - eapply Permutation_in; [symmetry; exact Hp|exact Hb].
Qed.

(** Without a base model, or where the base model has no such tensor, tensors holds every model's tensor and base_tensor
    is None; a function that requires it is not called. *)
Theorem C55_no_base d bm (tensors : dict M T) params (tparams : dict M (dict string V)) order :
  d_base_tensor d = true -> Permutation order (dkeys tensors) -> (forall b, bm = Some b -> ~ In b (dkeys tensors)) ->
  (d_require_base d = true -> forall c, execute d bm tensors params tparams order <> Ok c) /\
  forall c, execute d bm tensors params tparams order = Ok c ->
    c_base c = None /\ exists refs, Permutation refs (dkeys tensors) /\ aligned tensors tparams refs c (d_tensor_params d).
Proof.
  intros Hd Hp Hb. assert (Ef : field_base d bm = bm) by (unfold field_base; rewrite Hd, orb_true_r; reflexivity).
  assert (En : match bm with Some b => dget tensors b | None => None end = None) by (destruct bm; [apply dget_None; apply Hb; reflexivity|reflexivity]).
  split.
  - intros Hr c E. unfold execute in E. rewrite Ef in E. destruct (rmapM (dgetE tensors) _); [|discriminate]. cbn [rbind] in E. rewrite En, Hd, Hr in E. discriminate.
  - intros c E. destruct (execute_inv _ _ _ _ _ _ _ E) as (Ha & _ & Hc). rewrite Ef, Hd, En in *. split; [exact Hc|]. eexists. split; [|exact Ha].
    unfold refs_of. destruct bm as [b|]; [|exact Hp]. rewrite (proj2 (mem_nIn b (dkeys tensors))); [exact Hp|]. apply Hb. reflexivity.
Qed.

(** A function with a base_model argument and no base_tensor gets the base model's tensor first. *)
Theorem C55_base_first d b (tensors : dict M T) params (tparams : dict M (dict string V)) order c :
  d_base_tensor d = false -> d_base_model d = true -> NoDup (dkeys tensors) -> Permutation order (dkeys tensors) -> In b (dkeys tensors) ->
  execute d (Some b) tensors params tparams order = Ok c ->
  exists refs, Permutation (b :: refs) (dkeys tensors) /\ aligned tensors tparams (b :: refs) c (d_tensor_params d).
Proof.
  intros Hd Hm Nd Hp Hb E. destruct (execute_inv _ _ _ _ _ _ _ E) as (Ha & _ & _). assert (Ef : field_base d (Some b) = Some b) by (unfold field_base; rewrite Hm; reflexivity).
  rewrite Ef in *. unfold refs_of in Ha. rewrite (proj2 (mem_In b (dkeys tensors)) Hb), Hd in Ha. eexists. split; [|exact Ha].
  rewrite <- filter_out_perm; [exact Hp| |]. - eapply Permutation_NoDup; [symmetry; exact Hp|exact Nd]. - eapply Permutation_in; [symmetry; exact Hp|exact Hb].
Qed.
End Easy.

(** Finding. The documentation (docs/create_a_merge_method.md 127-128, and the docstring at 261-262) says that without a
    base_tensor argument the base model's tensor comes first in the list. The task has no base_model field then, and the
    order is that of a set. *)
Theorem C55_base_first_refuted :
  exists (d : decl) (b : string) (tensors : dict string nat) order (c : call nat nat),
    d_base_tensor d = false /\ NoDup (dkeys tensors) /\ Permutation order (dkeys tensors) /\ In b (dkeys tensors) /\
    execute d (Some b) tensors [] [] order = Ok c /\ hd_error (c_tensors c) <> dget tensors b.
Proof.
  exists {| d_base_tensor := false; d_require_base := false; d_base_model := false; d_params := []; d_tensor_params := [] |}, "base",
    [("base", 1); ("m", 2)], ["m"; "base"], {| c_tensors := [2; 1]; c_base := None; c_params := []; c_tensor_params := [] |}.
  repeat split; try reflexivity; unfold dkeys; cbn.
  - repeat constructor; cbn; intuition congruence.
  - apply perm_swap.
  - auto.
  - discriminate.
Qed.
(** Finding. The lists are not in the order of the input models (docs/create_a_merge_method.md 125, docstring 274): any
    order of the set is possible. *)
Theorem C55_order_refuted :
  exists (tensors : dict string nat) order (c : call nat nat), NoDup (dkeys tensors) /\ Permutation order (dkeys tensors) /\
    execute multislerp_decl None tensors [("normalize_weights", 1); ("eps", 0)] [("a", [("weight", 3)]); ("b", [("weight", 5)])] order = Ok c /\
    c_tensors c <> map snd tensors.
Proof.
  exists [("a", 1); ("b", 2)], ["b"; "a"],
    {| c_tensors := [2; 1]; c_base := None; c_params := [("normalize_weights", 1); ("eps", 0)]; c_tensor_params := [("weight", [5; 3])] |}.
  repeat split; try reflexivity; unfold dkeys; cbn.
  - repeat constructor; cbn; intuition congruence.
  - apply perm_swap.
  - discriminate.
Qed.

Example C55_nonvacuous :
  let tensors := [("a", 1); ("base", 7); ("b", 2)] in
  let c := {| c_tensors := [2; 1]; c_base := Some 7; c_params := [("normalize_weights", 1); ("eps", 0)]; c_tensor_params := [("weight", [5; 3])] |} in
  Permutation ["b"; "base"; "a"] (dkeys tensors) /\
  execute multislerp_decl (Some "base") tensors [("normalize_weights", 1); ("eps", 0)] [("a", [("weight", 3)]); ("b", [("weight", 5)])] ["b"; "base"; "a"] = Ok c /\
  execute (M := string) (T := nat) (V := nat) sce_decl (Some "base") [("a", 1)] [("int8_mask", 0); ("select_topk", 1)] [] ["a"] = Err ValueError /\
  execute (M := string) (T := nat) (V := nat) {| d_base_tensor := false; d_require_base := false; d_base_model := true; d_params := []; d_tensor_params := [] |}
    (Some "base") tensors [] [] ["b"; "base"; "a"] = Ok {| c_tensors := [7; 2; 1]; c_base := None; c_params := []; c_tensor_params := [] |}.
Proof.
  unfold dkeys; cbn. repeat split; try reflexivity. eapply perm_trans; [apply perm_swap|]. eapply perm_trans; [apply perm_skip, perm_swap|]. apply perm_swap.
Qed.

Print Assumptions C55_base_separate.
