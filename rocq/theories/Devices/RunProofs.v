(** Proofs for C85: merge runs with tensors on devices *)
From Verif.Base Require Import Py PyFacts.
From Verif.Graph Require Import Model.
From Verif.IO Require Import Model.
From Verif.Run Require Import Model.
From Verif.Devices Require Import Model Spec Proofs Run RunSpec.
Local Open Scope string_scope.
Local Open Scope list_scope.

Section Run.
Context {M : Type} `{Eqb M} {T K : Type}.
Variable E : env M T K.
Variable E' : env M (device * T) K.
Hypothesis HE : portable_env E E'.
Notation val := (value M (device * T) K).
Lemma moved_fst cur n (x : device * T) : fst (moved cur n x) = resolve cur n.
Proof. unfold moved. destruct (eqb_spec (device_of (fst x)) n) as [<-|_]; [symmetry; apply resolve_of|reflexivity]. Qed.
Lemma moved_snd cur n (x : device * T) : snd (moved cur n x) = snd x.
Proof. unfold moved. now destruct (eqb _ n). Qed.
Lemma move_value_on cur n (v : val) : value_on (resolve cur n) (move_value cur n v).
Proof.
  destruct v as [[x|]|d| | | |]; cbn; auto; [apply moved_fst|]. intros m x Hi. apply in_map_iff in Hi as ([m0 x0] & [= <- <-] & _). apply moved_fst.
Qed.
Lemma unplaced_move cur n (v : val) : unplaced (move_value cur n v) = unplaced v.
Proof.
  destruct v as [[x|]|d| | | |]; cbn; try reflexivity; [now rewrite moved_snd|]. f_equal. unfold tensors. rewrite map_map. apply map_ext. intros [m x]. cbn. now rewrite moved_snd.
Qed.
Definition uargs (args : list (string * value M (device * T) K)) : list (string * value M T K) := map (fun kv => (fst kv, unplaced (snd kv))) args.
Lemma uargs_get args k : dget (uargs args) k = option_map unplaced (dget args k).
Proof. induction args as [|[k' v] args IH]; cbn; [reflexivity|]. destruct (eqb k k'); [reflexivity|exact IH]. Qed.
Lemma dict_of_tensors l : dict_of (map (fun mx : M * (device * T) => (fst mx, snd (snd mx))) l) = tensors (dict_of l).
Proof.
  unfold dict_of. change (@nil (M * T)) with (@tensors M T []) at 1. generalize (@nil (M * (device * T))).
  induction l as [|[m x] l IH]; intros d; [reflexivity|]. cbn [map fold_left fst snd]. rewrite <- IH. f_equal. clear IH.
  induction d as [|[m' x'] d IHd]; cbn; [reflexivity|]. destruct (eqb m m'); cbn; [reflexivity|]. f_equal. exact IHd.
Qed.
Lemma cast_unplaced o x : rmap snd (cast E' o x) = cast E o (snd x).
Proof. unfold cast. destruct o as [s|]; [|reflexivity]. destruct (eqb s ""); [reflexivity|apply (pe_cast _ _ HE)]. Qed.
Lemma save_unplaced n o dt x : rmap unplaced (exec_save E' n o dt x) = exec_save E n o dt (option_map snd x).
Proof.
  unfold exec_save. destruct x as [x|]; cbn; [|now destruct o]. rewrite <- cast_unplaced. destruct (cast E' dt x); reflexivity.
Qed.
Lemma return_unplaced dt x : rmap unplaced (exec_return E' dt x) = exec_return E dt (option_map snd x).
Proof.
  unfold exec_return. destruct x as [x|]; cbn.
  - rewrite <- cast_unplaced. destruct (cast E' dt x); reflexivity.
  - destruct dt as [s|]; [|reflexivity]. now destruct (eqb s "").
Qed.
Lemma gather_unplaced g args : rmap unplaced (exec_gather E' g args) = exec_gather E g (uargs args).
Proof.
  unfold exec_gather.
  replace (dict_of (map (fun mw : M * Arch.Model.weight_info => (arg_key E' mw, fst mw)) g)) with (dict_of (map (fun mw : M * Arch.Model.weight_info => (arg_key E mw, fst mw)) g))
    by (f_equal; apply map_ext; intros mw; unfold arg_key; now rewrite (pe_str _ _ HE)).
  generalize (dict_of (map (fun mw : M * Arch.Model.weight_info => (arg_key E mw, fst mw)) g)). intros keys.
  assert (Ek : rmap (map (fun mx : M * option (device * T) => (fst mx, option_map snd (snd mx))))
     (rmapM (fun km : string * M => match dget args (fst km) with Some (VTensor x) => Ok (snd km, x) | Some _ => Err TypeError | None => Err KeyError end) keys) =
     rmapM (fun km : string * M => match dget (uargs args) (fst km) with Some (VTensor x) => Ok (snd km, x) | Some _ => Err TypeError | None => Err KeyError end) keys).
  { induction keys as [|[k m] keys IH]; cbn; [reflexivity|]. rewrite uargs_get. destruct (dget args k) as [[x|d| | | |]|]; cbn; try reflexivity. rewrite <- IH. destruct (rmapM _ keys); reflexivity. }
  rewrite <- Ek. destruct (rmapM _ keys) as [kvs|e]; cbn; [|reflexivity]. do 2 f_equal. rewrite <- dict_of_tensors. f_equal. clear.
  induction kvs as [|[m [x|]] kvs IH]; cbn; [reflexivity|f_equal; exact IH|exact IH].
Qed.
Lemma exec_unplaced cur read dv l args : (forall k v, In (k, v) args -> value_on dv v) -> rmap unplaced (exec_on E E' cur read l args) = exec E l (uargs args).
Proof.
  intros Hon. assert (Hget : forall k v, dget args k = Some v -> value_on dv v) by (intros k v Hk; eapply Hon, dget_In; eauto).
  destruct l as [m tn dt op al ti|g dt| |b|t| |nm op dt| |w dt]; cbn [exec_on exec].
  - unfold exec_load. destruct (from_disk (e_dir E m)) as [ix|]; cbn [rbind rmap]; [|reflexivity].
    match goal with |- context [rbind ?a _] => destruct a as [[x|]|] end; cbn [rbind rmap]; try reflexivity; [destruct (cast E dt x); reflexivity|now destruct op].
  - apply gather_unplaced.
  - rewrite (pe_tokenizer _ _ HE). destruct (e_tokenizer E); reflexivity.
  - rewrite !uargs_get. destruct (dget args "tokenizer_info") as [[| |k| | |]|] eqn:E1; cbn; try reflexivity. destruct (dget args "tensors") as [[|d| | | |]|] eqn:E2; cbn; try reflexivity.
    rewrite <- (pe_permute _ _ HE b k d dv) by exact (Hget _ _ E2). destruct (e_permute E' b k d); reflexivity.
  - rewrite !uargs_get. destruct (dget args "tensors") as [[|d| | | |]|] eqn:E2; cbn; try reflexivity. rewrite <- (pe_method _ _ HE t d dv) by exact (Hget _ _ E2). destruct (e_method E' t d); reflexivity.
  - reflexivity.
  - rewrite !uargs_get. destruct (dget args "writer") as [[| | | | |]|]; cbn; try reflexivity. destruct (dget args "tensor") as [[x| | | | |]|]; cbn; try reflexivity. apply save_unplaced.
  - rewrite !uargs_get. destruct (dget args "writer") as [[| | | | |]|]; cbn; reflexivity.
  - rewrite !uargs_get. destruct (dget args "tensor") as [[x| | | | |]|]; cbn; try reflexivity. apply return_unplaced.
Qed.

End Run.

(** environments that agree on tensors on device [dv] *)
Section Agree.
Context {M : Type} `{Eqb M} {T K : Type}.
Variable E : env M T K.
Variables E' E'' : env M (device * T) K.
Lemma cast_agree o x : (forall s x, e_cast E'' s x = e_cast E' s x) -> cast E'' o x = cast E' o x.
Proof. intros Hc. unfold cast. destruct o as [s|]; [|reflexivity]. now rewrite Hc. Qed.
Lemma exec_agree cur read dv l args :
  (forall m, e_str E'' m = e_str E' m) -> e_tokenizer E'' = e_tokenizer E' -> (forall s x, e_cast E'' s x = e_cast E' s x) ->
  (forall t, l = LMerge t -> forall d, together dv d -> e_method E'' t d = e_method E' t d) ->
  (forall b, l = LPermute b -> forall k d, together dv d -> e_permute E'' b k d = e_permute E' b k d) ->
  (forall k v, In (k, v) args -> value_on dv v) -> exec_on E E'' cur read l args = exec_on E E' cur read l args.
Proof.
  intros H1 H2 H3 H4 H5 Hon. assert (Hget : forall k v, dget args k = Some v -> value_on dv v) by (intros k v Hk; eapply Hon, dget_In; eauto).
  destruct l as [m tn dt op al ti|g dt| |b|t| |nm op dt| |w dt]; cbn [exec_on exec].
  - reflexivity.
  - unfold exec_gather.
    replace (dict_of (map (fun mw : M * Arch.Model.weight_info => (arg_key E'' mw, fst mw)) g)) with (dict_of (map (fun mw : M * Arch.Model.weight_info => (arg_key E' mw, fst mw)) g))
      by (f_equal; apply map_ext; intros mw; unfold arg_key; now rewrite H1). reflexivity.
  - now rewrite H2.
  - destruct (dget args "tokenizer_info") as [[| |k| | |]|] eqn:E1; try reflexivity. destruct (dget args "tensors") as [[|d| | | |]|] eqn:E2; try reflexivity. now rewrite (H5 b eq_refl k d (Hget _ _ E2)).
  - destruct (dget args "tensors") as [[|d| | | |]|] eqn:E2; try reflexivity. now rewrite (H4 t eq_refl d (Hget _ _ E2)).
  - reflexivity.
  - destruct (dget args "writer") as [[| | | | |]|]; try reflexivity. destruct (dget args "tensor") as [[[x|]| | | | |]|]; try reflexivity. unfold exec_save. now rewrite cast_agree.
  - reflexivity.
  - destruct (dget args "tensor") as [[[x|]| | | | |]|]; try reflexivity. unfold exec_return. now rewrite cast_agree.
Qed.
End Agree.
