(** Vocabulary for the statements about planning. *)
From Coq Require Import QArith.
From Verif.Base Require Import Py.
From Verif.Config Require Import Model.
From Verif.Arch Require Import Model.
From Verif.Plan Require Import Model.
Local Open Scope list_scope.

Section Spec.
Context {M : Type} `{Eqb M}.
Variable W : world M.

(** number of layers contributed by a slice (its first source decides; [range] of a negative number is empty) *)
Definition slice_layers (s : output_slice M) : nat :=
  match os_sources s with x :: _ => Z.to_nat (is_end x - is_start x) | [] => 0 end.
Definition total_layers (sls : list (output_slice M)) : nat := list_sum (map slice_layers sls).

(** [task] merges output weight [w] from [ins] (one entry per source), with the parameters read by [r] *)
Definition merges (r : reader M) (w : weight_info) (ins : list (M * weight_info)) (task : merge_task M) : Prop :=
  mt_weight task = w /\
  (forall m, In m (dkeys (mt_gather task)) <-> In m (map fst ins)) /\
  (NoDup (map fst ins) -> mt_gather task = ins) /\
  mt_permuted task = w_tokenizer W && wi_embed w /\
  mt_dtype task = mc_dtype (r_config r) /\
  mt_base task = reader_base r /\
  (NoDup (map pd_name (w_params W)) -> forall p, In p (w_params W) ->
     exists v, dget (mt_params task) (pd_name p) = Some v /\
       parameter (for_tensor r (wi_name w)) (pd_name p) None (pd_default p) (pd_required p) = Ok v) /\
  (NoDup (map fst ins) -> NoDup (map pd_name (w_tparams W)) ->
     forall m wi p, In (m, wi) ins -> In p (w_tparams W) ->
     exists d v, dget (mt_tparams task) m = Some d /\ dget d (pd_name p) = Some v /\
       parameter (for_tensor r (wi_name wi)) (pd_name p) (Some m) (pd_default p)
         (pd_required p && match reader_base r with Some b => negb (eqb m b) | None => true end) = Ok v).

(** what is planned for one output weight: one merge, or nothing for an optional weight that no source stores
    under its own name *)
Definition tensor_ok (r : reader M) (w : weight_info) (ins : list (M * weight_info))
    (part : list (weight_info * merge_task M)) : Prop :=
  (part = [] /\ wi_optional w = true /\ forall m wi, In (m, wi) ins -> ~ In (wi_name wi) (w_tensors W m)) \/
  (exists task, part = [(w, task)] /\ merges r w ins task /\
     (wi_optional w = true -> exists m wi, In (m, wi) ins /\ In (wi_name wi) (w_tensors W m))).

(** the plan of output layer [k], at offset [j] of slice [sl] *)
Definition layer_ok (c : merge_config M) (out_cfg : cfgval) (mdef : module_def) (def : output_module M)
    (sl : output_slice M) (j : nat) (k : nat) (part : list (weight_info * merge_task M)) : Prop :=
  exists t wout parts,
    (slice_layers sl = 1%nat -> t == 1) /\
    (1 < slice_layers sl -> t * inject_Z (Z.of_nat (slice_layers sl) - 1) == inject_Z (Z.of_nat j))%nat /\
    c_layer mdef (Z.of_nat k) out_cfg = Ok wout /\
    part = concat parts /\ length parts = length wout /\
    forall i w p, nth_error wout i = Some w -> nth_error parts i = Some p ->
      exists ins,
        Forall2 (fun s mw => fst mw = is_model s /\
                   exists ws, c_layer mdef (is_start s + Z.of_nat j) (w_cfg W (is_model s)) = Ok ws /\
                              nth_error ws i = Some (snd mw)) (os_sources sl) ins /\
        tensor_ok {| r_config := c; r_t := t; r_tensor := None; r_slice := Some sl; r_module := Some def |} w ins p.

(** the plan of the weights before or after the layers, [models] being the models consulted *)
Definition outer_ok (c : merge_config M) (def : output_module M) (sl : output_slice M) (models : list M)
    (ws : list weight_info) (part : list (weight_info * merge_task M)) : Prop :=
  exists parts, part = concat parts /\
    Forall2 (fun w p => tensor_ok {| r_config := c; r_t := 0; r_tensor := Some (wi_name w); r_slice := Some sl;
                                     r_module := Some def |}
                          w (map (fun m => (m, w)) models) p) ws parts.

(** [sub] is [full] with some entries dropped, each dropped one satisfying [P] *)
Inductive drops {A} (P : A -> Prop) : list A -> list A -> Prop :=
| drops_nil : drops P [] []
| drops_keep x full sub : drops P full sub -> drops P (x :: full) (x :: sub)
| drops_drop x full sub : P x -> drops P full sub -> drops P (x :: full) sub.
End Spec.
