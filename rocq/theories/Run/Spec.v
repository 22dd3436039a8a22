(** Vocabulary for the statements about whole runs: what the output should be, without tasks, schedules or writers. *)
From Coq Require Import QArith.
From Verif.Base Require Import Py.
From Verif.Config Require Import Model.
From Verif.Arch Require Import Model.
From Verif.Plan Require Import Model.
From Verif.Graph Require Import Model.
From Verif.IO Require Import Model Spec.
From Verif.Run Require Import Model.
Local Open Scope string_scope.
Local Open Scope list_scope.

Section Spec.
Context {M : Type} `{Eqb M} {T K : Type}.
Variable E : env M T K.

(** the tensor stored for a source weight: under its name, else under the first alias, else under the first tied name
    that the model has; else what checkpoint conversion makes of it *)
Definition stored_for (mw : M * weight_info) : result (option T) :=
  let (m, w) := mw in
  let! ix := from_disk (e_dir E m) in
  match find (fun n => dmem (ix_paths ix) n) (wi_name w :: names_of (wi_aliases w) ++ names_of (wi_tied w)) with
  | Some n => if eqb n "" then converted E m (wi_name w :: names_of (wi_aliases w))
              else match stored (e_dir E m) ix n with Some x => Ok (Some x) | None => Err KeyError end
  | None => converted E m (wi_name w :: names_of (wi_aliases w))
  end.

(** what a source contributes to a merge: its tensor in the dtype forced by the architecture, else in the given one;
    nothing for an optional weight it does not have *)
Definition source (dtype : option string) (mw : M * weight_info) : result (option T) :=
  let! x := stored_for mw in
  match x with
  | None => if wi_optional (snd mw) then Ok None else Err RuntimeError
  | Some x => let! y := cast E (or_str (wi_dtype (snd mw)) dtype) x in Ok (Some y)
  end.

Definition present (xs : list (M * option T)) : dict M T :=
  flat_map (fun mx => match snd mx with Some x => [(fst mx, x)] | None => [] end) xs.

(** the merged tensor: the method applied to what the sources contribute, after the embedding permutation if any *)
Definition merged_tensor (t : merge_task M) : result (option T) :=
  let contributions := rmapM (fun mw => let! x := source (mt_dtype t) mw in Ok (fst mw, x)) (mt_gather t) in
  let! ds := if mt_permuted t
             then let! k := e_tokenizer E in let! xs := contributions in e_permute E (mt_base t) k (present xs)
             else let! xs := contributions in Ok (present xs) in
  e_method E t ds.

(** the tensor saved for an output weight, in the output dtype; nothing for an optional weight without value *)
Definition output (s : save_task M) : result (option T) :=
  let! x := merged_tensor (sv_task s) in
  match x with
  | None => if sv_optional s then Ok None else Err RuntimeError
  | Some x => let! y := cast E (sv_dtype s) x in Ok (Some y)
  end.

(** [outs] is the output of the run: one entry per planned tensor that has a value *)
Definition outputs (saves : list (save_task M)) : list (string * T) :=
  flat_map (fun s => match output s with Ok (Some x) => [(sv_name s, x)] | _ => [] end) saves.
(** every planned tensor can be computed, and so can the tokenizer if one is wanted *)
Definition computable (tokenizer : bool) (saves : list (save_task M)) : Prop :=
  (forall s, In s saves -> exists x, output s = Ok x) /\
  (tokenizer = true -> exists k, e_tokenizer E = Ok k).

(** the argument names of a [GatherTensors] task tell its sources apart *)
Definition told_apart (saves : list (save_task M)) : Prop :=
  forall s, In s saves -> NoDup (map (arg_key E) (mt_gather (sv_task s))).
(** the input models have consistent indices (C20) *)
Definition inputs_consistent (saves : list (save_task M)) : Prop :=
  forall s m w ix, In s saves -> In (m, w) (mt_gather (sv_task s)) -> from_disk (e_dir E m) = Ok ix ->
    consistent (e_dir E m) ix.
End Spec.
