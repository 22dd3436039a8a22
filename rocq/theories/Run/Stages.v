(** Merges of merges: several runs one after the other, in which a later run may read the directory an earlier one wrote
    (scripts/multimerge.py:28-63 executes one [run_merge] per named configuration; a merge named in another is replaced by
    its output directory, C39, and runs before it, C38).

    A directory is what [IO] models - the files that hold tensors. Tokenizers, configurations and architectures are those
    of the stage's world and environment, whatever was written before. Not modelled: skipping (C40). *)
From Coq Require Import QArith.
From Verif.Base Require Import Py.
From Verif.Config Require Import Model.
From Verif.Arch Require Import Model.
From Verif.Plan Require Import Model.
From Verif.Graph Require Import Model.
From Verif.IO Require Import Model Spec.
From Verif.Run Require Import Model Spec.
Local Open Scope string_scope.
Local Open Scope list_scope.

Section Stages.
Context {M : Type} `{Eqb M} {T K : Type}.

(** one merge: where its output goes, its configuration and the options of its writer; [st_convert m d n] is what checkpoint
    conversion makes of the directory [d] of model [m] for the tensor [n]; the directories in [st_env] are not used *)
Record stage := {
  st_out : M;
  st_world : world M;
  st_env : env M T K;
  st_convert : M -> fs T -> string -> result (option T);
  st_cfg : merge_config M;
  st_out_cfg : cfgval;
  st_safe : bool;
  st_max : Z
}.
(** the environment of the stage when the models are in the directories [D] *)
Definition at_dirs (st : stage) (D : M -> fs T) : env M T K :=
  let E := st_env st in
  {| e_str := e_str E; e_dir := D; e_hist := e_hist E; e_convert := fun m => st_convert st m (D m); e_cast := e_cast E;
     e_method := e_method E; e_tokenizer := e_tokenizer E; e_permute := e_permute E |}.
Definition st_plan (st : stage) : result (list (save_task M)) := plan_to_disk (st_world st) (st_cfg st) (st_out_cfg st).

Variable nbytes : T -> nat.
(** MergeModelTask.execute (multimerge.py:40-63): the run finishes, in some schedule, and its output directory - new or
    empty before - is what it wrote; no other directory changes *)
Definition step (D : M -> fs T) (st : stage) (D' : M -> fs T) : Prop :=
  exists saves A choose f',
    st_plan st = Ok saves /\
    (let r := run (at_dirs st D) A choose (disk_targets (at_dirs st D) (w_tokenizer (st_world st)) saves) in
     snd r = None /\ apply_all (ops_of nbytes (new_writer (st_safe st) None (st_max st)) (acts (fst r))) [] = Ok f') /\
    D' (st_out st) = f' /\ forall m, m <> st_out st -> D' m = D m.
(** the stages one after the other *)
Fixpoint stages (D : M -> fs T) (l : list stage) (D' : M -> fs T) : Prop :=
  match l with
  | [] => forall m, D' m = D m
  | st :: l => exists D1, step D st D1 /\ stages D1 l D'
  end.

(** * Vocabulary *)
(** the stage reads model [m] *)
Definition reads (st : stage) (m : M) : Prop :=
  exists saves s w, st_plan st = Ok saves /\ In s saves /\ In (m, w) (mt_gather (sv_task s)).
(** a fresh loader finds exactly these tensors, and the index agrees with the shards *)
Definition holds (f : fs T) (outs : list (string * T)) : Prop :=
  exists ix, from_disk f = Ok ix /\ consistent f ix /\
    (forall n, In n (dkeys (ix_paths ix)) <-> In n (map fst outs)) /\
    (forall n t, In (n, t) outs -> stored f ix n = Some t).
(** two directories with the same tensors, or both rejected in the same way *)
Definition same_model (f g : fs T) : Prop :=
  match from_disk f, from_disk g with
  | Ok ix, Ok jx => forall n, dmem (ix_paths ix) n = dmem (ix_paths jx) n /\ stored f ix n = stored g jx n
  | Err e, Err e' => e = e'
  | _, _ => False
  end.
(** the index of the directory, if it has one, agrees with its shards *)
Definition sound_dir (f : fs T) : Prop := forall ix, from_disk f = Ok ix -> consistent f ix.
(** a stage that can be run: its plan names tensors and sources apart and has a required tensor; conversion looks at nothing
    but the tensors *)
Definition proper (st : stage) : Prop :=
  (forall saves, st_plan st = Ok saves ->
     NoDup (map sv_name saves) /\ told_apart (st_env st) saves /\ (exists s, In s saves /\ sv_optional s = false) /\
     (st_safe st = true \/ ~ In "state_dict" (map sv_name saves))) /\
  (forall m f g n, same_model f g -> st_convert st m f n = st_convert st m g n).
(** no stage reads a directory that it or a later stage writes, and no two stages write to the same directory *)
Fixpoint in_order (l : list stage) : Prop :=
  match l with
  | [] => True
  | st :: l => (forall m, reads st m -> ~ In m (map st_out (st :: l))) /\ ~ In (st_out st) (map st_out l) /\ in_order l
  end.
End Stages.
Arguments stage : clear implicits.
