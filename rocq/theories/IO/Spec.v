(** Vocabulary for C15-C20. *)
From Verif.Base Require Import Py.
From Verif.IO Require Import Model.
Local Open Scope string_scope.
Local Open Scope list_scope.

Section Spec.
Context {T : Type}.

(** [t] is the last tensor saved under [n] *)
Definition last_saved (saves : list (string * T)) (n : string) (t : T) : Prop :=
  exists l1 l2, saves = l1 ++ (n, t) :: l2 /\ ~ In n (map fst l2).

(** the directory is a model holding exactly the saved tensors, as seen by a fresh loader *)
Definition loads (f : fs T) (saves : list (string * T)) : Prop :=
  exists ix, from_disk f = Ok ix /\
    (forall n, In n (dkeys (ix_paths ix)) <-> In n (map fst saves)) /\
    (forall n t, last_saved saves n t -> snd (get_tensor f ix None n [] true) = Ok (Some t)).

(** ... and for every history of reads and flushes *)
Definition loads_always (f : fs T) (saves : list (string * T)) : Prop :=
  exists ix, from_disk f = Ok ix /\
    (forall n, In n (dkeys (ix_paths ix)) <-> In n (map fst saves)) /\
    (forall history n t, last_saved saves n t -> snd (get_tensor f ix (after f ix history) n [] true) = Ok (Some t)).

(** the loader does not recognise the directory as a model, or fails to open it *)
Definition unreadable (f : fs T) : Prop := exists e, from_disk f = Err e.

(** same directory contents *)
Definition same_dir (f g : fs T) : Prop := forall n, dget f n = dget g n.

(** every indexed key is in the shard the index names, and shards hold nothing else *)
Definition consistent (f : fs T) (ix : index) : Prop :=
  (forall k file, dget (ix_paths ix) k = Some file -> exists d, open_shard f file = Ok d /\ In k (dkeys d)) /\
  (forall k file d x, dget (ix_paths ix) k = Some file -> open_shard f file = Ok d -> In x (dkeys d) ->
     dget (ix_paths ix) x = Some file).

(** what a read should return: the value stored in the shard the index names for the key, or for the first indexed
    alias when the key is not indexed *)
Definition stored (f : fs T) (ix : index) (k : string) : option T :=
  match dget (ix_paths ix) k with
  | Some file => match open_shard f file with Ok d => dget d k | Err _ => None end
  | None => None
  end.
Definition expected (f : fs T) (ix : index) (k : string) (aliases : list string) (raise : bool) : result (option T) :=
  match find (fun x => dmem (ix_paths ix) x) (k :: aliases) with
  | Some x => match stored f ix x with Some t => Ok (Some t) | None => Err KeyError end
  | None => if raise then Err KeyError else Ok None
  end.

(** bytes of a list of tensors *)
Definition bytes (nbytes : T -> nat) (l : list (string * T)) : nat := fold_right (fun kv n => nbytes (snd kv) + n) 0 l.

(** the name of shard [i] of [n] *)
Definition shard_file (safe : bool) (n i : nat) : string :=
  let (base, ext) := if safe then ("model", "safetensors") else ("pytorch_model", "bin") in
  if Nat.eqb n 1 then (base ++ "." ++ ext)%string
  else (base ++ "-" ++ pad5 (Z.of_nat i + 1) ++ "-of-" ++ pad5 (Z.of_nat n) ++ "." ++ ext)%string.
Definition index_file (safe : bool) : string :=
  if safe then "model.safetensors.index.json" else "pytorch_model.bin.index.json".

(** consecutive groups of saves, as the writer packs them into shards *)
Definition greedy (nbytes : T -> nat) (max : Z) (groups : list (list (string * T))) : Prop :=
  (forall g, In g groups -> g <> [] /\ ((Z.of_nat (bytes nbytes g) <= max)%Z \/ length g = 1)) /\
  (forall l1 g1 g2 l2, groups = l1 ++ g1 :: g2 :: l2 ->
     exists x g2', g2 = x :: g2' /\ (Z.of_nat (bytes nbytes g1 + nbytes (snd x)) > max)%Z).
End Spec.
