(** Model of mergekit/scripts/fill_missing_params.py: [copy_and_fill_missing_params] and the name utilities it uses.

    Directories are flat maps from file names to contents, as in [IO.Model]; the recursion into subdirectories of the
    base model (their non-weight files are copied too) and downloads are left out. The size-mismatch warning only logs.
    [Path.suffix] of a name is taken to be the text from its last dot, so that "suffix in {.safetensors, .bin}" is a
    test of the end of the name. *)
From Verif.Base Require Import Py PyStr.
From Verif.IO Require Import Model.
Local Open Scope string_scope.
Local Open Scope list_scope.

(** [name[n:]] *)
Fixpoint drop (n : nat) (s : string) : string :=
  match n, s with O, _ => s | S n, EmptyString => EmptyString | S n, String _ s => drop n s end.

(** [strip_prefix] (221-225) *)
Definition strip_prefix (name prefix : string) : string :=
  if negb (eqb prefix "") && String.prefix (prefix ++ ".")%string name then drop (String.length prefix + 1) name else name.

(** [item.split(".")[0]], and [None] for an item without a dot (234) *)
Fixpoint first_part (s : string) : option string :=
  match s with
  | EmptyString => None
  | String c s => if Ascii.eqb c "."%char then Some ""
                  else match first_part s with Some p => Some (String c p) | None => None end
  end.

(** number of names of [list2] found in the stripped [list1] (240-246) *)
Definition matches (list1 list2 : list string) (prefix : string) : nat :=
  let stripped := map (fun item => strip_prefix item prefix) list1 in
  length (filter (fun item => mem item stripped) list2).

(** [max(prefix_matches, key=prefix_matches.get)]: the first key with the largest value *)
Fixpoint argmax (f : string -> nat) (best : string) (l : list string) : string :=
  match l with [] => best | x :: l => if (f best <? f x)%nat then argmax f x l else argmax f best l end.

(** [find_prefix] (228-250). [order] is the iteration order of the Python set of first name parts: see [part_order]. *)
Definition find_prefix (order : list string) (list1 list2 : list string) : result string :=
  if (length list1 <? length list2)%nat then Err AssertionError
  else
    let cands := dedup ("" :: order) in
    let best := argmax (matches list1 list2) "" (tl cands) in
    Ok (if (matches list1 list2 "" <? matches list1 list2 best)%nat then best else "").
Definition part_order (list1 order : list string) : Prop :=
  NoDup order /\ forall p, In p order <-> exists item, In item list1 /\ first_part item = Some p.

(** [find_common_ordered_names([base, sub], ["", prefix])] (253-261) *)
Definition common_names (base sub : list string) (prefix : string) : list string :=
  let pre := if eqb prefix "" then "" else (prefix ++ ".")%string in
  filter (fun name => mem name (map (fun n => (pre ++ n)%string) sub)) base.

Section Fill.
Context {T : Type} (nbytes : T -> nat).

(** [load_tensor_from_file] / [load_tensor_from_index] (20-46): [safe_open] reads safetensors files only *)
Definition load_tensor (f : fs T) (ix : index) (name : string) : result T :=
  let! file := dgetE (ix_paths ix) name in
  match dget f file with
  | None => Err OSError_
  | Some (FShard true d) => match dget d name with Some t => Ok t | None => Err ValueError end
  | Some _ => Err RuntimeError
  end.

(** the files copied from the base model (103-120) *)
Definition is_weight_file (n : string) : bool := ends_with ".safetensors" n || ends_with ".bin" n.
Definition copy_files (base out : fs T) : fs T :=
  fold_left (fun o nc => if is_weight_file (fst nc) then o else dset o (fst nc) (snd nc)) base out.

(** the loop over the base model's tensors (148-170): what is saved under each name *)
Definition filled (base sub : fs T) (bix six : index) (prefix : string) : result (list (string * T)) :=
  let common := common_names (dkeys (ix_paths bix)) (dkeys (ix_paths six)) prefix in
  rmapM (fun name =>
    let! t := load_tensor base bix name in
    if mem name common then
      let! t := load_tensor sub six (strip_prefix name prefix) in Ok (name, t)
    else Ok (name, t)) (dkeys (ix_paths bix)).

(** [copy_and_fill_missing_params] (50-175); the output directory initially holds [out] *)
Definition copy_and_fill (order : list string) (base sub out : fs T) (max : Z) : result (fs T) :=
  let out := copy_files base out in
  let! bix := from_disk base in
  let! six := from_disk sub in
  if (length (dkeys (ix_paths bix)) <=? length (dkeys (ix_paths six)))%nat then Err AssertionError
  else
    let! prefix := find_prefix order (dkeys (ix_paths bix)) (dkeys (ix_paths six)) in
    let! saves := filled base sub bix six prefix in
    apply_all (sync_ops nbytes true None max saves) out.
End Fill.
