(** C97: what a command line says, independently of how it is parsed. *)
From Verif.Base Require Import Py PyFacts.
From Verif.Common Require Import Model Spec.
From Verif.Options Require Import Model.
Local Open Scope string_scope.
Local Open Scope list_scope.

(** the switches and the options with a value: field and name on the command line *)
Definition switches : list (string * string) :=
  [("allow_crimes", "allow-crimes"); ("cuda", "cuda"); ("low_cpu_memory", "low-cpu-memory"); ("copy_tokenizer", "copy-tokenizer");
   ("clone_tensors", "clone-tensors"); ("trust_remote_code", "trust-remote-code"); ("lazy_unpickle", "lazy-unpickle");
   ("write_model_card", "write-model-card"); ("safe_serialization", "safe-serialization"); ("quiet", "quiet");
   ("read_to_gpu", "read-to-gpu"); ("multi_gpu", "multi-gpu"); ("async_write", "async-write")].
Definition texts : list (string * string) :=
  [("transformers_cache", "transformers-cache"); ("lora_merge_cache", "lora-merge-cache"); ("lora_merge_dtype", "lora-merge-dtype"); ("device", "device")].
Definition numbers : list (string * string) :=
  [("random_seed", "random-seed"); ("num_threads", "num-threads"); ("write_threads", "write-threads")].
Definition sizes : list (string * string) := [("out_shard_size", "out-shard-size")].

(** the things a command line consists of *)
Inductive item :=
| Switch (f name : string) (on : bool)
| Value (f name s : string) (joined : bool)
| Rich
| Verbose (more : nat)
| Jobs (s : string) (joined : bool)
| Argument (s : string).
Fixpoint vs (n : nat) : string := match n with O => "" | S n => String "v" (vs n) end.
Definition written (i : item) : list string :=
  match i with
  | Switch _ name on => [if on then "--" ++ name else "--no-" ++ name]%string
  | Value _ name s true => ["--" ++ name ++ "=" ++ s]%string
  | Value _ name s false => ["--" ++ name; s]%string
  | Rich => ["--gpu-rich"]
  | Verbose n => [String "-" (vs (S n))]
  | Jobs s true => [String "-" (String "j" s)]
  | Jobs s false => ["-j"; s]
  | Argument s => [s]
  end.
Definition good (i : item) : Prop :=
  match i with
  | Switch f name _ => In (f, name) switches
  | Value f name _ _ => In (f, name) (texts ++ numbers ++ sizes)
  | Jobs s true => s <> ""
  | Argument s => forall r, s = String "-" r -> r = ""
  | _ => True
  end.
Definition line (items : list item) : list string := concat (map written items).

(** what they say *)
Inductive said := Text (s : string) | On (b : bool).
Definition says (f : string) (i : item) : option said :=
  match i with
  | Switch g _ on => if String.eqb g f then Some (On on) else None
  | Value g _ s _ => if String.eqb g f then Some (Text s) else None
  | Rich => if String.eqb f "gpu_rich" then Some (On true) else None
  | Jobs s _ => if String.eqb f "num_threads" then Some (Text s) else None
  | _ => None
  end.
(** the last item about a field counts *)
Fixpoint last_said (f : string) (items : list item) : option said :=
  match items with
  | [] => None
  | i :: items => match last_said f items with Some x => Some x | None => says f i end
  end.
Definition loudness (items : list item) : nat := list_sum (map (fun i => match i with Verbose n => S n | _ => 0 end) items).
Definition arguments (items : list item) : list string := concat (map (fun i => match i with Argument s => [s] | _ => [] end) items).

(** the documented defaults *)
Definition defaults : list (string * oval) :=
  [("copy_tokenizer", OBool true); ("write_model_card", OBool true); ("safe_serialization", OBool true);
   ("allow_crimes", OBool false); ("clone_tensors", OBool false); ("trust_remote_code", OBool false); ("lazy_unpickle", OBool false);
   ("quiet", OBool false); ("async_write", OBool false); ("gpu_rich", OBool false);
   ("transformers_cache", ONone); ("lora_merge_cache", ONone); ("lora_merge_dtype", ONone); ("random_seed", ONone); ("num_threads", ONone);
   ("out_shard_size", OInt 5000000000); ("write_threads", OInt 1)].
Definition device_flags : list string := ["cuda"; "low_cpu_memory"; "read_to_gpu"; "multi_gpu"].

(** the value a text stands for *)
Definition stands_for (f s : string) (v : oval) : Prop :=
  (In f (map fst texts) /\ v = OStr s) \/ (In f (map fst numbers) /\ exists z, int_literal s z /\ v = OInt z) \/
  (In f (map fst sizes) /\ exists z, parse_kmb s = Ok z /\ v = OInt z).
Definition means (items : list item) (f : string) (default v : oval) : Prop :=
  match last_said f items with None => v = default | Some (On b) => v = OBool b | Some (Text s) => stands_for f s v end.
(** a flag is set: the last item about it switches it on *)
Definition is_on (items : list item) (f : string) : bool := match last_said f items with Some (On b) => b | _ => false end.
