(** Model of [ModelReference.merged] (mergekit/common.py:100-140) and [ModelPath._unique_id] (83-88): merging an adapter
    into its model and keeping the result in a cache directory.

    The files that transformers and PEFT produce for a reference and a dtype are a parameter, in the order in which they
    are written. An attempt may raise or the process may die after any number of files. Strings are ASCII (UTF-8 encoding is the
    identity). Not modelled: two processes using the cache at once (the second sees the directory of the unfinished first
    attempt, as after a crash), [get_auto_cls]. *)
From Coq Require Import NArith.
From Verif.Base Require Import Py PyStr.
From Verif.Common Require Import Model.
Local Open Scope string_scope.
Local Open Scope list_scope.

(** [binascii.crc32] *)
Definition crc_bit (c : N) : N := if N.odd c then N.lxor (N.shiftr c 1) 3988292384 else N.shiftr c 1.
Definition crc_byte (c : N) (b : ascii) : N := Nat.iter 8 crc_bit (N.lxor c (N_of_ascii b)).
Fixpoint crc_run (c : N) (s : string) : N := match s with EmptyString => c | String b s => crc_run (crc_byte c b) s end.
Definition crc32 (s : string) : Z := Z.of_N (N.lxor (crc_run 4294967295 s) 4294967295).

(** [os.path.basename]: what follows the last separator *)
Fixpoint basename (s : string) : string :=
  match s with
  | EmptyString => ""
  | String c r => if has_char "/" r then basename r else if Ascii.eqb c "/" then r else s
  end.
(** [_unique_id] *)
Definition unique_id (p : model_path) : string := (basename (mp_path p) ++ "_" ++ str_of_Z (crc32 (str_path p)))%string.

(** [os.path.join(cache_dir, ..)] of a relative name *)
Definition join (dir name : string) : string :=
  match dir with
  | "" => name
  | _ => if eqb (substring (String.length dir - 1) 1 dir) "/" then (dir ++ name)%string else (dir ++ "/" ++ name)%string
  end.
Definition cache_path (dir : string) (model lora : model_path) : string :=
  join dir (unique_id model ++ "_" ++ unique_id lora)%string.

Section Cache.
Context {C : Type}.
Definition files := list (string * C).
Variable produced : model_ref -> option string -> files.   (** what [save_pretrained] writes for a reference and a dtype *)

(** how an attempt to merge goes *)
Inductive attempt := Completes | Raises (n : nat) (e : exn) | Dies (n : nat).
Definition left_by (a : attempt) (fs : files) : files :=
  match a with Completes => fs | Raises n _ => firstn n fs | Dies n => firstn n fs end.

Record call := { c_ref : model_ref; c_cache : option string; c_dtype : option string; c_attempt : attempt }.
Inductive outcome := Returned (r : model_ref) | Raised (e : exn) | Dead.
Definition plain_ref_to (path : string) : model_ref :=
  {| mr_model := {| mp_path := path; mp_revision := None |}; mr_lora := None; mr_arch := None |}.

(** the file system: the directories of merged models *)
Definition state := dict string files.
Definition merged (st : state) (c : call) : state * outcome :=
  match mr_lora (c_ref c) with
  | None => (st, Returned (c_ref c))
  | Some lora =>
      match c_cache c with
      | None | Some "" => (st, Raised RuntimeError)
      | Some dir =>
          let out := cache_path dir (mr_model (c_ref c)) lora in
          if dmem st out then (st, Returned (plain_ref_to out))
          else (dset st out (left_by (c_attempt c) (produced (c_ref c) (c_dtype c))),
                match c_attempt c with
                | Completes => Returned (plain_ref_to out)
                | Raises _ e => Raised e
                | Dies _ => Dead
                end)
      end
  end.
Fixpoint history (st : state) (cs : list call) : state * list outcome :=
  match cs with
  | [] => (st, [])
  | c :: cs => let (st1, o) := merged st c in let (st2, os) := history st1 cs in (st2, o :: os)
  end.
End Cache.
Arguments files : clear implicits.
Arguments state : clear implicits.
