(** Model of mergekit/io/tensor_writer.py, io/lazy_tensor_loader.py and the shard loaders of io/loader.py.

    A directory is a finite map from file names to file contents. Tensors are an abstract type [T] with a byte size;
    serialisation by safetensors / torch is taken to be lossless (what is written to one file is what is read from it).
    Not modelled: devices, contiguity and cloning of tensors (67-71, they do not change values), logging, the
    share-memory retry of [_save_st] (198-221; it writes the same values), [ShardedTensorIndex.shards]. *)
From Verif.Base Require Import Py PyStr.
Local Open Scope string_scope.
Local Open Scope list_scope.

Section IO.
Context {T : Type} (nbytes : T -> nat).

(** ** Files *)
Inductive content :=
| FShard (safe : bool) (d : dict string T)   (** a complete safetensors ([true]) / torch ([false]) file *)
| FIndex (total : Z) (wm : dict string string) (** a complete [*.index.json] *)
| FPartial                                    (** opened for writing, not completely written *)
| FOther.                                     (** anything else *)
Definition fs := dict string content.

(** the file-system operations of the writer; a crash happens between two of them *)
Inductive op :=
| OWrite (name : string) (c : content)      (** [open(.., "w")] followed by writing everything: see [expand] *)
| OTouch (name : string)                    (** the file exists, contents incomplete *)
| ORename (old new : string).               (** [os.rename]; atomic *)

Definition apply (o : op) (f : fs) : result fs :=
  match o with
  | OWrite n c => Ok (dset f n c)
  | OTouch n => Ok (dset f n FPartial)
  | ORename a b => match dget f a with
                   | Some c => Ok (dset (ddel f a) b c)
                   | None => Err OSError_
                   end
  end.
Fixpoint apply_all (os : list op) (f : fs) : result fs :=
  match os with [] => Ok f | o :: os => let! f' := apply o f in apply_all os f' end.

(** writing a file: it appears incomplete, then it is complete *)
Definition write_file (n : string) (c : content) : list op := [OTouch n; OWrite n c].

(** ** TensorWriter (tensor_writer.py) *)
Record writer := {
  w_safe : bool;
  w_basename : option string;      (* override_basename *)
  w_max : Z;                       (* max_shard_size *)
  w_written : nat;                 (* shards_written *)
  w_map : dict string string;      (* weight_map *)
  w_cur : dict string T;           (* current_shard *)
  w_cur_size : nat;
  w_total : nat
}.

(** __init__ (33-59) *)
Definition new_writer (safe : bool) (base : option string) (max : Z) : writer :=
  {| w_safe := safe; w_basename := base; w_max := max; w_written := 0; w_map := []; w_cur := []; w_cur_size := 0; w_total := 0 |}.

(** _get_name_components (189-196) *)
Definition prefix_of (w : writer) : string :=
  match w_basename w with
  | Some b => if eqb b "" then (if w_safe w then "model" else "pytorch_model") else b
  | None => if w_safe w then "model" else "pytorch_model"
  end.
Definition ext_of (w : writer) : string := if w_safe w then "safetensors" else "bin".

(** the temporary shard name (103): [idx] counts from 0 *)
Definition tmp_name (w : writer) (idx : nat) : string :=
  (prefix_of w ++ "-" ++ str_of_Z (Z.of_nat idx + 1) ++ "." ++ ext_of w)%string.

(** _flush_current_shard (85-121): the new state and the file to write, if any *)
Definition flush (w : writer) : writer * option (string * content) :=
  match w_cur w with
  | [] => (w, None)
  | cur => let name := tmp_name w (w_written w) in
           ({| w_safe := w_safe w; w_basename := w_basename w; w_max := w_max w; w_written := S (w_written w);
               w_map := fold_left (fun m kv => dset m (fst kv) name) cur (w_map w);
               w_cur := []; w_cur_size := 0; w_total := w_total w + w_cur_size w |},
            Some (name, FShard (w_safe w) cur))
  end.

(** save_tensor (67-83) *)
Definition save_tensor (w : writer) (name : string) (t : T) : writer * option (string * content) :=
  let sz := nbytes t in
  let (w, job) := match w_cur w with
                  | [] => (w, None)
                  | _ => if ((w_max w >? 0) && (Z.of_nat (w_cur_size w + sz) >? w_max w))%Z%bool then flush w else (w, None)
                  end in
  ({| w_safe := w_safe w; w_basename := w_basename w; w_max := w_max w; w_written := w_written w; w_map := w_map w;
      w_cur := dset (w_cur w) name t; w_cur_size := w_cur_size w + sz; w_total := w_total w |}, job).

(** all saves, then the flush at the start of finalize (134-135); the shard files in the order they are dispatched *)
Fixpoint save_all (w : writer) (saves : list (string * T)) : writer * list (string * content) :=
  match saves with
  | [] => let (w, j) := flush w in (w, match j with Some x => [x] | None => [] end)
  | (n, t) :: r => let (w1, j) := save_tensor w n t in
                   let (w2, js) := save_all w1 r in
                   (w2, match j with Some x => x :: js | None => js end)
  end.

(** [f"{i:05d}"] *)
Fixpoint zeros (n : nat) : string := match n with O => "" | S n => String "0" (zeros n) end.
Definition pad5 (z : Z) : string := (zeros (5 - String.length (str_of_Z z)) ++ str_of_Z z)%string.

(** finalize, after the writes (147-187) *)
Definition final_name (w : writer) (total idx : nat) : string :=
  (prefix_of w ++ "-" ++ pad5 (Z.of_nat idx + 1) ++ "-of-" ++ pad5 (Z.of_nat total) ++ "." ++ ext_of w)%string.
Definition single_name (w : writer) : string := (prefix_of w ++ "." ++ ext_of w)%string.
Definition index_name (w : writer) : string := (prefix_of w ++ "." ++ ext_of w ++ ".index.json")%string.
Definition name_remap (w : writer) : dict string string :=
  if Nat.eqb (w_written w) 1 then [(tmp_name w 0, single_name w)]
  else dict_of (map (fun i => (tmp_name w i, final_name w (w_written w) i)) (seq 0 (w_written w))).
Definition finalize_ops (w : writer) : list op :=
  map (fun on => ORename (fst on) (snd on)) (name_remap w) ++
  (if Nat.ltb 1 (w_written w)
   then write_file (index_name w)
          (FIndex (Z.of_nat (w_total w))
             (map (fun kv => (fst kv, match dget (name_remap w) (snd kv) with Some n => n | None => snd kv end)) (w_map w)))
   else []).

(** a synchronous run: every flush writes its shard at once *)
Definition sync_ops (safe : bool) (base : option string) (max : Z) (saves : list (string * T)) : list op :=
  let (w, jobs) := save_all (new_writer safe base max) saves in
  flat_map (fun j => write_file (fst j) (snd j)) jobs ++ finalize_ops w.

(** an asynchronous run (102-121, 137-146): the shard writes are executed by worker threads, their file-system
    operations interleave arbitrarily ([merged]; the main thread only touches the directory after all of them have
    stopped). A worker writes its file completely ([None]) or stops somewhere with an exception. [finalize] waits for
    the futures in dispatch order and re-raises the first exception; only otherwise does it rename and write the index. *)
Inductive merged {X} : list (list X) -> list X -> Prop :=
| mg_done ls : Forall (fun l => l = []) ls -> merged ls []
| mg_step l1 x xs l2 q : merged (l1 ++ xs :: l2) q -> merged (l1 ++ (x :: xs) :: l2) (x :: q).

Definition worker_ops (job : string * content) (outcome : option exn) (ops : list op) : Prop :=
  match outcome with
  | None => ops = write_file (fst job) (snd job)
  | Some _ => exists rest, write_file (fst job) (snd job) = ops ++ rest
  end.
Inductive workers : list (string * content) -> list (option exn) -> list (list op) -> Prop :=
| wk_nil : workers [] [] []
| wk_cons job jobs o outs ops opss :
    worker_ops job o ops -> workers jobs outs opss -> workers (job :: jobs) (o :: outs) (ops :: opss).
Fixpoint first_error (outs : list (option exn)) : option exn :=
  match outs with [] => None | Some e :: _ => Some e | None :: outs => first_error outs end.

(** the directory afterwards and the exception raised, if any *)
Inductive async_run (safe : bool) (base : option string) (max : Z) (saves : list (string * T)) (f : fs)
  : result (fs * option exn) -> Prop :=
| ar_run w jobs outs opss q :
    save_all (new_writer safe base max) saves = (w, jobs) ->
    workers jobs outs opss -> merged opss q ->
    async_run safe base max saves f
      (match first_error outs with
       | Some e => let! f' := apply_all q f in Ok (f', Some e)
       | None => let! f' := apply_all (q ++ finalize_ops w) f in Ok (f', None)
       end).

(** ** ShardedTensorIndex (lazy_tensor_loader.py:33-103) *)
Record index := { ix_paths : dict string string }.

Definition exists_ (f : fs) (n : string) : bool := dmem f n.

(** [s.endswith(suf)] *)
Definition ends_with (suf s : string) : bool :=
  Nat.leb (String.length suf) (String.length s) &&
  eqb (String.substring (String.length s - String.length suf) (String.length suf) s) suf.

(** from_file (81-103). A torch file that has a "state_dict" entry is unwrapped: here that entry is a tensor, and
    iterating over it does not give tensor names. *)
Definition from_file (f : fs) (n : string) : result index :=
  match dget f n with
  | None => Err OSError_
  | Some (FShard safe d) =>
      if ends_with ".safetensors" n
      then if safe then Ok {| ix_paths := map (fun kv => (fst kv, n)) d |} else Err RuntimeError
      else if safe then Err RuntimeError
           else if dmem d "state_dict" then Err TypeError
           else Ok {| ix_paths := map (fun kv => (fst kv, n)) d |}
  | Some _ => Err RuntimeError
  end.

(** from_disk (33-79) *)
Definition find_model (f : fs) : option string :=
  if exists_ f "model.safetensors" || exists_ f "model.safetensors.index.json" then Some "model.safetensors"
  else if exists_ f "pytorch_model.bin" || exists_ f "pytorch_model.bin.index.json" then Some "pytorch_model.bin"
  else None.
Definition from_disk (f : fs) : result index :=
  match find_model f with
  | None => Err RuntimeError
  | Some m =>
      match dget f (m ++ ".index.json")%string with
      | Some (FIndex _ wm) => Ok {| ix_paths := wm |}
      | Some _ => Err ValueError      (* json.JSONDecodeError *)
      | None => from_file f m
      end
  end.

(** ** TensorLoader.get and the opened shards (loader.py:24-79) *)
Definition open_shard (f : fs) (n : string) : result (dict string T) :=
  match dget f n with
  | None => Err OSError_
  | Some (FShard safe d) => if Bool.eqb safe (ends_with ".safetensors" n) then Ok d else Err RuntimeError
  | Some _ => Err RuntimeError
  end.

(** ** LazyTensorLoader (118-153). The state is the shard that is open, if any. *)
Definition loader_state := option (dict string T).

(** the key to look for: [key], or the first alias that is indexed when [key] is not *)
Definition resolve (ix : index) (key : string) (aliases : list string) : string :=
  if dmem (ix_paths ix) key then key
  else match find (fun a => dmem (ix_paths ix) a) aliases with Some a => a | None => key end.

Definition get_tensor (f : fs) (ix : index) (st : loader_state) (key : string) (aliases : list string) (raise : bool)
  : loader_state * result (option T) :=
  let key := resolve ix key aliases in
  let cached := match st with Some d => if dmem d key then Some d else None | None => None end in
  match cached with
  | Some d => (st, match dget d key with Some t => Ok (Some t) | None => Err KeyError end)
  | None =>
      match dget (ix_paths ix) key with
      | None => (st, if raise then Err KeyError else Ok None)
      | Some file =>
          match open_shard f file with
          | Err e => (None, Err e)
          | Ok d => (Some d, match dget d key with Some t => Ok (Some t) | None => Err KeyError end)
          end
      end
  end.

Inductive call := CGet (key : string) (aliases : list string) (raise : bool) | CFlush.
Definition do_call (f : fs) (ix : index) (st : loader_state) (c : call) : loader_state :=
  match c with CGet k a r => fst (get_tensor f ix st k a r) | CFlush => None end.
Definition after (f : fs) (ix : index) (history : list call) : loader_state :=
  fold_left (do_call f ix) history None.
End IO.
Arguments content T : clear implicits.
Arguments fs T : clear implicits.
Arguments writer T : clear implicits.
Arguments op T : clear implicits.
