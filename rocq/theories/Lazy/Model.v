(** Model of mergekit/io/lazy_unpickle.py: reading tensors out of a torch zip archive without unpickling storages.

    An archive is a finite map from member names to bytes. [zipfile] is modelled by what ZipExtFile does: [tell] on a
    closed file raises, seeking forward stops at the end of the member, [read n] returns up to [n] bytes. Not modelled:
    the pickle opcodes (the stream is represented by the arguments it gives to [_rebuild_tensor_v2] and
    [persistent_load]), devices and map locations, the monkeypatching in [torch_lazy_load] (154-178). *)
From Verif.Base Require Import Py PyStr.
Local Open Scope string_scope.
Local Open Scope list_scope.

Section Lazy.
Context {B : Type}.          (* a byte *)

Record archive := { a_name : string; a_members : dict string (list B) }.

(** ** TorchArchiveReader (106-151) *)
(** [self.file]: the bytes of the open member, the position in it, and whether it has been closed *)
Record handle := { h_data : list B; h_pos : nat; h_closed : bool }.
Record reader := { r_file_name : option string; r_file : option handle; r_opens : nat }.
Definition new_reader : reader := {| r_file_name := None; r_file := None; r_opens := 0 |}.

(** the two attempts at 138-143 *)
Definition open_member (a : archive) (n : string) : result (list B) :=
  match dget (a_members a) ("archive/data/" ++ n)%string with
  | Some d => Ok d
  | None => match dget (a_members a) (a_name a ++ "/data/" ++ n)%string with
            | Some d => Ok d
            | None => Err KeyError
            end
  end.

Definition tell (h : handle) : result nat := if h_closed h then Err ValueError else Ok (h_pos h).

(** open_file (131-151). [r_opens] counts the successful opens. The condition at 132-134 is evaluated left to right. *)
Definition must_open (r : reader) (n : string) (off : nat) : result bool :=
  if negb (eqb (r_file_name r) (Some n)) then Ok true
  else match r_file r with
       | None => Ok false
       | Some h => let! p := tell h in Ok (Nat.ltb off p)
       end.
Definition close (r : reader) : reader :=
  {| r_file_name := r_file_name r;
     r_file := option_map (fun h => {| h_data := h_data h; h_pos := h_pos h; h_closed := true |}) (r_file r);
     r_opens := r_opens r |}.
Definition open_file (a : archive) (r : reader) (n : string) (off : nat) : reader * result unit :=
  match must_open r n off with
  | Err e => (r, Err e)
  | Ok re =>
      let (r, ok) := if re
                     then match open_member a n with
                          | Ok d => ({| r_file_name := Some n; r_file := Some {| h_data := d; h_pos := 0; h_closed := false |};
                                        r_opens := S (r_opens r) |}, Ok tt)
                          | Err e => (close r, Err e)
                          end
                     else (r, Ok tt) in
      match ok with
      | Err e => (r, Err e)
      | Ok _ =>
          match r_file r with
          | None => (r, Err AttributeError)
          | Some h =>
              match tell h with
              | Err e => (r, Err e)
              | Ok p => if Nat.ltb off p then (r, Err AssertionError)
                        else ({| r_file_name := r_file_name r;
                                 r_file := Some {| h_data := h_data h; h_pos := Nat.min off (length (h_data h)); h_closed := false |};
                                 r_opens := r_opens r |}, Ok tt)
              end
          end
      end
  end.

(** [f.read(n)] on the file just opened *)
Definition read (r : reader) (n : nat) : reader * result (list B) :=
  match r_file r with
  | Some h => let got := firstn n (skipn (h_pos h) (h_data h)) in
              ({| r_file_name := r_file_name r;
                  r_file := Some {| h_data := h_data h; h_pos := h_pos h + length got; h_closed := h_closed h |};
                  r_opens := r_opens r |}, Ok got)
  | None => (r, Err AttributeError)
  end.
Definition read_at (a : archive) (r : reader) (n : string) (off len : nat) : reader * result (list B) :=
  let (r, ok) := open_file a r n off in
  match ok with Ok _ => read r len | Err e => (r, Err e) end.

Definition request := (string * nat * nat)%type.     (* member, offset, length *)
Definition after (a : archive) (r : reader) (history : list request) : reader :=
  fold_left (fun r q => let '(n, off, len) := q in fst (read_at a r n off len)) history r.

(** ** dtypes (181-196) *)
Inductive dtype := F64 | F32 | F16 | BF16 | I64 | I32 | I16 | I8 | U8 | Bool_.
(** [dtype_bytes]: [torch.iinfo] does not accept [torch.bool] *)
Definition dtype_bytes (d : dtype) : result nat :=
  match d with
  | F64 | I64 => Ok 8 | F32 | I32 => Ok 4 | F16 | BF16 | I16 => Ok 2 | I8 | U8 => Ok 1
  | Bool_ => Err TypeError
  end.

(** ** DeferredLoad (43-89) *)
Record deferred := { d_name : string; d_dtype : dtype; d_file_offset : nat; d_shape : list nat; d_stride : list nat }.

(** [persistent_load] (98-103) on a storage, then [rebuild] (57-67): what unpickling one tensor does *)
Definition rebuild (key : string) (dt : dtype) (offset : nat) (shape stride : list nat) : result deferred :=
  let! b := dtype_bytes dt in
  Ok {| d_name := key; d_dtype := dt; d_file_offset := offset * b; d_shape := shape; d_stride := stride |}.

(** [reduce(operator.mul, shape)] *)
Definition reduce_mul (s : list nat) : result nat :=
  match s with [] => Err TypeError | x :: s => Ok (fold_left Nat.mul s x) end.

(** a loaded tensor: a buffer with shape and stride. [tensor.set_] grows a buffer that is too short, the new bytes are
    not read from the file; such bytes are [None] here. *)
Record tensor := { t_bytes : list B; t_itemsize : nat; t_shape : list nat; t_stride : list nat }.
Definition dot (idx stride : list nat) : nat := fold_right Nat.add 0 (map (fun p => fst p * snd p) (combine idx stride)).
Definition element (t : tensor) (idx : list nat) : list (option B) :=
  map (fun k => nth_error (t_bytes t) (dot idx (t_stride t) * t_itemsize t + k)) (seq 0 (t_itemsize t)).

(** execute (69-89) *)
Definition execute (a : archive) (r : reader) (d : deferred) : reader * result tensor :=
  match reduce_mul (d_shape d) with
  | Err e => (r, Err e)
  | Ok n =>
      match dtype_bytes (d_dtype d) with
      | Err e => (r, Err e)
      | Ok b => let (r, res) := read_at a r (d_name d) (d_file_offset d) (n * b) in
                (r, let! bytes := res in
                    Ok {| t_bytes := bytes; t_itemsize := b; t_shape := d_shape d; t_stride := d_stride d |})
      end
  end.
End Lazy.
Arguments archive B : clear implicits.
Arguments reader B : clear implicits.
Arguments handle B : clear implicits.
Arguments tensor B : clear implicits.
