(** Model of [LoaderCache] (mergekit/io/tasks.py 20-56) shared by the threads of a process, and of the part of [run_merge]
    that fills it (mergekit/merge.py 43-60).

    [loaders] is one dictionary for all threads; the settings are attributes of an instance per thread. Calls of [get] by
    different threads interleave between the lookup, the opening and the storing of a loader. *)
From Verif.Base Require Import Py.
Local Open Scope list_scope.

(** the attributes of an instance; class attributes (22-26) until [setup] is called in the thread *)
Record settings := { st_lora_cache : option string; st_hf_cache : option string; st_lazy : bool; st_trust : bool; st_lora_dtype : option string }.
Definition unset : settings := {| st_lora_cache := None; st_hf_cache := None; st_lazy := false; st_trust := false; st_lora_dtype := None |}.
(** the fields of MergeOptions (mergekit/options.py 18-41) that concern reading *)
Record options := { o_lora_merge_cache : option string; o_transformers_cache : option string; o_lazy_unpickle : bool;
                    o_trust_remote_code : bool; o_lora_merge_dtype : option string }.
(** [setup] (50-55) *)
Definition setup (o : options) : settings :=
  {| st_lora_cache := o_lora_merge_cache o; st_hf_cache := o_transformers_cache o; st_lazy := o_lazy_unpickle o;
     st_trust := o_trust_remote_code o; st_lora_dtype := o_lora_merge_dtype o |}.

Section Cache.
(** [M] models, [L] loaders, [D] states of the disk *)
Context {M : Type} `{Eqb M} {L D : Type}.
(** [ModelReference.merged(cache_dir, trust_remote_code, lora_merge_dtype)] and [lazy_loader(cache_dir, lazy_unpickle)] *)
Variable merged : D -> M -> option string -> bool -> option string -> result M.
Variable lazy_loader : D -> M -> option string -> bool -> result L.

(** 37-45, the disk being [d] when adapters are merged and [d'] when the index is read *)
Definition open_loader (s : settings) (d d' : D) (m : M) : result L :=
  let! m' := merged d m (st_lora_cache s) (st_trust s) (st_lora_dtype s) in
  lazy_loader d' m' (st_hf_cache s) (st_lazy s).

(** where a thread is in [get] (36-46) *)
Inductive place :=
| Idle
| Missing (m : M)            (* 37 is true *)
| Opened (m : M) (l : L)     (* the right-hand side of 43 *)
| Found (m : M).             (* before 46 *)
Record state := {
  s_loaders : dict M L;                    (* 21 *)
  s_settings : dict nat settings;          (* 29-34: the instances, by thread *)
  s_place : nat -> place }.
Definition at_place (f : nat -> place) (t : nat) (p : place) : nat -> place := fun u => if Nat.eqb u t then p else f u.
Definition settings_of (s : state) (t : nat) : settings := match dget (s_settings s) t with Some x => x | None => unset end.

Inductive action :=
| Setup (t : nat) (o : options)
| Enter (t : nat) (m : M)
| Open (t : nat) (d d' : D)
| Store (t : nat)
| Return (t : nat).
(** one step; [None] if the thread is somewhere else. The second component is the loader a call returned. *)
Definition act (s : state) (a : action) : option (state * list (nat * M * L)) :=
  match a with
  | Setup t o =>
      match s_place s t with
      | Idle => Some ({| s_loaders := s_loaders s; s_settings := dset (s_settings s) t (setup o); s_place := s_place s |}, [])
      | _ => None
      end
  | Enter t m =>
      match s_place s t with
      | Idle => Some ({| s_loaders := s_loaders s; s_settings := s_settings s;
                         s_place := at_place (s_place s) t (if dmem (s_loaders s) m then Found m else Missing m) |}, [])
      | _ => None
      end
  | Open t d d' =>
      match s_place s t with
      | Missing m => Some ({| s_loaders := s_loaders s; s_settings := s_settings s;
                              s_place := at_place (s_place s) t (match open_loader (settings_of s t) d d' m with Ok l => Opened m l | Err _ => Idle end) |}, [])
      | _ => None
      end
  | Store t =>
      match s_place s t with
      | Opened m l => Some ({| s_loaders := dset (s_loaders s) m l; s_settings := s_settings s; s_place := at_place (s_place s) t (Found m) |}, [])
      | _ => None
      end
  | Return t =>
      match s_place s t with
      | Found m => match dget (s_loaders s) m with
                   | Some l => Some ({| s_loaders := s_loaders s; s_settings := s_settings s; s_place := at_place (s_place s) t Idle |}, [(t, m, l)])
                   | None => None
                   end
      | _ => None
      end
  end.
Fixpoint acts (s : state) (l : list action) : option (state * list (nat * M * L)) :=
  match l with
  | [] => Some (s, [])
  | a :: l => match act s a with
              | Some (s', r) => match acts s' l with Some (s'', r') => Some (s'', r ++ r') | None => None end
              | None => None
              end
  end.

(** [get] when no other thread is running *)
Definition get (s : state) (t : nat) (m : M) (dd : D * D) : result (state * L) :=
  match dget (s_loaders s) m with
  | Some l => Ok (s, l)
  | None => let! l := open_loader (settings_of s t) (fst dd) (snd dd) m in
            Ok ({| s_loaders := dset (s_loaders s) m l; s_settings := s_settings s; s_place := s_place s |}, l)
  end.
(** merge.py 43-60 in the main thread, which is thread 0; [ds m] are the states of the disk when [m] is opened *)
Fixpoint warm_up (s : state) (ms : list M) (ds : M -> D * D) : result state :=
  match ms with
  | [] => Ok s
  | m :: ms => let! x := get s 0 m (ds m) in warm_up (fst x) ms ds
  end.
Definition start_run (s : state) (o : options) (referenced : list M) (ds : M -> D * D) : result state :=
  warm_up {| s_loaders := s_loaders s; s_settings := dset (s_settings s) 0 (setup o); s_place := s_place s |} referenced ds.
End Cache.
Arguments state : clear implicits. Arguments action : clear implicits. Arguments place : clear implicits.
