(** Model of mergekit/scripts/multimerge.py. *)
From Verif.Base Require Import Py PyStr.
From Verif.Common Require Import Model.
From Verif.Graph Require Import Model.
From Verif.IO Require Model.
Local Open Scope string_scope.
Local Open Scope list_scope.

(** ** patched_config (124-168) *)
(** the result of [config.model_dump()]; [VAtom 0] is None, other atoms are numbers and booleans *)
Inductive val := VStr (s : string) | VAtom (n : Z) | VList (l : list val) | VDict (d : list (string * val)).

(** os.path.join for two components *)
Definition ends_slash (s : string) : bool :=
  match split_last s with Some (_, c) => Ascii.eqb c "/" | None => false end.
Definition path_join (a b : string) : string :=
  match b with
  | String "/" _ => b
  | _ => if eqb a "" || ends_slash a then (a ++ b)%string else (a ++ "/" ++ b)%string
  end.

(** the dump of a reference (common.py 204-215): a string, or its fields *)
Definition opt_str (o : option string) : val := match o with Some s => VStr s | None => VAtom 0 end.
Definition path_val (p : model_path) : val := VDict [("path", VStr (mp_path p)); ("revision", opt_str (mp_revision p))].
Definition fields_val (r : model_ref) : val :=
  VDict [("model", path_val (mr_model r));
         ("lora", match mr_lora r with Some l => path_val l | None => VAtom 0 end);
         ("override_architecture", opt_str (mr_arch r))].
Definition dump_ref (r : model_ref) : val :=
  match serialize r with DString s => VStr s | DFields r => fields_val r end.

(** [set(value.keys()) == {"model", "lora", "override_architecture"}] (141) *)
Definition ref_keys : list string := ["model"; "lora"; "override_architecture"].
Definition is_ref_dict {V} (d : list (string * V)) : bool :=
  forallb (fun kv => mem (fst kv) ref_keys) d && forallb (fun k => mem k (map fst d)) ref_keys.

Definition with_path (wd : string) (r : model_ref) : model_ref :=
  {| mr_model := {| mp_path := path_join wd (mp_path (mr_model r)); mp_revision := mp_revision (mr_model r) |};
     mr_lora := mr_lora r; mr_arch := mr_arch r |}.

Section Patch.
Variables (names : list string) (wd : string).
(** a dict that looks like a reference (141-148) *)
Definition patch_fields (d : list (string * val)) : result (val * list string) :=
  match dget d "model" with
  | Some (VDict m) =>
      match dget m "path" with
      | Some (VStr base) =>
          if mem base names then Ok (VDict (dset d "model" (VDict (dset m "path" (VStr (path_join wd base))))), [base])
          else Ok (VDict d, [])
      | Some _ => Err TypeError
      | None => Err KeyError
      end
  | Some _ => Err TypeError
  | None => Err KeyError
  end.
(** a string (150-165): only ValueError is caught, so the RuntimeError of a string with two
    separators escapes *)
Definition patch_str (s : string) : result (val * list string) :=
  match parse_ref s with
  | Ok r => if mem (mp_path (mr_model r)) names then Ok (dump_ref (with_path wd r), [mp_path (mr_model r)])
            else Ok (VStr s, [])
  | Err ValueError => Ok (VStr s, [])
  | Err e => Err e
  end.
(** _patch_mr (136-165), with the names added to [used] *)
Fixpoint patch (v : val) : result (val * list string) :=
  match v with
  | VStr s => patch_str s
  | VAtom n => Ok (VAtom n, [])
  | VList l =>
      let! r := (fix go (l : list val) : result (list val * list string) :=
        match l with
        | [] => Ok ([], [])
        | x :: l => let! (x', u) := patch x in let! (l', u') := go l in Ok (x' :: l', u ++ u')
        end) l in Ok (VList (fst r), snd r)
  | VDict d =>
      if is_ref_dict d then patch_fields d
      else let! r := (fix go (d : list (string * val)) : result (list (string * val) * list string) :=
        match d with
        | [] => Ok ([], [])
        | (k, x) :: d => let! (x', u) := patch x in let! (d', u') := go d in Ok ((k, x') :: d', u ++ u')
        end) d in Ok (VDict (fst r), snd r)
  end.
End Patch.

(** ** load_config (215-253): names of the documents, then the patched configurations and the
    names each one uses.  The configurations are the dumped ones; their validation is not modelled. *)
Definition mname := option string.     (* None: the unnamed document *)
Fixpoint load_names (docs : list (mname * val)) (seen : dict mname val) : result (dict mname val) :=
  match docs with
  | [] => Ok seen
  | (n, c) :: docs => if dmem seen n then Err ValueError else load_names docs (dset seen n c)
  end.
Definition somes (l : list mname) : list string := flat_map (fun n => match n with Some s => [s] | None => [] end) l.
Definition load_config (docs : list (mname * val)) (dir : string) : result (dict mname val * dict mname (list string)) :=
  let! configs := load_names docs [] in
  let names := somes (dkeys configs) in
  let! patched := rmapM (fun nc => let! r := patch names dir (snd nc) in Ok (fst nc, (fst r, dedup (snd r)))) configs in
  Ok (map (fun nr => (fst nr, fst (snd nr))) patched, map (fun nr => (fst nr, snd (snd nr))) patched).

(** ** make_tasks (171-212).  A MergeModelTask is identified by its name; its arguments are the
    merges it uses, in the (arbitrary) order of the set [dependencies[name]]. *)
Definition mtask := task mname.
Definition dfs_state := (list mname * dict mname mtask)%type.   (* touched, tasks *)
Fixpoint make_task (configs : list mname) (deps : dict mname (list string)) (fuel : nat) (name : mname) (st : dfs_state)
    : result (mtask * dfs_state) :=
  match dget (snd st) name with
  | Some t => Ok (t, st)
  | None =>
      if mem name (fst st) then Err ValueError
      else match fuel with
      | O => Err OutOfFuel
      | S fuel =>
          if negb (mem name configs) then Err KeyError
          else
            let! ds := dgetE deps name in
            let! r := (fix go (ds : list string) (st : dfs_state) : result (list (string * mtask) * dfs_state) :=
              match ds with
              | [] => Ok ([], st)
              | d :: ds => let! (t, st) := make_task configs deps fuel (Some d) st in
                           let! (args, st) := go ds st in Ok ((d, t) :: args, st)
              end) ds (name :: fst st, snd st) in
            let t := Node name (fst r) in
            Ok (t, (fst (snd r), dset (snd (snd r)) name t))
      end
  end.
Fixpoint make_all (configs : list mname) (deps : dict mname (list string)) (requested : list mname) (st : dfs_state) : result (list mtask) :=
  match requested with
  | [] => Ok []
  | n :: requested =>
      let! (t, st) := make_task configs deps (S (length configs)) n st in
      let! ts := make_all configs deps requested st in Ok (t :: ts)
  end.
(** [out_path]: whether an output path was given (207-210) *)
Definition make_tasks (configs : list mname) (deps : dict mname (list string)) (out_path : bool) : result (list mtask) :=
  make_all configs deps (filter (fun n => match n with Some _ => true | None => out_path end) configs) ([], []).

(** ** MergeModelTask.execute (39-60): the test for an existing model *)
Definition check_files : list string :=
  ["model.safetensors"; "pytorch_model.bin"; "model.safetensors.index.json"; "pytorch_model.bin.index.json"].
Definition already_there {T} (f : IO.Model.fs T) : bool :=
  dmem f "config.json" && existsb (fun n => dmem f n) check_files.

(** ** run_merge (merge.py 83-152): the files written after the tensors, in order.  [card]:
    write_model_card; [extra]: tokenizer and tag-along files. *)
Definition after_ops {T} (card : bool) (extra : list string) : list (IO.Model.op T) :=
  IO.Model.write_file "config.json" IO.Model.FOther ++
  (if card then IO.Model.write_file "README.md" IO.Model.FOther ++ IO.Model.write_file "mergekit_config.yml" IO.Model.FOther else []) ++
  flat_map (fun n => IO.Model.write_file n IO.Model.FOther) extra.
