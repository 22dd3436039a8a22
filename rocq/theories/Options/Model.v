(** Model of mergekit/options.py (18-43 the fields, 145-206 the command line) and of the command line of scripts/run_yaml.py.
    click is transcribed (its [_OptionParser]): words, clusters of short options, "=" and "--". Its usage errors and those of a value
    that is no integer are [RuntimeError]. --help, which ends the program, is not an option here. *)
From Verif.Base Require Import Py PyFacts.
From Verif.Common Require Import Model.
From Verif.Devices Require Import Model.
Local Open Scope string_scope.
Local Open Scope list_scope.

(** the annotations that occur; the value of a field *)
Inductive annot := TBool | TInt | TOptStr | TOptInt.
Inductive oval := ONone | OBool (b : bool) | OInt (z : Z) | OStr (s : string).

(** [MergeOptions.model_fields] (19-41), in order *)
Definition model_fields : list (string * (annot * oval)) :=
  [("allow_crimes", (TBool, OBool false)); ("transformers_cache", (TOptStr, ONone)); ("lora_merge_cache", (TOptStr, ONone));
   ("lora_merge_dtype", (TOptStr, ONone)); ("cuda", (TBool, OBool false)); ("device", (TOptStr, ONone));
   ("low_cpu_memory", (TBool, OBool false)); ("out_shard_size", (TInt, OInt (5 * 1000 * 1000 * 1000)));
   ("copy_tokenizer", (TBool, OBool true)); ("clone_tensors", (TBool, OBool false)); ("trust_remote_code", (TBool, OBool false));
   ("random_seed", (TOptInt, ONone)); ("lazy_unpickle", (TBool, OBool false)); ("write_model_card", (TBool, OBool true));
   ("safe_serialization", (TBool, OBool true)); ("verbosity", (TInt, OInt 0)); ("quiet", (TBool, OBool false));
   ("read_to_gpu", (TBool, OBool false)); ("multi_gpu", (TBool, OBool false)); ("num_threads", (TOptInt, ONone));
   ("gpu_rich", (TBool, OBool false)); ("async_write", (TBool, OBool false)); ("write_threads", (TInt, OInt 1))].

(** [field_name.replace("_", "-")] (176) *)
Fixpoint dashes (s : string) : string :=
  match s with EmptyString => EmptyString | String c s => String (if Ascii.eqb c "_" then "-"%char else c) (dashes s) end.

(** what an option does when it is met *)
Inductive action := Store (b : bool) | Take | Tally.

(** the options declared for a field (163-203): the long ones and the short ones *)
Definition long_decls (f : string) (t : annot) : list (string * action) :=
  if eqb f "verbosity" then []                                                      (* 184-186 *)
  else if eqb f "num_threads" then [("--num-threads", Take)]                        (* 187-188 *)
  else if eqb f "gpu_rich" then [("--gpu-rich", Store true)]                        (* 189-191 *)
  else match t with
       | TBool => [("--" ++ dashes f, Store true); ("--no-" ++ dashes f, Store false)]%string    (* 177-178 *)
       | _ => [("--" ++ dashes f, Take)]%string end.
Definition short_decls (f : string) : list (ascii * action) :=
  if eqb f "verbosity" then [("v"%char, Tally)] else if eqb f "num_threads" then [("j"%char, Take)] else [].
Definition long_options : dict string (string * action) :=
  concat (map (fun ft => map (fun sa => (fst sa, (fst ft, snd sa))) (long_decls (fst ft) (fst (snd ft)))) model_fields).
Definition short_options : list (ascii * (string * action)) :=
  concat (map (fun ft => map (fun sa => (fst sa, (fst ft, snd sa))) (short_decls (fst ft))) model_fields).
Fixpoint short_of (l : list (ascii * (string * action))) (c : ascii) : option (string * action) :=
  match l with [] => None | (c', x) :: l => if Ascii.eqb c c' then Some x else short_of l c end.

(** what the parser has collected for a field: the text or truth value last given, how often it was met *)
Inductive raw := RText (s : string) | RBool (b : bool) | RCount (n : nat).
Definition stored := dict string raw.
Definition tally (d : stored) (f : string) : stored :=
  dset d f (RCount (S match dget d f with Some (RCount n) => n | _ => 0 end)).

(** [arg.split("=", 1)] *)
Fixpoint split_eq (s : string) : string * option string :=
  match s with
  | EmptyString => (EmptyString, None)
  | String c s => if Ascii.eqb c "=" then (EmptyString, Some s) else let p := split_eq s in (String c (fst p), snd p)
  end.
(** [_match_short_opt]: the letters after the dash. What is stored, and the field that wants the next word as its value *)
Fixpoint short_word (s : string) (d : stored) : result (stored * option string) :=
  match s with
  | EmptyString => Ok (d, None)
  | String c s =>
      match short_of short_options c with
      | None => Err RuntimeError
      | Some (f, Take) => match s with EmptyString => Ok (d, Some f) | _ => Ok (dset d f (RText s), None) end
      | Some (f, Store b) => short_word s (dset d f (RBool b))
      | Some (f, Tally) => short_word s (tally d f)
      end
  end.
(** [_process_opts] *)
Definition option_word (a : string) (d : stored) : result (stored * option string) :=
  let p := split_eq a in
  match dget long_options (fst p) with
  | Some (f, Take) => match snd p with Some v => Ok (dset d f (RText v), None) | None => Ok (d, Some f) end
  | Some (f, Store b) => match snd p with Some _ => Err RuntimeError | None => Ok (dset d f (RBool b), None) end
  | Some (f, Tally) => match snd p with Some _ => Err RuntimeError | None => Ok (tally d f, None) end
  | None => match a with
            | String "-" (String "-" _) => Err RuntimeError
            | String _ s => short_word s d
            | EmptyString => Err RuntimeError
            end
  end.
Definition is_option (a : string) : bool := match a with String "-" (String _ _) => true | _ => false end.
(** [_process_args_for_options]: what is stored, and the arguments *)
Fixpoint words (args : list string) (d : stored) (pos : list string) : result (stored * list string) :=
  match args with
  | [] => Ok (d, pos)
  | a :: args =>
      if eqb a "--" then Ok (d, pos ++ args)
      else if is_option a then
        let! p := option_word a d in
        match snd p with
        | None => words args (fst p) pos
        | Some f => match args with [] => Err RuntimeError | v :: args => words args (dset (fst p) f (RText v)) pos end
        end
      else words args d (pos ++ [a])
  end.

(** [Parameter.type_cast_value]: the types of the options are bool, str, int and [ShardSizeParamType] (136-142, 173-174) *)
Definition convert (f : string) (t : annot) (default : oval) (r : option raw) : result oval :=
  match r with
  | None => Ok default
  | Some (RBool b) => Ok (OBool b)
  | Some (RCount n) => Ok (OInt (Z.of_nat n))
  | Some (RText s) =>
      if eqb f "out_shard_size" then let! z := parse_kmb s in Ok (OInt z)
      else match t with
           | TOptStr => Ok (OStr s)
           | TInt | TOptInt => match py_int s with Ok z => Ok (OInt z) | Err _ => Err RuntimeError end
           | TBool => Err RuntimeError end
  end.

(** [MergeOptions.__init__] with a value for every field (147-156): the validators (C85), then the fields *)
Definition truth (o : option oval) : bool := match o with Some (OBool b) => b | _ => false end.
Definition text (o : option oval) : option string := match o with Some (OStr s) => Some s | _ => None end.
Definition given_of (d : dict string oval) : given_options :=
  {| g_device := text (dget d "device"); g_cuda := truth (dget d "cuda"); g_gpu_rich := truth (dget d "gpu_rich");
     g_low_cpu_memory := truth (dget d "low_cpu_memory"); g_read_to_gpu := truth (dget d "read_to_gpu"); g_multi_gpu := truth (dget d "multi_gpu") |}.
Definition with_given (d : dict string oval) (g : given_options) : dict string oval :=
  dset (dset (dset (dset (dset d "device" (match g_device g with Some s => OStr s | None => ONone end)) "cuda" (OBool (g_cuda g)))
    "low_cpu_memory" (OBool (g_low_cpu_memory g))) "read_to_gpu" (OBool (g_read_to_gpu g))) "multi_gpu" (OBool (g_multi_gpu g)).
Definition merge_options (cuda xpu : bool) (d : dict string oval) : dict string oval := with_given d (validated cuda xpu (given_of d)).

(** the command [mergekit-yaml] up to the call of [main] (run_yaml.py 13-21): configuration file, output path, options. click reports the
    error of the option given first, the model that of the field declared first. *)
Definition command (cuda xpu : bool) (args : list string) : result (string * string * dict string oval) :=
  let! p := words args [] [] in
  let! d := rmapM (fun ft => let! v := convert (fst ft) (fst (snd ft)) (snd (snd ft)) (dget (fst p) (fst ft)) in Ok (fst ft, v)) model_fields in
  match snd p with
  | [config_file; out_path] => Ok (config_file, out_path, merge_options cuda xpu d)
  | _ => Err RuntimeError
  end.
