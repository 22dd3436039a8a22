(** Model of the end of mergekit/merge.py:run_merge (83-152): the configuration, the model card, the chat template, the
    tokenizer and the other files that go with the weights; and of the choice of files that [ModelReference.local_path]
    (common.py:152-180) downloads.

    Tokenizers, file contents and models are abstract. [transformers] is represented by functions that may raise: loading
    a tokenizer, reading and replacing its chat template, and the files that saving it writes. A directory is a map from
    file names to contents; writing a file is one step (half-written files are the subject of C40). Not modelled: the
    branch for [post_fill_parameters] (141-152), an attribute that no architecture has. *)
From Verif.Base Require Import Py PyStr.
From Verif.Common Require Import Model.
Local Open Scope string_scope.
Local Open Scope list_scope.

(** [tok.chat_template]: nothing, a string, or a dict of named templates *)
Inductive template_value := TNone | TString (s : string) | TNamed (d : dict string string).

(** ** The chat template (155-198) *)
(** [Counter(l)]: counts in the order of first occurrence *)
Definition counter (l : list string) : dict string nat :=
  fold_left (fun d x => dset d x (S match dget d x with Some n => n | None => 0 end)) l [].
(** [most_common(1)[0][0]]: the first item with the largest count *)
Fixpoint most_common (best : string * nat) (d : dict string nat) : string :=
  match d with
  | [] => fst best
  | (k, n) :: d => most_common (if (snd best <? n)%nat then (k, n) else best) d
  end.

(** the part of a path before the first separator *)
Fixpoint first_component (s : string) : string :=
  match s with
  | EmptyString => ""
  | String c r => if Ascii.eqb c "/" then "" else String c (first_component r)
  end.

Section Finish.
Context {M C Tok : Type}.
Variable load_tokenizer : bool -> M -> result Tok.        (** [AutoTokenizer.from_pretrained(.., trust_remote_code)] *)
Variable template_of : Tok -> template_value.
Variable set_template : Tok -> string -> Tok.
Variable saved_files : Tok -> result (dict string C).    (** what [save_pretrained] writes *)
(** the templates shipped with mergekit, by file name, and the limits of the file system: the longest file name and the
    longest path below the package directory *)
Variable shipped : dict string string.
Variable name_max path_max : nat.

(** [files(chat_templates).joinpath(name).is_file()] and [read_text()]: [pathlib] turns "not found" into [False] and
    lets the other errors of [stat] through, among them ENAMETOOLONG. The package has no subdirectories that matter, so
    the first component decides. *)
Definition lookup (name : string) : result (option string) :=
  if (name_max <? String.length (first_component name))%nat || (path_max <? String.length name)%nat then Err OSError_
  else Ok (dget shipped name).

(** what one model contributes to the vote (167-180); a model whose tokenizer cannot be loaded contributes nothing *)
Definition vote (m : M) : list string :=
  match load_tokenizer false m with
  | Err _ => []
  | Ok tok =>
      let t := match template_of tok with TNone => None | TString s => Some s | TNamed d => dget d "default" end in
      match t with
      | Some (String c s) => [rstrip (lstrip (String c s))]
      | _ => []
      end
  end.

(** [_set_chat_template]; [chat] is [merge_config.chat_template], [refs] is [referenced_models()] *)
Definition set_chat_template (chat : option string) (refs : list M) (tok : Tok) : result Tok :=
  match chat with
  | None | Some "" => Ok tok
  | Some ct =>
      if eqb ct "auto" then
        match flat_map vote refs with
        | [] => Ok tok
        | v :: vs => Ok (set_template tok (most_common (v, 0) (counter (v :: vs))))
        end
      else
        let! t := lookup (ct ++ ".jinja")%string in
        match t with
        | Some text => Ok (set_template tok text)
        | None => if (String.length ct <? 20)%nat || negb (infix "{" ct) then Err RuntimeError
                  else Ok (set_template tok ct)
        end
  end.

(** ** Where a model's files are (common.py:152-180) *)
Fixpoint ends_in (suffix s : string) : bool :=
  eqb s suffix || match s with EmptyString => false | String _ r => ends_in suffix r end.
Definition lower (c : ascii) : ascii :=
  let n := nat_of_ascii c in if ((65 <=? n) && (n <=? 90))%nat then ascii_of_nat (n + 32) else c.
Fixpoint str_lower (s : string) : string :=
  match s with EmptyString => "" | String c r => String (lower c) (str_lower r) end.

(** [allow_patterns] of the download (160-179) *)
Definition downloaded (names : list string) (name : string) : bool :=
  eqb name "tokenizer.model" || ends_in ".json" name ||
  (if existsb (fun n => ends_in ".safetensors" (str_lower n)) names then ends_in ".safetensors" name else ends_in ".bin" name).

Variable on_disk : M -> option (dict string C).    (** the directory, if the path exists *)
Variable repository : M -> result (dict string C). (** the files of the repository on the hub *)
Definition local_files (m : M) : result (dict string C) :=
  match on_disk m with
  | Some d => Ok d
  | None => let! d := repository m in Ok (filter (fun kv => downloaded (dkeys d) (fst kv)) d)
  end.

(** ** The donor (201-213) *)
Variable merged : M -> result M.   (** [ModelReference.merged]: see C68 *)
Definition donor (base : option M) (refs : list M) : result M :=
  match base, refs with
  | Some m, _ => Ok m
  | None, m :: _ => Ok m
  | None, [] => Err IndexError
  end.
Definition donor_files (base : option M) (refs : list M) : result (M * dict string C) :=
  let! m := donor base refs in
  let! m' := merged m in
  let! d := local_files m' in
  Ok (m, d).

(** copying the files that exist, one after the other *)
Definition copy_existing (from : dict string C) (names : list string) (out : dict string C) : dict string C :=
  fold_left (fun out n => match dget from n with Some c => dset out n c | None => out end) names out.
Definition write_all (files out : dict string C) : dict string C :=
  fold_left (fun out kv => dset out (fst kv) (snd kv)) files out.

(** ** Tokenizer files (236-279) *)
Definition tokenizer_files : list string :=
  ["tokenizer_config.json"; "special_tokens_map.json"; "tokenizer.json"; "tokenizer.model"; "added_tokens.json"; "merges.txt";
   "chat_template.jinja"; "generation_config.json"; "chat_template.json"; "video_preprocessor_config.json"].
Definition set_to (chat : option string) : bool := match chat with None | Some "" => false | Some _ => true end.

Record settings := {
  s_base : option M; s_refs : list M; s_chat : option string; s_trust : bool;
  s_copy_tokenizer : bool; s_card : bool; s_tagalong : list string }.

(** the directory afterwards and whether it raised *)
Definition copy_tokenizer (s : settings) (out : dict string C) : dict string C * result unit :=
  match donor_files (s_base s) (s_refs s) with
  | Err e => (out, Err e)
  | Ok (m, d) =>
      if negb (set_to (s_chat s)) && dmem d "tokenizer_config.json" && (dmem d "tokenizer.json" || dmem d "tokenizer.model")
      then (copy_existing d tokenizer_files out, Ok tt)
      else match (let! tok := load_tokenizer (s_trust s) m in
                  let! tok := set_chat_template (s_chat s) (s_refs s) tok in
                  saved_files tok) with
           | Ok fs => (write_all fs out, Ok tt)
           | Err e => (out, Err e)
           end
  end.

(** [_copy_tagalong_files] (216-233) *)
Definition copy_tagalong (s : settings) (out : dict string C) : dict string C * result unit :=
  match donor_files (s_base s) (s_refs s) with
  | Err e => (out, Err e)
  | Ok (_, d) => (copy_existing d (s_tagalong s) out, Ok tt)
  end.

(** ** The end of [run_merge] (96-139): [built] is the tokenizer that the run built, if any *)
Definition finish (s : settings) (built : option Tok) (config card source : C) (out : dict string C) : dict string C * result unit :=
  let out := dset out "config.json" config in
  let out := if s_card s then dset (dset out "README.md" card) "mergekit_config.yml" source else out in
  match built with
  | Some tok =>
      match (let! tok := set_chat_template (s_chat s) (s_refs s) tok in saved_files tok) with
      | Err e => (out, Err e)
      | Ok fs => copy_tagalong s (write_all fs out)
      end
  | None =>
      copy_tagalong s (if s_copy_tokenizer s then fst (copy_tokenizer s out) else out)
  end.
End Finish.
Arguments settings : clear implicits.
