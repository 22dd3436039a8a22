(** Specification vocabulary for C67: what stripping and a plurality are, and which file wins. *)
From Verif.Base Require Import Py PyStr.
From Verif.Common Require Import Model.
From Verif.Finish Require Import Model.
Local Open Scope string_scope.
Local Open Scope list_scope.

(** [t] is [s] without the white space around it *)
Definition blank (s : string) : Prop := all_chars is_space s = true.
Definition trimmed (s t : string) : Prop :=
  (exists a b, s = (a ++ t ++ b)%string /\ blank a /\ blank b) /\
  (forall c r, t = String c r -> is_space c = false) /\ (forall r c, t = (r ++ String c "")%string -> is_space c = false).

Definition votes (t : string) (l : list string) : nat := count_occ string_dec l t.
(** nobody has more votes, and whoever has as many voted later for the first time *)
Definition wins (t : string) (l : list string) : Prop :=
  In t l /\ (forall t', (votes t' l <= votes t l)%nat) /\
  (forall t' a b, l = a ++ t' :: b -> votes t' l = votes t l -> t' = t \/ In t a).

(** the first directory that has the file *)
Fixpoint first_with {C} (dirs : list (dict string C)) (name : string) : option C :=
  match dirs with
  | [] => None
  | d :: dirs => match dget d name with Some c => Some c | None => first_with dirs name end
  end.
(** the files of [d] among the given names *)
Definition only {C} (names : list string) (d : dict string C) : dict string C := filter (fun kv => mem (fst kv) names) d.

Section Votes.
Context {M Tok : Type} (load_tokenizer : bool -> M -> result Tok) (template_of : Tok -> template_value).
(** what a model has to say: its tokenizer can be loaded without running its own code and has a (default) template *)
Definition says (m : M) (t : string) : Prop :=
  exists tok s, load_tokenizer false m = Ok tok /\ s <> "" /\ trimmed s t /\
    (template_of tok = TString s \/ exists d, template_of tok = TNamed d /\ dget d "default" = Some s).
Inductive ballot : list M -> list string -> Prop :=
| ballot_nil : ballot [] []
| ballot_vote m ms t l : says m t -> ballot ms l -> ballot (m :: ms) (t :: l)
| ballot_silent m ms l : (forall t, ~ says m t) -> ballot ms l -> ballot (m :: ms) l.
End Votes.

Section Files.
Context {M C Tok : Type} (load_tokenizer : bool -> M -> result Tok) (saved_files : Tok -> result (dict string C)).
Variable with_template : Tok -> result Tok.   (** the tokenizer with the requested chat template *)
Variable on_disk : M -> option (dict string C).
Variable repository : M -> result (dict string C).
Variable merged : M -> result M.
Notation settings := (settings M).

(** the patterns that are downloaded *)
Definition fetched (names : list string) (name : string) : Prop :=
  name = "tokenizer.model" \/ (exists p, name = (p ++ ".json")%string) \/
  (exists p, name = (p ++ (if existsb (fun n => ends_in ".safetensors" (str_lower n)) names then ".safetensors" else ".bin"))%string).

(** the donor is the base model if there is one; [d] are its files, with adapters merged *)
Definition donor_dir (s : settings) (m : M) (d : dict string C) : Prop :=
  (s_base s = Some m \/ s_base s = None /\ exists l, s_refs s = m :: l) /\
  exists m', merged m = Ok m' /\
    (on_disk m' = Some d \/
     on_disk m' = None /\ exists r, repository m' = Ok r /\
       (forall name c, dget d name = Some c <-> dget r name = Some c /\ fetched (dkeys r) name)).

Definition copiable (s : settings) (d : dict string C) : Prop :=
  (s_chat s = None \/ s_chat s = Some "") /\ In "tokenizer_config.json" (dkeys d) /\
  (In "tokenizer.json" (dkeys d) \/ In "tokenizer.model" (dkeys d)).
Definition rewritten (s : settings) (m : M) (fs : dict string C) : Prop :=
  exists tok tok', load_tokenizer (s_trust s) m = Ok tok /\ with_template tok = Ok tok' /\ saved_files tok' = Ok fs.

(** the tokenizer's files: those of the tokenizer that was built; or the donor's; or those of the donor's tokenizer, loaded
    and saved again; or none if that fails *)
Inductive tokenizer_part (s : settings) (built : option Tok) : dict string C -> Prop :=
| part_built tok tok' fs : built = Some tok -> with_template tok = Ok tok' -> saved_files tok' = Ok fs -> tokenizer_part s built fs
| part_none : built = None -> s_copy_tokenizer s = false -> tokenizer_part s built []
| part_copied m d : built = None -> s_copy_tokenizer s = true -> donor_dir s m d -> copiable s d ->
    tokenizer_part s built (only tokenizer_files d)
| part_rewritten m d fs : built = None -> s_copy_tokenizer s = true -> donor_dir s m d -> ~ copiable s d -> rewritten s m fs ->
    tokenizer_part s built fs
| part_given_up m d : built = None -> s_copy_tokenizer s = true -> donor_dir s m d -> ~ copiable s d -> (forall fs, ~ rewritten s m fs) ->
    tokenizer_part s built [].
End Files.
