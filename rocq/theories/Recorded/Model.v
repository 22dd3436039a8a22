(** Model of mergekit/card.py: the model card, and of what run_merge records of the configuration
    (merge.py:99-115). *)
From Verif.Base Require Import Py.
From Verif.Common Require Import Model.
From Verif.Config Require Import Model.
From Verif.Plan Require Import Model.
Local Open Scope string_scope.
Local Open Scope list_scope.

(** ** run_merge (merge.py:64-70, 100-101). The planner is given the configuration object itself and
    [normalize_config] (plan.py:91-156) assigns to its fields, so without [config_source] the text written is the one of
    the normalised configuration. The text itself ([to_yaml]) is not modelled here. *)
Definition recorded {M} {HM : Eqb M} (W : world M) (c : merge_config M) : result (merge_config M) := normalize_config W c.

(** ** is_hf (card.py:62-76). [exists_]: os.path.exists; [repo]: huggingface_hub.repo_exists, whose [ValidationError]
    stands for HFValidationError. *)
Definition starts_local (p : string) : result bool :=
  match p with
  | EmptyString => Err IndexError
  | String ch _ => Ok (Ascii.eqb ch "/"%char || Ascii.eqb ch "~"%char)
  end.
Definition is_hf (exists_ : string -> bool) (repo : string -> result bool) (p : string) : result bool :=
  let! l := starts_local p in
  if l || Nat.ltb 1 (count "/"%char p) then Ok false
  else if negb (exists_ p) then Ok true
  else match repo p with
       | Err ValidationError => Ok false
       | r => r
       end.

Section Card.
Context {M : Type} {HM : Eqb M}.
(** [model.model.path] and, with a LoRA, [model.lora.path] *)
Variable path : M -> string.
Variable lora : M -> option string.
Variable hf : string -> result bool.

(** extract_hf_paths (card.py:79-91) *)
Definition hub_path (p : string) : result (list string) := let! b := hf p in Ok (if b then [p] else []).
Definition hub_paths (m : M) : result (list string) :=
  let! a := hub_path (path m) in
  let! b := match lora m with Some l => hub_path l | None => Ok [] end in
  Ok (a ++ b).
Definition extract_hf_paths (ms : list M) : result (list string) :=
  let! l := rmapM hub_paths ms in Ok (concat l).

(** maybe_link_hf (card.py:112-121) *)
Definition maybe_link_hf (p : string) : result string :=
  let! b := hf p in Ok (if b then ("[" ++ p ++ "](https://huggingface.co/" ++ p ++ ")")%string else p).
(** modelref_md (card.py:124-137) *)
Definition modelref_md (m : M) : result string :=
  let! a := maybe_link_hf (path m) in
  match lora m with
  | Some l => let! b := maybe_link_hf l in Ok (a ++ " + " ++ b)%string
  | None => Ok a
  end.

(** generate_card (card.py:140-188): what fills the template apart from the name, the method's name and the text of
    the configuration. [referenced], [referenced2]: the two evaluations of [referenced_models()]. *)
Record card := { cd_bases : list string; cd_base_text : string; cd_bullets : list string }.
Definition generate_card (method : string) (base : option M) (referenced referenced2 : list M) : result card :=
  let! bases := extract_hf_paths referenced in
  let actual := if String.eqb method "slerp" then None else base in
  let! text := match actual with
               | Some b => let! t := modelref_md b in Ok (" using " ++ t ++ " as a base")%string
               | None => Ok ""
               end in
  let! bullets := rmapM (fun m => let! t := modelref_md m in Ok ("* " ++ t)%string)
                    (filter (fun m => negb (match actual with Some b => eqb m b | None => false end)) referenced2) in
  Ok {| cd_bases := bases; cd_base_text := text; cd_bullets := bullets |}.

(** generate_card_lora (card.py:191-229): the hub paths, the details and the note on the vocabulary. A size [0] counts
    as not given. *)
Definition given_size (n : option Z) : option Z := match n with Some z => if Z.eqb z 0 then None else Some z | None => None end.
Definition vocab_note (base final : option Z) : option (string * Z * Z) :=
  match given_size base, given_size final with
  | Some b, Some f => if Z.eqb b f then None else Some ((if Z.ltb b f then "extended" else "reduced"), b, f)
  | _, _ => None
  end.
Definition generate_card_lora (base finetuned : M) (bv fv : option Z) : result (list string * string * option (string * Z * Z)) :=
  let! bases := extract_hf_paths [base; finetuned] in
  let! f := modelref_md finetuned in
  let! b := modelref_md base in
  Ok (bases, ("This LoRA adapter was extracted from " ++ f ++ " and uses " ++ b ++ " as a base.")%string, vocab_note bv fv).
End Card.
