(** Model of the rest of [main] of mergekit/scripts/tokensurgeon.py (624-797): the weights it looks for, what it reads from
    the two models, the configuration and the files it writes. The two matrices are [surgery] (Model.v).

    The vocabularies, the well-trained tokens and the approximation are parameters (C47, C80, C81). Rows of a stored
    matrix: [rows], and the tensor made of rows: [of_rows]. Not modelled: devices, the tokenizer that is copied, a writer
    that fails, and what is left of an unfinished run (C17). *)
From Verif.Base Require Import Py.
From Verif.Arch Require Import Model.
From Verif.IO Require Import Model.
From Verif.TokenSurgeon Require Import Model.
Local Open Scope string_scope.
Local Open Scope list_scope.

(** get_embedding_info (108-130): the only embedding among the weights before, or after, the layers *)
Fixpoint the_embed (found : option weight_info) (ws : list weight_info) : result (option weight_info) :=
  match ws with
  | [] => Ok found
  | w :: ws => if wi_embed w
               then match found with Some _ => Err RuntimeError | None => the_embed (Some w) ws end
               else the_embed found ws
  end.
Definition get_embedding_info (arch : model_arch) (cfg : cfgval) : result (option weight_info * option weight_info) :=
  match arch with
  | [(_, md)] => let! pre := c_pre md cfg in let! embed := the_embed None pre in
                 let! post := c_post md cfg in let! head := the_embed None post in
                 Ok (embed, head)
  | _ => Err RuntimeError
  end.
(** ModelArchitecture.all_weights (base.py:129-134) *)
Definition model_weights (arch : model_arch) (cfg : cfgval) : result (list weight_info) :=
  let! l := rmapM (fun nm : string * module_def => let! ws := all_weights (md_arch (snd nm)) cfg in
                     Ok (map (prefix_weight (md_prefix (snd nm))) ws)) arch in
  Ok (concat l).

Definition opt_names (o : option (list string)) : list string := match o with Some l => l | None => [] end.
(** maybe_aliases (133-137) *)
Definition maybe_aliases (w : weight_info) (tied : bool) : list string :=
  opt_names (wi_aliases w) ++ (if tied then opt_names (wi_tied w) else []).

(** get_out_arch_info (202-229): the vocabulary size, then the special tokens of the donor *)
Definition special_keys : list string := ["pad_token_id"; "eos_token_id"; "bos_token_id"; "unk_token_id"; "mask_token_id"; "padding_side"].
Definition copy_key (donor : cfgval) (cfg : cfgval) (key : string) : result cfgval :=
  match attr donor key with Some v => set_config_value cfg key v | None => Ok cfg end.
(** [arch_info_out.vocab_size_config_key or "vocab_size"] *)
Definition vocab_key (key : option string) : string := match key with Some k => if eqb k "" then "vocab_size" else k | None => "vocab_size" end.
Definition out_config (key : option string) (size : option nat) (cfg donor : cfgval) : result cfgval :=
  let! cfg := set_config_value cfg (vocab_key key) (match size with Some n => CVInt (Z.of_nat n) | None => CVNone end) in
  rfold (copy_key donor) cfg special_keys.

Section Whole.
Context {V T : Type}.
Variable zero : V.
Variable approx : bool -> list V -> list V -> dict ntok nat -> dict ntok nat -> list ntok -> result (list V).
Variable rows : T -> list V.
Variable of_rows : list V -> T.

(** a model: its architecture and configuration, its directory, its (normalized) vocabulary *)
Record model := { m_arch : model_arch; m_cfg : cfgval; m_vocab_key : option string; m_dir : fs T; m_vocab : dict ntok nat }.

(** one read through the shared loader, after any other reads *)
Definition read (m : model) (ix : index) (hist : list call) (w : weight_info) (aliases : list string) (raise : bool) : result (option T) :=
  snd (get_tensor (m_dir m) ix (after (m_dir m) ix hist) (wi_name w) aliases raise).
(** get_stuff (140-168) without the vocabulary; [.name] of a missing weight raises *)
Definition get_stuff (m : model) (hist : list call) (tied : bool) : result (option T * option T) :=
  let! eh := get_embedding_info (m_arch m) (m_cfg m) in
  let! ix := from_disk (m_dir m) in
  match fst eh with
  | None => Err AttributeError
  | Some e =>
      let! embed := read m ix hist e (maybe_aliases e tied) (negb (wi_optional e)) in
      match snd eh with
      | None => Err AttributeError
      | Some h =>
          let! head := read m ix (hist ++ [CGet (wi_name e) (maybe_aliases e tied) (negb (wi_optional e))]) h (maybe_aliases h tied) (negb (wi_optional h)) in
          Ok (embed, head)
      end
  end.

(** the loop of 767-784 *)
Definition saved_weights (m : model) (ix : index) (hist : weight_info -> list call) (e h : weight_info) (new_embed new_head : option (list V))
    (ws : list weight_info) : result (list (string * T)) :=
  let! l := rmapM (fun w =>
      let! t := if eqb (wi_name w) (wi_name e) then Ok (option_map of_rows new_embed)
                else if eqb (wi_name w) (wi_name h) then Ok (option_map of_rows new_head)
                else read m ix (hist w) w (opt_names (wi_aliases w)) false in
      match t with
      | Some t => Ok [(wi_name w, t)]
      | None => if wi_optional w then Ok [] else Err RuntimeError
      end) ws in
  Ok (concat l).

(** main (651-787): what is given to the writer, in order, and the configuration written *)
Definition main (c : cli) (karp : option (list ntok * list ntok)) (m donor : model) (hist_m hist_d : list call) (hist : weight_info -> list call)
  : result (list (string * T) * cfgval) :=
  let! eh := get_embedding_info (m_arch m) (m_cfg m) in
  let! orig := get_stuff m hist_m false in
  let! don := get_stuff donor hist_d true in
  match eh with
  | (Some e, Some h) =>
      let! new := surgery zero approx c karp (wi_optional e) (wi_optional h) (option_map rows (fst orig)) (option_map rows (fst don))
                    (option_map rows (snd orig)) (option_map rows (snd don)) (m_vocab m) (m_vocab donor) in
      let size := match fst new with
                  | Some x => Some (length x)
                  | None => match snd new with Some x => Some (length x) | None => None end
                  end in
      let! cfg := out_config (m_vocab_key m) size (m_cfg m) (m_cfg donor) in
      let! ws := model_weights (m_arch m) cfg in
      let! ix := from_disk (m_dir m) in
      let! saves := saved_weights m ix hist e h (fst new) (snd new) ws in
      Ok (saves, cfg)
  | _ => Err AttributeError
  end.
End Whole.
Arguments model : clear implicits.
