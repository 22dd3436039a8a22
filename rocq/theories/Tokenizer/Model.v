(** Model of mergekit/tokenizer/{build,embed,config}.py and of _update_config_vocab in merge.py.

    A loaded tokenizer is what the code observes of it: [get_vocab()] in some
    iteration order (the library returns a hash map, so no order is assumed),
    [added_tokens_decoder] and the number of tokens of the underlying model.
    Saving and reloading a tokenizer (build.py 152-157) is taken to preserve these.
    Models are named by strings. *)
From Coq Require Import Reals.
From Verif.Base Require Import Py RList.
Local Open Scope string_scope.
Local Open Scope list_scope.

(** an AddedToken: its content and its flags *)
Record info := { a_content : string; a_flags : nat }.
Record tok := {
  t_vocab : dict string Z;      (* get_vocab() *)
  t_added : dict Z info;        (* added_tokens_decoder *)
  t_size : Z                    (* vocab_size: tokens of the model, without added ones *)
}.

(** tokenizers' [add_tokens] for one token: empty strings are ignored, a known
    token keeps its id, a new one gets the id after the largest added id or after
    the model's vocabulary. *)
Definition zmax (l : list Z) : option Z :=
  match l with [] => None | x :: l => Some (fold_right Z.max x l) end.
Definition next_id (t : tok) : Z :=
  match zmax (dkeys (t_added t)) with
  | None => t_size t
  | Some m => if (t_size t <=? m)%Z || (t_size t =? 0)%Z then (m + 1)%Z else t_size t
  end.
Definition add_token (t : tok) (a : info) : tok :=
  if eqb (a_content a) "" then t
  else match dget (t_vocab t) (a_content a) with
       | Some i => {| t_vocab := t_vocab t; t_added := dset (t_added t) i a; t_size := t_size t |}
       | None => let i := next_id t in
                 {| t_vocab := dset (t_vocab t) (a_content a) i; t_added := dset (t_added t) i a; t_size := t_size t |}
       end.
(** a plain string becomes an AddedToken with default flags *)
Definition plain (s : string) : info := {| a_content := s; a_flags := 0 |}.

(** [get_vocab_size(...) or default]: None and 0 are falsy *)
Definition size_or (cfg : option Z) (d : Z) : Z :=
  match cfg with Some n => if (n =? 0)%Z then d else n | None => d end.

(** ** get_stripped_tokenizer (build.py 41-103): [cfg] is the vocabulary size of the model's config *)
Definition strip (is_fast is_bpe : bool) (t : tok) (cfg : option Z) : result tok :=
  let size := size_or cfg (Z.of_nat (length (t_vocab t))) in
  if forallb (fun kv => (snd kv <? size)%Z) (t_vocab t) then Ok t
  else if negb is_fast then Err RuntimeError
  else if negb is_bpe then Err RuntimeError
  else Ok {| t_vocab := filter (fun kv => (snd kv <? size)%Z) (t_vocab t);
             t_added := filter (fun kv => (fst kv <? size)%Z) (t_added t);
             t_size := Z.min (t_size t) size |}.

(** ** build_union_tokenizer (106-169) *)
(** the vocabulary collected from all models, and the added tokens *)
Definition collect_vocab (size : Z) (out : list string) (vocab : dict string Z) : list string :=
  fold_left (fun out kv => if (size <=? snd kv)%Z then out else set_add (fst kv) out) vocab out.
Definition collect_added (size : Z) (out : dict string info) (added : dict Z info) : dict string info :=
  fold_left (fun out kv => if (size <=? fst kv)%Z then out
                           else if dmem out (a_content (snd kv)) then out
                           else dset out (a_content (snd kv)) (snd kv)) added out.
(** [tokenizers] with, for each, the vocabulary size of the model's config.  The test
    [tok in added_tokens] (130) looks a string up among integer keys and is never true. *)
Definition build_union (base : tok) (toks : dict string (tok * option Z)) : tok :=
  let '(out_vocab, out_added) :=
    fold_left (fun oa mt =>
        let '(t, cfg) := snd mt in
        let size := size_or cfg (t_size t) in
        (collect_vocab size (fst oa) (t_vocab t), collect_added size (snd oa) (t_added t)))
      toks ([], []) in
  let res := fold_left (fun res s =>
        if dmem out_added s then res
        else if dmem (t_vocab base) s then res
        else add_token res (plain s)) out_vocab base in
  fold_left add_token (dvals out_added) res.

(** ** build_tokenizer (178-277) *)
Inductive source := SrcUnion | SrcBase | SrcModel (t : tok).
(** the permutation of one model (244-269) *)
Definition permutation (vocab_out model_vocab : dict string Z) (size : Z) : dict Z Z :=
  fold_left (fun p ti =>
      match dget model_vocab (fst ti) with
      | None => dset p (snd ti) (-1)%Z
      | Some orig => if (size <=? orig)%Z then p else dset p (snd ti) orig
      end) vocab_out [].
Record tokenizer_info := { ti_tok : tok; ti_perms : dict string (dict Z Z); ti_vocabs : dict string (dict string Z) }.
(** [base]: the stripped tokenizer of the base model; [loaded]: the tokenizers of the
    other referenced models that could be loaded; [cfgs]: vocabulary sizes of configs.
    With source "base" the output tokenizer is the same object as the base model's
    tokenizer, so tokens added to it show up in the base model's vocabulary. *)
Definition build_tokenizer (base_model : string) (base : tok) (loaded : dict string tok) (cfgs : string -> option Z)
    (referenced : list string) (src : source) (add_tokens : list string) : tokenizer_info :=
  let with_cfg := (base_model, (base, cfgs base_model)) :: map (fun mt => (fst mt, (snd mt, cfgs (fst mt)))) loaded in
  let out0 := match src with SrcUnion => build_union base with_cfg | SrcBase => base | SrcModel t => t end in
  let out := fold_left (fun t s => add_token t (plain s)) add_tokens out0 in
  let base' := match src with SrcBase => out | _ => base end in
  let toks := (base_model, base') :: loaded in
  let perm m :=
    let model_vocab := t_vocab (match dget toks m with Some t => t | None => base' end) in
    permutation (t_vocab out) model_vocab (match cfgs m with Some n => n | None => Z.of_nat (length model_vocab) end) in
  {| ti_tok := out;
     ti_perms := dict_of (map (fun m => (m, perm m)) referenced);
     ti_vocabs := map (fun mt => (fst mt, t_vocab (snd mt))) toks |}.

(** ** embed.py *)
Local Open Scope R_scope.
(** an embedding matrix: rows and the number of columns *)
Record emb := { e_cols : nat; e_rows : list (list R) }.
(** TokenEmbeddingConfig (config.py 13-36) *)
Inductive esource := SZero | STokenId (m : string) (i : Z) | SToken (m : string) (t : string) | SModel (m : string) | SNone.
Record tcfg := { tc_source : esource; tc_force : bool }.

(** the padded vocabulary size (41-46) *)
Definition padded (n : Z) (pad : option Z) : Z :=
  match pad with
  | Some p => if (p =? 0)%Z then n else if (n mod p =? 0)%Z then n else ((n / p + 1) * p)%Z
  | None => n
  end.
(** ** _update_config_vocab (merge.py 89-94, 350-352) *)
Definition config_vocab (n : Z) (pad : option Z) : Z :=
  match pad with
  | Some p => if (p =? 0)%Z then n else if (n mod p =? 0)%Z then n else (n + p - n mod p)%Z
  | None => n
  end.

Definition perms_t := dict string (dict Z Z).
(** [permutations[model][token_id]] *)
Definition lookup_perm (perms : perms_t) (m : string) (id : Z) : result Z :=
  let! p := dgetE perms m in dgetE p id.
(** [tensors[model][i]] for a non-negative [i] *)
Definition row_of (tensors : dict string emb) (m : string) (i : Z) : result (list R) :=
  let! e := dgetE tensors m in
  match nth_error (e_rows e) (Z.to_nat i) with Some r => Ok r | None => Err IndexError end.

(** ** assign_embedding_sources (110-143) for one token: [None] means "average" *)
Definition assign_one (perms : perms_t) (models : list string) (base_model : option string) (id : Z) : result (option tcfg) :=
  let! has := rmapM (fun m => let! j := lookup_perm perms m id in Ok (m, (0 <=? j)%Z)) models in
  match map fst (filter snd has) with
  | [] => Err ValidationError           (* ZeroEmbedding() without its [kind] *)
  | [donor] => Ok (Some {| tc_source := SModel donor; tc_force := false |})
  | _ =>
      match base_model with
      | Some b => let! j := lookup_perm perms b id in
                  if (0 <=? j)%Z then Ok (Some {| tc_source := SModel b; tc_force := false |}) else Ok None
      | None => Ok None
      end
  end.
(** the token configuration after assign_embedding_sources, for every token *)
Definition assign (perms : perms_t) (models : list string) (base_model : option string) (cfgs : dict string tcfg)
    (vocab : dict string Z) : result (dict string (option tcfg)) :=
  rmapM (fun ti => let! c := (match dget cfgs (fst ti) with
                              | Some c => Ok (Some c)
                              | None => assign_one perms models base_model (snd ti)
                              end) in Ok (fst ti, c)) vocab.

(** ** compute_default_embedding (145-180) *)
Definition default_embedding (ti : tokenizer_info) (tensors : dict string emb) (id : Z) (c : tcfg) : result (list R) :=
  match tc_source c with
  | SZero => Err UnboundLocalError      (* [pass], then [return embed] *)
  | STokenId m i =>
      let! _ := (if dmem (ti_perms ti) m then Ok tt else Err AssertionError) in
      let! e := dgetE tensors m in
      if (0 <=? i)%Z && (i <? Z.of_nat (length (e_rows e)))%Z then row_of tensors m i else Err AssertionError
  | SToken m t =>
      let! _ := (if dmem (ti_perms ti) m then Ok tt else Err AssertionError) in
      let! v := dgetE (ti_vocabs ti) m in
      match dget v t with
      | None => Err AssertionError
      | Some i => let! e := dgetE tensors m in
                  if (0 <=? i)%Z && (i <? Z.of_nat (length (e_rows e)))%Z then row_of tensors m i else Err AssertionError
      end
  | SModel m =>
      let! j := lookup_perm (ti_perms ti) m id in
      if (0 <=? j)%Z then row_of tensors m j else Err AssertionError
  | SNone => Err NotImplementedError
  end.
(** the average over the models that have the token (62-71) *)
Definition average_embedding (ti : tokenizer_info) (tensors : dict string emb) (models : list string) (cols : nat) (id : Z) : result (list R) :=
  let! rows := rmapM (fun m => let! j := lookup_perm (ti_perms ti) m id in
                               if (0 <=? j)%Z then let! r := row_of tensors m j in Ok [r] else Ok []) models in
  let rows := concat rows in
  match rows with
  | [] => Err ZeroDivisionError
  | _ => Ok (map (fun c => rsum (map (fun r => nth c r 0) rows) / INR (length rows)) (seq 0 cols))
  end.

Fixpoint set_nth {A} (l : list A) (i : nat) (v : A) : option (list A) :=
  match l, i with
  | [], _ => None
  | _ :: l, O => Some (v :: l)
  | x :: l, S i => option_map (cons x) (set_nth l i v)
  end.

(** the row written for one token (89-100); [None]: "No embedding for token" *)
Definition new_row (ti : tokenizer_info) (tensors : dict string emb) (forced : string -> bool)
    (defaults : dict string (list R)) (m : string) (tid : string * Z) : result (option (list R)) :=
  let! j := lookup_perm (ti_perms ti) m (snd tid) in
  if (0 <=? j)%Z && negb (forced (fst tid)) then let! r := row_of tensors m j in Ok (Some r)
  else Ok (dget defaults (fst tid)).
(** the new matrix of one model (83-106) *)
Definition permute_model (ti : tokenizer_info) (tensors : dict string emb) (cols : nat) (size : nat) (forced : string -> bool)
    (defaults : dict string (list R)) (vocab : dict string Z) (m : string) : result emb :=
  let! e := dgetE tensors m in
  let! rows := fold_left (fun acc tid =>
      let! rows := acc in
      let! r := new_row ti tensors forced defaults m tid in
      match r with
      | None => Ok rows
      | Some r => match set_nth rows (Z.to_nat (snd tid)) r with Some rows' => Ok rows' | None => Err IndexError end
      end) vocab (Ok (repeat (repeat 0 cols) size)) in
  let n := length vocab in
  Ok {| e_cols := cols;
        e_rows := if Nat.ltb n size
                  then firstn n rows ++
                       repeat (map (fun c => rsum (map (fun r => nth c r 0) (firstn n rows)) / INR n) (seq 0 cols)) (size - n)
                  else rows |}.

(** ** PermutedEmbeddings.execute (30-108).  [models] is [list(set)] in arbitrary order (36-39). *)
Definition execute (ti : tokenizer_info) (tensors : dict string emb) (models : list string)
    (base_model : option string) (cfgs : dict string tcfg) (pad : option Z) : result (dict string emb) :=
  let vocab := t_vocab (ti_tok ti) in
  let size := padded (Z.of_nat (length vocab)) pad in
  match models with
  | [] => Err IndexError
  | m0 :: _ =>
      let! e0 := dgetE tensors m0 in
      let cols := e_cols e0 in
      if negb (forallb (fun kv => Nat.eqb (e_cols (snd kv)) cols) tensors) then Err AssertionError
      else
        let! _ := rmapM (fun m => dgetE (ti_perms ti) m) models in
        let! assigned := assign (ti_perms ti) models base_model cfgs vocab in
        let! defaults := rmapM (fun kv =>
            let! r := (let! id := dgetE vocab (fst kv) in
                       match snd kv with
                       | None => average_embedding ti tensors models cols id
                       | Some c => default_embedding ti tensors id c
                       end) in
            Ok (fst kv, r)) assigned in
        let forced t := match dget cfgs t with Some c => tc_force c | None => false end in
        rmapM (fun m => let! e := permute_model ti tensors cols (Z.to_nat size) forced defaults vocab m in Ok (m, e)) models
  end.
