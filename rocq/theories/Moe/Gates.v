(** Model of moe/router.py ([get_hidden_states], [get_cheap_embedding], [tokenize_prompts], [get_gate_params]), of the four
    [supports_config] and of [select_output_arch] and [build] in scripts/moe.py up to the call of [write_model].

    Simplifications: numbers are exact reals (bfloat16 is used for the hidden states); NaN from 0/0 is an error here; the
    language model is a function of one padded row at a time (rows of a batch do not influence each other); a tokenizer maps a
    text to token ids and pads to the longest row on the left ([tokenizer.padding_side = "left"], moe.py:41); [str.lower] on
    ASCII. [sys.exit(1)] is [Exit]. *)
From Coq Require Import Reals.
From Verif.Base Require Import Py.
From Verif.Moe Require Import Model.
Local Open Scope string_scope.
Local Open Scope list_scope.
Local Open Scope R_scope.

(** ** Vectors *)
Definition vec := list R.
Fixpoint vadd (a b : vec) : vec := match a, b with x :: a, y :: b => x + y :: vadd a b | _, _ => [] end.
Fixpoint vsub (a b : vec) : vec := match a, b with x :: a, y :: b => x - y :: vsub a b | _, _ => [] end.
Definition vdiv (a : vec) (c : R) : vec := map (fun x => x / c) a.
Definition vzero (h : nat) : vec := repeat 0 h.
Definition vsum (h : nat) (vs : list vec) : vec := fold_right vadd (vzero h) vs.
Definition vnorm (a : vec) : R := sqrt (fold_right (fun x s => x * x + s) 0 a).
(** [x / x.norm(dim=-1, keepdim=True).clamp(min=1e-8)] (router.py:56-58, 147) *)
Definition normalised (a : vec) : vec := vdiv a (Rmax (vnorm a) (/ 100000000)).

(** ** Tokens *)
Record tokenizer := { tk_bos : option string; tk_bos_id : option Z; tk_eos_id : option Z; tk_encode : string -> list Z }.
(** moe.py:42-44: the padding token is the bos token, else the eos token *)
Definition pad_id (tk : tokenizer) : option Z := match tk_bos_id tk with Some i => Some i | None => tk_eos_id tk end.
Definition row_of (tk : tokenizer) (p : string) : list Z :=
  tk_encode tk ((match tk_bos tk with Some b => b | None => "" end) ++ p)%string.
Definition longest (rows : list (list Z)) : nat := fold_right (fun r n => Nat.max (length r) n) 0%nat rows.
Definition pad_left (pad : Z) (n : nat) (row : list Z) : list (Z * bool) :=
  repeat (pad, false) (n - length row) ++ map (fun t => (t, true)) row.
(** [tokenize_prompts] (router.py:62-70): token ids and attention mask; a tokenizer without a padding token raises ValueError *)
Definition tokenize_prompts (tk : tokenizer) (prompts : list string) : result (list (list (Z * bool))) :=
  match pad_id tk with
  | None => Err ValueError
  | Some pad => let rows := map (row_of tk) prompts in Ok (map (pad_left pad (longest rows)) rows)
  end.

(** ** Vectors of prompts *)
(** one row of [hidden_states.sum(dim=2) / hidden_states.shape[2]] or of [hidden_states[:, :, -1, :]] (router.py:31-36) *)
Definition reduce_row (h : nat) (average : bool) (states : list vec) : result vec :=
  if average then match states with [] => Err ZeroDivisionError | _ => Ok (vdiv (vsum h states) (INR (length states))) end
  else match rev states with [] => Err IndexError | v :: _ => Ok v end.
(** [hidden_states.sum(dim=1) / hidden_states.shape[1]] (37) *)
Definition batch_mean (h : nat) (vs : list vec) : result vec :=
  match vs with [] => Err ZeroDivisionError | _ => Ok (vdiv (vsum h vs) (INR (length vs))) end.
(** [get_hidden_states] (18-37): [forward row] has one list of states per entry of [output.hidden_states], that is one more than
    there are layers; the last is dropped *)
Definition get_hidden_states (h layers : nat) (forward : list (Z * bool) -> list (list vec)) (average : bool)
    (batch : list (list (Z * bool))) : result (list vec) :=
  rmapM (fun l => let! vs := rmapM (fun row => let! st := nthE (forward row) l in reduce_row h average st) batch in batch_mean h vs)
        (seq 0 layers).
(** [get_cheap_embedding] (40-60): [one_hot] refuses ids that are not below the size of the vocabulary, the product refuses an
    embedding with another number of rows *)
Definition get_cheap_embedding (h layers : nat) (vocab : Z) (embed : list vec) (batch : list (list (Z * bool))) : result (list vec) :=
  if existsb (fun row => existsb (fun t => (fst t <? 0)%Z || (vocab <=? fst t)%Z) row) batch then Err RuntimeError
  else if negb (Z.of_nat (length embed) =? vocab)%Z then Err RuntimeError
  else
    let at_ t := nth (Z.to_nat t) embed (vzero h) in
    let masked (t : Z * bool) := map (fun x => x * (if snd t then 1 else 0)) (at_ (fst t)) in
    let embedded := vsum h (map (fun row => vsum h (map masked row)) batch) in
    Ok (repeat (normalised embedded) layers).

(** ** [get_gate_params] (73-150) *)
Record llm := {
  ll_layers : nat; ll_hidden : nat; ll_vocab : Z;
  ll_embed : list vec;                                      (* model.embed_tokens.weight *)
  ll_forward : list (Z * bool) -> list (list vec) }.
Section Gates.
Variable F : Type.
(** [torch.randn]/[torch.rand] by layer, expert and position *)
Variable draw : nat -> nat -> nat -> R.
Definition drawn (m : llm) (n : nat) (f : R -> R) : list (list vec) :=
  map (fun l => map (fun e => map (fun i => f (draw l e i)) (seq 0 (ll_hidden m))) (seq 0 n)) (seq 0 (ll_layers m)).
(** the vectors of one expert, by layer (139-148) *)
Definition expert_vecs (do_it : list (list (Z * bool)) -> result (list vec)) (tk : tokenizer) (e : expert F) : result (list vec) :=
  let! b := tokenize_prompts tk (ex_positive e) in
  let! pos := do_it b in
  let! hs := match ex_negative e with
             | [] => Ok pos
             | _ => let! b := tokenize_prompts tk (ex_negative e) in
                    let! neg := do_it b in Ok (map (fun pn => vsub (fst pn) (snd pn)) (combine pos neg))
             end in
  Ok (map normalised hs).
(** [torch.stack] and [permute(1, 0, 2)] (149-150): from expert x layer to layer x expert *)
Definition stack_permute (layers : nat) (vs : list (list vec)) : result (list (list vec)) :=
  match vs with
  | [] => Err RuntimeError
  | _ => rmapM (fun l => rmapM (fun v => nthE v l) vs) (seq 0 layers)
  end.
Definition get_gate_params (m : llm) (tk : tokenizer) (experts : list (expert F)) (mode : string) : result (list (list vec)) :=
  if eqb mode "random" then Ok (drawn m (length experts) (fun x => x))
  else if eqb mode "uniform_random" then
    let scale := sqrt (1 / INR (ll_hidden m)) in Ok (drawn m (length experts) (fun x => x * 2 * scale - scale))
  else
    let do_it : option (list (list (Z * bool)) -> result (list vec)) :=
      if eqb mode "cheap_embed" then Some (get_cheap_embedding (ll_hidden m) (ll_layers m) (ll_vocab m) (ll_embed m))
      else if eqb mode "hidden" || eqb mode "hidden_avg" || eqb mode "hidden_last"
      then Some (get_hidden_states (ll_hidden m) (ll_layers m) (ll_forward m) (eqb mode "hidden_avg"))
      else None in
    let! vs := rmapM (fun e => match do_it with None => Err TypeError | Some f => expert_vecs f tk e end) experts in
    stack_permute (ll_layers m) vs.

(** ** Output architectures *)
Record moe_config := {
  c_base : string; c_experts : list (expert F); c_gate_mode : string; c_per_token : Z;
  c_shared : list (expert F);                              (* None and the empty list are treated alike *)
  c_architecture : option string }.
Inductive arch := Mixtral | DeepSeek | Qwen | Qwen3.
Definition arch_name (a : arch) : string :=
  match a with Mixtral => "Mixtral" | DeepSeek => "DeepSeek MoE" | Qwen => "Qwen MoE" | Qwen3 => "Qwen3 MoE" end.
(** [len(set(model_types)) != 1] and [model_types[0] not in (..)] *)
Definition one_type_of (types : list string) (allowed : list string) : bool :=
  match types with [] => false | t :: ts => forallb (fun u => eqb u t) ts && mem t allowed end.
(** [supports_config] (mixtral.py:30-58, deepseek.py:24-69, qwen.py:28-68, qwen3.py:30-51); [model_type] is that of the
    configuration file *)
Definition supports_config (model_type : string -> string) (a : arch) (c : moe_config) : bool :=
  let own := map model_type (c_base c :: map (@ex_model F) (c_experts c)) in
  let all := own ++ map model_type (map (@ex_model F) (c_shared c)) in
  let prompted (e : expert F) := match ex_positive e with [] => false | _ => true end in
  match a with
  | Mixtral => match c_shared c with [] => one_type_of own ["llama"; "mistral"] | _ => false end
  | DeepSeek =>
      match c_shared c with
      | _ :: _ :: _ => false
      | [e] => if prompted e || match ex_negative e with [] => false | _ => true end then false
               else one_type_of all ["llama"; "mistral"]
      | [] => one_type_of all ["llama"; "mistral"]
      end
  | Qwen =>
      match c_shared c with
      | [e] => if negb (eqb (c_gate_mode c) "random") && negb (prompted e) then false
               else one_type_of all ["llama"; "mistral"; "qwen2"]
      | _ => false
      end
  | Qwen3 => match c_shared c with [] => forallb (fun t => eqb t "qwen3") all | _ => false end
  end.
Definition lower_char (c : Ascii.ascii) : Ascii.ascii :=
  let n := Ascii.nat_of_ascii c in if (65 <=? n)%nat && (n <=? 90)%nat then Ascii.ascii_of_nat (n + 32) else c.
Fixpoint lower (s : string) : string := match s with EmptyString => EmptyString | String c s => String (lower_char c) (lower s) end.
(** what happens to the process *)
Inductive outcome (A : Type) := Exit | Go (a : A).
Arguments Exit {A}.
Arguments Go {A}.
(** [select_output_arch] (scripts/moe.py:95-145); [available] is [ALL_OUTPUT_ARCHITECTURES] *)
Definition select_output_arch (model_type : string -> string) (available : list arch) (c : moe_config) : outcome arch :=
  let candidates_in := match c_architecture c with
                       | Some a => if eqb a "" then available
                                   else filter (fun x => String.prefix (lower a) (lower (arch_name x))) available
                       | None => available
                       end in
  match candidates_in with
  | [] => Exit
  | _ =>
      let candidates := filter (fun a => supports_config model_type a c) candidates_in in
      match candidates with
      | [] => Exit
      | a :: _ => match find (fun x => eqb (arch_name x) "Mixtral") candidates with Some x => Go x | None => Go a end
      end
  end.
(** [build] (moe.py:22-79): the writer, and for every layer the rows of the router and of the shared router *)
Definition build (model_type : string -> string) (available : list arch) (m : llm) (tk : tokenizer) (c : moe_config) (allow_all_same : bool)
    : result (outcome (arch * list (list vec) * list (list vec))) :=
  let! bad := is_bad_config (c_per_token c) (c_experts c) (c_gate_mode c) allow_all_same in
  if bad then Ok Exit
  else
    match select_output_arch model_type available c with
    | Exit => Ok Exit
    | Go a =>
        let! need := need_gates (c_experts c) (c_shared c) (c_gate_mode c) in
        let! gates := get_gate_params m tk need (c_gate_mode c) in
        Ok (Go (a, map (fun g => fst (split_gates (c_experts c) g)) gates, map (fun g => snd (split_gates (c_experts c) g)) gates))
    end.
End Gates.
Arguments Exit {A}.
Arguments Go {A}.
Arguments moe_config F : clear implicits.
