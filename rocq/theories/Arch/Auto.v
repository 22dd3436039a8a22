(** Model of mergekit/architecture/auto.py: inferring an architecture from the tensor names of the models.

    Python sets are duplicate-free lists; the order in which a set is iterated is [iter], any function returning a
    permutation of its argument. [re.search] of a tied-weight pattern and [can_convert_checkpoint_keys] are parameters.
    Digits are ASCII digits. [lru_cache] (159) is not modelled. *)
From Verif.Base Require Import Py PyStr.
From Verif.Arch Require Import Model.
Local Open Scope string_scope.
Local Open Scope list_scope.

(** ** RE_LAYER_INDEX = [\.(\d+)\.] (auto.py:32) *)
Fixpoint span_digits (s : string) : string * string :=
  match s with
  | String c s' => if is_digit c then let (a, b) := span_digits s' in (String c a, b) else (EmptyString, s)
  | EmptyString => (EmptyString, EmptyString)
  end.

(** leftmost match: the text before it, the digits, the text after it *)
Fixpoint find_layer (s : string) : option (string * string * string) :=
  match s with
  | EmptyString => None
  | String c s' =>
      let later := match find_layer s' with Some (p, d, r) => Some (String c p, d, r) | None => None end in
      if Ascii.eqb c "." then
        match span_digits s' with
        | (String x d, String y r) => if Ascii.eqb y "." then Some (EmptyString, String x d, r) else later
        | _ => later
        end
      else later
  end.
Definition layered (s : string) : bool := match find_layer s with Some _ => true | None => false end.

(** [RE_LAYER_INDEX.sub(".${layer_index}.", tensor_name, count=1)] *)
Definition template_name (p r : string) : string := (p ++ ".${layer_index}." ++ r)%string.

(** ** [str.replace] of [old] (non-empty) by [new], left to right *)
Fixpoint replace (fuel : nat) (old new s : string) : string :=
  match fuel with
  | O => s
  | S f => if String.prefix old s then (new ++ replace f old new (substring (String.length old) (String.length s) s))%string
           else match s with EmptyString => EmptyString | String c s' => String c (replace f old new s') end
  end.
Definition replace_all (old new s : string) : string := replace (S (String.length s)) old new s.

Section Infer.
Context {M : Type}.

(** what [get_transformers_info] returns (44-106): keys not saved, patterns of tied keys, names of embeddings, and the
    names in the model's state dict *)
Record info := { i_ignore : option (list string); i_tied : option (list string); i_embed : option (list string);
                 i_names : option (list string) }.
Definition no_info : info := {| i_ignore := None; i_tied := None; i_embed := None; i_names := None |}.

Variable iter : list string -> list string.
Variable re_search : string -> string -> bool.
Variable can_convert : M -> string -> bool.
Variable stored : list (M * list string).    (* [model_tensor_names] *)
Variable I : info.

(** [bool(transformer_tensor_names)] *)
Definition use_layout : bool := match i_names I with Some (_ :: _) => true | _ => false end.

(** _target_present_in_all_models (109-124) *)
Definition target_present (n : string) : bool :=
  if use_layout then forallb (fun mn => can_convert (fst mn) n) stored
  else forallb (fun mn => mem n (snd mn)) stored.

(** _template_present_in_all_models (127-156) *)
Definition template_present (t : string) (num_layers : option nat) : bool :=
  if infix "${layer_index}" t then
    match num_layers with
    | None => target_present (replace_all "${layer_index}" "0" t)
    | Some n => forallb (fun i => target_present (replace_all "${layer_index}" (str_of_Z (Z.of_nat i)) t)) (seq 0 n)
    end
  else target_present t.

(** _wi (235-260); called with an empty prefix *)
Definition wi (t : string) (num_layers : option nat) : result weight_info :=
  let present := template_present t num_layers in
  let tied_match := match i_tied I with Some l => existsb (fun p => re_search p t) l | None => false end in
  let! is_embed := match i_embed I with
                   | None => Err TypeError                       (* [full_name in None] *)
                   | Some l => if mem t l then Ok true
                               else match i_tied I with None => Err TypeError | Some _ => Ok tied_match end
                   end in
  Ok {| wi_name := t; wi_embed := is_embed; wi_optional := negb present || tied_match;
        wi_aliases := None; wi_dtype := None; wi_tied := None |}.

(** [all_tensor_names] (172-184) *)
Definition all_names : list string :=
  if use_layout then dedup (match i_names I with Some l => l | None => [] end) else dedup (concat (map snd stored)).

Definition ignored (n : string) : bool := match i_ignore I with Some l => mem n l | None => false end.

(** the names that define layers (191-204), with their parts *)
Definition layer_parts : list (string * string * string) :=
  flat_map (fun n => if ignored n then [] else match find_layer n with Some x => [x] | None => [] end) (iter all_names).
Definition of_prefix (p : string) : list (string * string) :=
  flat_map (fun x => let '(q, d, r) := x in if eqb q p then [(d, r)] else []) layer_parts.
Definition found_prefixes : list string := dedup (map (fun x => fst (fst x)) layer_parts).
Definition prefix_count (p : string) : nat :=
  fold_left Nat.max (map (fun dr => S (Z.to_nat (digits_value 0 (fst dr)))) (of_prefix p)) 0.
Definition prefix_templates (p : string) : list string := dedup (map (fun dr => template_name p (snd dr)) (of_prefix p)).

(** modules, with their layer counts and templates (206-214) *)
Definition modules : list (string * (nat * list string)) :=
  match found_prefixes with
  | [p] => [("", (prefix_count p, prefix_templates p))]
  | ps => map (fun p => (p, (prefix_count p, prefix_templates p))) (iter (set_add "" ps))
  end.

(** the module a weight outside the layers goes to (216-222): the first prefix, in iteration order, that it starts with *)
Definition loose_of (prefixes : list string) (p : string) : list string :=
  flat_map (fun n => if layered n then []
                     else match find (fun q => String.prefix q n) prefixes with
                          | Some q => if eqb q p then [substring (String.length q) (String.length n) n] else []
                          | None => []
                          end) (iter all_names).

(** infer_architecture_info (160-290) *)
Definition infer : result (dict string json_arch) :=
  let ps := map fst modules in
  let ms := filter (fun m => negb (eqb (fst m) "") ||
                             negb (match loose_of ps "", snd (snd m) with [], [] => true | _, _ => false end)) modules in
  match ms with
  | [] => Err ValueError
  | _ =>
      let! l := rmapM (fun m => let '(p, (n, ts)) := m in
                  let! pre := rmapM (fun t => wi t None) (iter (dedup (loose_of ps p))) in
                  let! layer := rmapM (fun t => wi t (Some n)) (iter ts) in
                  Ok (if eqb p "" then "default" else p,
                      {| ja_pre := pre; ja_layer := layer; ja_post := []; ja_key := None;
                         ja_override := Some (Z.of_nat n) |})) ms in
      Ok (dict_of l)
  end.

(** [ModelArchitecture.all_weights] (base.py:128-133); the modules have no prefix (auto.py:282-289) *)
Definition inferred_weights (a : dict string json_arch) (c : cfgval) : result (list weight_info) :=
  let! ws := rmapM (fun kv => all_weights (json_module (snd kv)) c) a in Ok (concat ws).
End Infer.
