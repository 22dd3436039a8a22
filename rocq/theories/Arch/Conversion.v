(** Model of mergekit/architecture/conversion.py: producing a tensor of the transformers layout from a checkpoint in an
    older layout, and deciding from the names alone whether that is possible.

    The registry of transforms is transformers': a transform is given by what the code asks of it. Each call gets fresh
    transforms (the collected tensors of an earlier call are not seen). Strings are ASCII: [str.isdigit] and [[0-9]] agree.
    A lazily loaded source is the result of loading it. *)
From Verif.Base Require Import Py PyStr.
Local Open Scope string_scope.
Local Open Scope list_scope.

(** tuples of str *)
Fixpoint strs_eqb (x y : list string) : bool :=
  match x, y with [], [] => true | a :: x, b :: y => eqb a b && strs_eqb x y | _, _ => false end.
Lemma strs_eqb_iff : forall x y, strs_eqb x y = true <-> x = y.
Proof.
  induction x as [|a x IH]; destruct y as [|b y]; cbn [strs_eqb]; try (split; congruence).
  rewrite andb_true_iff, eqb_iff, IH. split; [intros []; congruence|intros [=]; auto].
Qed.
#[export] Instance Eqb_strs : Eqb (list string) := {| eqb := strs_eqb; eqb_iff := strs_eqb_iff |}.

(** ** Natural sorting (31-34) *)
Inductive part := PText (s : string) | PNum (d : string).
(** [re.split(r"([0-9]+)", value)], read from the right *)
Fixpoint split_numbers (s : string) : list part :=
  match s with
  | EmptyString => [PText ""]
  | String c s' =>
      match split_numbers s' with
      | PText t :: l =>
          if is_digit c then
            match t, l with
            | EmptyString, PNum d :: l' => PText "" :: PNum (String c d) :: l'
            | _, _ => PText "" :: PNum (String c "") :: PText t :: l
            end
          else PText (String c t) :: l
      | l => l
      end
  end.

(** Python's [<] on str: by code points *)
Fixpoint str_lt (a b : string) : bool :=
  match a, b with
  | _, EmptyString => false
  | EmptyString, String _ _ => true
  | String x a, String y b =>
      Nat.ltb (nat_of_ascii x) (nat_of_ascii y) || (Ascii.eqb x y && str_lt a b)
  end.

(** [<] on the key tuples: the first different elements decide; int against str raises *)
Fixpoint key_lt (a b : list part) : result bool :=
  match a, b with
  | _, [] => Ok false
  | [], _ :: _ => Ok true
  | PText x :: a, PText y :: b => if eqb x y then key_lt a b else Ok (str_lt x y)
  | PNum x :: a, PNum y :: b =>
      if (digits_value 0 x =? digits_value 0 y)%Z then key_lt a b else Ok (digits_value 0 x <? digits_value 0 y)%Z
  | _, _ => Err TypeError
  end.
Definition natural_lt (a b : string) : result bool := key_lt (split_numbers a) (split_numbers b).

(** [sorted(available, key=_natural_sort_key)]: stable *)
Fixpoint insert (x : string) (l : list string) : result (list string) :=
  match l with
  | [] => Ok [x]
  | y :: l' => let! b := natural_lt x y in if b then Ok (x :: y :: l') else let! r := insert x l' in Ok (y :: r)
  end.
Fixpoint natural_sorted (acc l : list string) : result (list string) :=
  match l with [] => Ok acc | x :: l => let! acc := insert x acc in natural_sorted acc l end.

(** ** Wildcards (60-67): the pattern is literal except for its asterisks, each standing for a group of non-dots *)
Fixpoint glob (p s : string) : option (list string) :=
  match p with
  | EmptyString => Some []
  | String c p' =>
      if Ascii.eqb c "*" then
        (fix star (s : string) : option (list string) :=
           let none := match glob p' s with Some gs => Some ("" :: gs) | None => None end in
           match s with
           | String x s' =>
               if Ascii.eqb x "." then none
               else match star s' with Some (g :: gs) => Some (String x g :: gs) | _ => none end
           | EmptyString => none
           end) s
      else match s with
           | String x s' => if Ascii.eqb c x then glob p' s' else None
           | EmptyString => None
           end
  end.
Fixpoint glob_search (p s : string) : option (list string) :=
  match glob p s with
  | Some gs => Some gs
  | None => match s with String _ s' => glob_search p s' | EmptyString => None end
  end.
Definition wildcard_values (p key : string) : list string :=
  if infix "*" p then match glob_search p key with Some gs => gs | None => [] end else [].

(** _has_complete_wildcard_group (70-71), on a duplicate-free list *)
Definition complete_group (w : list (list string)) : bool :=
  match w with [v] => eqb v [] | _ :: _ :: _ => true | [] => false end.

(** [str.partition] *)
Fixpoint partition_at (sep s : string) : option (string * string) :=
  if String.prefix sep s then Some ("", substring (String.length sep) (String.length s) s)
  else match s with
       | String c s' => match partition_at sep s' with Some (a, b) => Some (String c a, b) | None => None end
       | EmptyString => None
       end.
(** _expanded_target_keys (50-57) *)
Definition expanded (renamed : string) (targets : list string) : list string :=
  match targets with
  | [] => [renamed]
  | t0 :: _ => match partition_at t0 renamed with
               | None => [renamed]
               | Some (a, b) => map (fun t => a ++ t ++ b)%string targets
               end
  end.

Section Convert.
Context {T : Type}.

(** one collected tensor: [add_tensor(target_key, source_key, source_pattern, future)] *)
Record added := { ad_key : string; ad_pattern : string; ad_value : result T }.
Record transform := {
  tr_renaming : bool;                                     (* [isinstance(transform, WeightRenaming)] *)
  tr_rename : string -> string * option string;           (* [rename_source_key] *)
  tr_sources : list string; tr_targets : list string;     (* [source_patterns], [target_patterns] *)
  tr_convert : string -> list added -> result (dict string T) }.   (* [convert], of what was added for the key *)

(** _TransformMatch (15-28) and _iter_transform_matches (37-47) *)
Record tmatch := { tm_source : string; tm_renamed : string; tm_pattern : string; tm_wild : list string }.
Definition matches (tr : transform) (keys : list string) : result (list tmatch) :=
  let! sorted := natural_sorted [] keys in
  Ok (flat_map (fun k => match tr_rename tr k with
                         | (r, Some p) => [{| tm_source := k; tm_renamed := r; tm_pattern := p; tm_wild := wildcard_values p k |}]
                         | (_, None) => []
                         end) sorted).
Definition relevant (tr : transform) (target : string) (m : tmatch) : bool := mem target (expanded (tm_renamed m) (tr_targets tr)).

(** the order in which the set [conversion_layers] is iterated *)
Variable iter : list string -> list string.

(** [for conversion_layer in conversion_layers] (116-120) *)
Fixpoint run_layers (tr : transform) (target : string) (added_for : string -> list added) (layers : list string)
    (avail : dict string (result T)) : result (T + dict string (result T)) :=
  match layers with
  | [] => Ok (inr avail)
  | l :: ls =>
      let! conv := tr_convert tr l (added_for l) in
      match dget conv target with
      | Some t => Ok (inl t)
      | None => run_layers tr target added_for ls (fold_left (fun a kv => dset a (fst kv) (Ok (snd kv))) conv avail)
      end
  end.

Definition source_of (avail : dict string (result T)) (k : string) : result T :=
  match dget avail k with Some r => r | None => Err KeyError end.

(** what [add_tensor] was called with for the key [l] (95-108) *)
Definition collected (avail : dict string (result T)) (rel : list tmatch) (l : string) : list added :=
  map (fun m => {| ad_key := tm_source m; ad_pattern := tm_pattern m; ad_value := source_of avail (tm_source m) |})
      (filter (fun m => eqb (tm_renamed m) l) rel).

(** convert_checkpoint_tensors (91-125), for a model type with transforms *)
Fixpoint convert_from (trs : list transform) (target : string) (avail : dict string (result T)) : result (option T) :=
  match trs with
  | [] => match dget avail target with None => Ok None | Some r => let! t := r in Ok (Some t) end
  | tr :: trs =>
      let! ms := matches tr (dkeys avail) in
      if tr_renaming tr then
        let additions := dict_of (map (fun m => (tm_renamed m, source_of avail (tm_source m))) ms) in
        convert_from trs target (fold_left (fun a kv => dset a (fst kv) (snd kv)) additions avail)
      else
        let rel := filter (relevant tr target) ms in
        let! r := run_layers tr target (collected avail rel) (iter (dedup (map tm_renamed rel))) avail in
        match r with inl t => Ok (Some t) | inr avail' => convert_from trs target avail' end
  end.
(** [registry] is [get_checkpoint_conversion_mapping]; an empty [model_type] is [None] *)
Definition convert_checkpoint (registry : string -> list transform) (model_type : option string)
    (sources : dict string (result T)) (target : string) : result (option T) :=
  match model_type with
  | None | Some "" => Ok None
  | Some mt => match registry mt with [] => Ok None | trs => convert_from trs target sources end
  end.

(** ** can_convert_checkpoint_keys (128-185) *)
Definition pattern_values (rel : list tmatch) (p : string) : list (list string) :=
  dedup (flat_map (fun m => if eqb (tm_pattern m) p then [tm_wild m] else []) rel).
Definition same_set (a b : list (list string)) : bool := forallb (fun x => mem x b) a && forallb (fun x => mem x a) b.

Fixpoint can_convert_from (trs : list transform) (target : string) (avail : list string) : result bool :=
  match trs with
  | [] => Ok false
  | tr :: trs =>
      let! ms := matches tr avail in
      let additions := if tr_renaming tr then map tm_renamed ms else [] in
      let rel := if tr_renaming tr then [] else filter (relevant tr target) ms in
      let avail' := fold_left (fun a k => set_add k a) additions avail in
      if mem target avail' then Ok true
      else match rel with
           | [] => can_convert_from trs target avail'
           | m0 :: _ =>
               if forallb (fun p => negb (match pattern_values rel p with [] => true | _ => false end)) (tr_sources tr) then
                 match tr_sources tr with
                 | [] => Ok false                                        (* no set at all *)
                 | p0 :: ps =>
                     if forallb (fun p => same_set (pattern_values rel p0) (pattern_values rel p)) ps
                     then Ok (complete_group (pattern_values rel p0)) else Ok false
                 end
               else match tr_sources tr with
                    | [_] => Ok (complete_group (pattern_values rel (tm_pattern m0)))
                    | _ => can_convert_from trs target avail'
                    end
           end
  end.
Definition can_convert (registry : string -> list transform) (model_type : option string) (keys : list string) (target : string) : result bool :=
  if mem target keys then Ok true
  else match model_type with
       | None | Some "" => Ok false
       | Some mt => match registry mt with [] => Ok false | trs => can_convert_from trs target keys end
       end.

(** [LoadTensor.execute] up to the conversion of the data type (io/tasks.py:86-114), without aliases *)
Definition load (registry : string -> list transform) (model_type : option string) (sources : dict string (result T))
    (target : string) : result (option T) :=
  match dget sources target with
  | Some r => let! t := r in Ok (Some t)
  | None => convert_checkpoint registry model_type sources target
  end.
End Convert.
Arguments transform : clear implicits.
Arguments added : clear implicits.
