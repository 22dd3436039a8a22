(** Model of mergekit/architecture/base.py and json_definitions.py, and the nested configuration accessors of
    common.py. *)
From Verif.Base Require Export PyStr.
From Verif.Base Require Import Py.
Local Open Scope string_scope.
Local Open Scope list_scope.

(** [WeightInfo] (base.py:14-35); tuples are lists *)
Record weight_info := {
  wi_name : string; wi_embed : bool; wi_optional : bool;
  wi_aliases : option (list string); wi_dtype : option string; wi_tied : option (list string) }.

(** [tuple(prefix + a for a in names or ()) or None] *)
Definition prefix_names (p : string) (o : option (list string)) : option (list string) :=
  match o with
  | Some (x :: l) => Some (map (fun a => p ++ a)%string (x :: l))
  | _ => None
  end.

(** [_prefix_weight] (base.py:38-47) *)
Definition prefix_weight (p : option string) (w : weight_info) : weight_info :=
  match p with
  | None => w
  | Some p => {| wi_name := (p ++ wi_name w)%string; wi_embed := wi_embed w; wi_optional := wi_optional w;
                 wi_aliases := prefix_names p (wi_aliases w); wi_dtype := wi_dtype w;
                 wi_tied := prefix_names p (wi_tied w) |}
  end.

(** ** PretrainedConfig, as a tree of attributes. [attribute_map] aliasing, class attributes and methods are
    not modelled. *)
Inductive cfgval :=
| CVInt (z : Z) | CVStr (s : string) | CVBool (b : bool) | CVNone | CVObj (fields : dict string cfgval).

(** [hasattr/getattr] *)
Definition attr (c : cfgval) (k : string) : option cfgval :=
  match c with CVObj d => dget d k | _ => None end.

(** [s.split(".")] *)
Fixpoint split_on (sep : Ascii.ascii) (s : string) : list string :=
  match s with
  | EmptyString => [EmptyString]
  | String c s' =>
      if Ascii.eqb c sep then EmptyString :: split_on sep s'
      else match split_on sep s' with
           | [] => [String c EmptyString]
           | x :: l => String c x :: l
           end
  end.

Fixpoint get_path (c : cfgval) (ps : list string) : result cfgval :=
  match ps with
  | [] => Ok c
  | p :: ps => match attr c p with Some c' => get_path c' ps | None => Err RuntimeError end
  end.

(** [get_config_value] (common.py:48-58) *)
Definition get_config_value (c : cfgval) (key : string) : result cfgval := get_path c (split_on "."%char key).

(** [set_config_value] (common.py:35-45) *)
Fixpoint set_path (c : cfgval) (ps : list string) (v : cfgval) : result cfgval :=
  match ps with
  | [] => Err IndexError
  | [p] => match c with
           | CVObj d => Ok (CVObj (dset d p v))
           | _ => Err AttributeError
           end
  | p :: ps =>
      match c with
      | CVObj d => match dget d p with
                   | Some c' => let! c'' := set_path c' ps v in Ok (CVObj (dset d p c''))
                   | None => Err RuntimeError
                   end
      | _ => Err RuntimeError
      end
  end.
Definition set_config_value (c : cfgval) (key : string) (v : cfgval) : result cfgval :=
  set_path c (split_on "."%char key) v.

(** ** Templates: [string.Template] with [idpattern = (?a:[_a-z][_a-z0-9]*([+-]1)?)], case-insensitive
    (json_definitions.py:111-136) *)
Definition between (lo hi c : Ascii.ascii) : bool :=
  Nat.leb (Ascii.nat_of_ascii lo) (Ascii.nat_of_ascii c) && Nat.leb (Ascii.nat_of_ascii c) (Ascii.nat_of_ascii hi).
Definition id_start (c : Ascii.ascii) : bool :=
  between "a" "z" c || between "A" "Z" c || Ascii.eqb c "_".
Definition id_char (c : Ascii.ascii) : bool := id_start c || between "0" "9" c.

Fixpoint span_id (s : string) : string * string :=
  match s with
  | String c s' => if id_char c then let (a, b) := span_id s' in (String c a, b) else (EmptyString, s)
  | EmptyString => (EmptyString, EmptyString)
  end.

(** longest match of [idpattern] at the start of [s], and the rest *)
Definition match_id (s : string) : option (string * string) :=
  match s with
  | String c s' =>
      if id_start c then
        let (a, b) := span_id s' in
        match b with
        | String o (String one b') =>
            if (Ascii.eqb o "+" || Ascii.eqb o "-") && Ascii.eqb one "1"
            then Some ((String c a ++ String o (String one EmptyString))%string, b')
            else Some (String c a, b)
        | _ => Some (String c a, b)
        end
      else None
  | EmptyString => None
  end.

(** One piece of a template *)
Inductive piece := Lit (c : Ascii.ascii) | Var (id : string) | Bad.

(** [Template.substitute] scans left to right; [fuel] is the length of the text. *)
Fixpoint pieces (fuel : nat) (s : string) : list piece :=
  match fuel, s with
  | S f, String c s' =>
      if Ascii.eqb c "$" then
        match s' with
        | String d s'' =>
            if Ascii.eqb d "$" then Lit "$" :: pieces f s''
            else if Ascii.eqb d "{" then
              match match_id s'' with
              | Some (id, String e rest) => if Ascii.eqb e "}" then Var id :: pieces f rest else [Bad]
              | _ => [Bad]
              end
            else match match_id s' with
                 | Some (id, rest) => Var id :: pieces f rest
                 | None => [Bad]
                 end
        | EmptyString => [Bad]
        end
      else Lit c :: pieces f s'
  | _, _ => []
  end.

Definition env := dict string Z.

Fixpoint render (e : env) (ps : list piece) : result string :=
  match ps with
  | [] => Ok EmptyString
  | Lit c :: ps => let! r := render e ps in Ok (String c r)
  | Var id :: ps =>
      match dget e id with
      | Some z => let! r := render e ps in Ok (str_of_Z z ++ r)%string
      | None => Err KeyError
      end
  | Bad :: _ => Err ValueError
  end.

Definition subst_env (n : Z) (layer : option Z) : env :=
  [("num_layers", n); ("num_layers+1", n + 1); ("num_layers-1", n - 1)]%Z ++
  match layer with
  | Some i => [("layer_index", i); ("layer_index+1", i + 1); ("layer_index-1", i - 1)]%Z
  | None => [] end.

(** [_template_substitution] *)
Definition template_substitution (t : string) (n : Z) (layer : option Z) : result string :=
  if infix "{" t then render (subst_env n layer) (pieces (String.length t) t) else Ok t.

(** ** Module architectures as the planner sees them (base.py:50-83) *)
Record module_arch := {
  ma_pre : cfgval -> result (list weight_info);
  ma_post : cfgval -> result (list weight_info);
  ma_layer : Z -> cfgval -> result (list weight_info);
  ma_key : option string;
  ma_num : cfgval -> result Z }.

Record module_def := { md_arch : module_arch; md_prefix : option string }.
Definition model_arch := dict string module_def.

(** [ConfiguredModuleArchitecture.pre_weights] etc. (base.py:86-118) *)
Definition c_pre (md : module_def) (c : cfgval) : result (list weight_info) :=
  let! ws := ma_pre (md_arch md) c in Ok (map (prefix_weight (md_prefix md)) ws).
Definition c_post (md : module_def) (c : cfgval) : result (list weight_info) :=
  let! ws := ma_post (md_arch md) c in Ok (map (prefix_weight (md_prefix md)) ws).
Definition c_layer (md : module_def) (i : Z) (c : cfgval) : result (list weight_info) :=
  let! ws := ma_layer (md_arch md) i c in Ok (map (prefix_weight (md_prefix md)) ws).

(** ** JSON-defined modules (json_definitions.py:26-93) *)
Record json_arch := {
  ja_pre : list weight_info; ja_layer : list weight_info; ja_post : list weight_info;
  ja_key : option string; ja_override : option Z }.

(** [num_layers] (json_definitions.py:90-93, base.py:72-74). A non-integer value is outside the model. *)
Definition ja_num (a : json_arch) (c : cfgval) : result Z :=
  match ja_override a with
  | Some n => Ok n
  | None => match ja_key a with
            | None => Err AttributeError
            | Some k => let! v := get_config_value c k in
                        match v with CVInt z => Ok z | _ => Err TypeError end
            end
  end.

Definition subst_opt (n : Z) (layer : option Z) (o : option string) : result (option string) :=
  match o with None => Ok None | Some s => let! s' := template_substitution s n layer in Ok (Some s') end.
Definition subst_names (n : Z) (layer : option Z) (o : option (list string)) : result (option (list string)) :=
  match o with
  | None => Ok None
  | Some l => let! l' := rmapM (fun s => template_substitution s n layer) l in Ok (Some l')
  end.

(** [_substitute] (json_definitions.py:41-64) *)
Definition substitute (a : json_arch) (c : cfgval) (layer : option Z) (w : weight_info) : result weight_info :=
  let! n := ja_num a c in
  let! name := template_substitution (wi_name w) n layer in
  let! al := subst_names n layer (wi_aliases w) in
  let! dt := subst_opt n layer (wi_dtype w) in
  let! td := subst_names n layer (wi_tied w) in
  Ok {| wi_name := name; wi_embed := wi_embed w; wi_optional := wi_optional w; wi_aliases := al;
        wi_dtype := dt; wi_tied := td |}.

Definition json_module (a : json_arch) : module_arch :=
  {| ma_pre := fun c => rmapM (substitute a c None) (ja_pre a);
     ma_post := fun c => rmapM (substitute a c None) (ja_post a);
     ma_layer := fun i c => rmapM (substitute a c (Some i)) (ja_layer a);
     ma_key := ja_key a;
     ma_num := ja_num a |}.

(** [ModuleArchitecture.all_weights] (base.py:76-83) *)
Definition layer_range (n : Z) : list Z := map Z.of_nat (seq 0 (Z.to_nat n)).
Definition all_weights (m : module_arch) (c : cfgval) : result (list weight_info) :=
  let! n := ma_num m c in
  let! pre := ma_pre m c in
  let! ls := rmapM (fun i => ma_layer m i c) (layer_range n) in
  let! post := ma_post m c in
  Ok (pre ++ concat ls ++ post).
