(** Model of reading and writing configurations: the pydantic models of mergekit/config.py (11-137), tokenizer/config.py
    and common.py (61-225) on the values YAML stands for, and [to_yaml] (config.py:145-149).

    The text itself is PyYAML's: [yaml.safe_load] of what [yaml.dump] writes gives the value back, with the entries of
    every mapping in the order of their keys ([sort_keys] is on by default). *)
From Coq Require Import Ascii QArith.
From Verif.Base Require Import Py.
From Verif.Common Require Import Model.
From Verif.Config Require Import Model.
Local Open Scope string_scope.
Local Open Scope list_scope.

Inductive yval :=
| YNull
| YBool (b : bool)
| YInt (z : Z)
| YFloat (q : Q)
| YStr (s : string)
| YList (l : list yval)
| YMap (d : list (string * yval)).

(** ** Mappings in the order of their keys (ASCII) *)
Fixpoint insert {V} (k : string) (v : V) (d : list (string * V)) : list (string * V) :=
  match d with
  | [] => [(k, v)]
  | (k', v') :: d' => if String.leb k k' then (k, v) :: d else (k', v') :: insert k v d'
  end.
Fixpoint by_key {V} (d : list (string * V)) : list (string * V) :=
  match d with [] => [] | (k, v) :: d => insert k v (by_key d) end.
Fixpoint ysort (y : yval) : yval :=
  match y with
  | YList l => YList (map ysort l)
  | YMap d => YMap (by_key (map (fun kv => (fst kv, ysort (snd kv))) d))
  | _ => y
  end.

(** ** The rest of the configuration (config.py:90-98, tokenizer/config.py) *)
Inductive tok_source := TUnion | TBase | TModel (m : model_ref).
Inductive token_source := EToken (m : model_ref) (id : option Z) (token : option string) | EZero | EModel (m : model_ref).
Record token_config := { te_source : option token_source; te_force : bool }.
Record tokenizer_config := { tk_source : tok_source; tk_tokens : option (dict string token_config); tk_pad : option Z }.
(** [MergeConfiguration]; [residual_weight] of slices, which nothing reads, is left out *)
Record document := {
  d_config : merge_config model_ref; d_method : string;
  d_tok_source : option tok_source; d_tokenizer : option tokenizer_config; d_chat : option string }.

(** ** model_dump(exclude_defaults=True, mode="json") *)
(** fields that are not at their default *)
Definition fields (l : list (string * option yval)) : yval :=
  YMap (flat_map (fun kv => match snd kv with Some y => [(fst kv, y)] | None => [] end) l).
Definition or_null (o : option yval) : yval := match o with Some y => y | None => YNull end.
Definition dump_path (p : model_path) : yval :=
  fields [("path", Some (YStr (mp_path p))); ("revision", option_map YStr (mp_revision p))].
(** serialize (common.py:204-215): with an architecture the three fields are written even if absent *)
Definition dump_ref (r : model_ref) : yval :=
  match serialize r with
  | DString s => YStr s
  | DFields r => match mr_arch r with
                 | Some a => fields [("model", Some (dump_path (mr_model r))); ("lora", Some (or_null (option_map dump_path (mr_lora r))));
                                     ("override_architecture", Some (YStr a))]
                 | None => fields [("model", Some (dump_path (mr_model r))); ("lora", option_map dump_path (mr_lora r))]
                 end
  end.
Fixpoint dump_setting (v : pval) : yval :=
  match v with
  | PNum q => YFloat q
  | PStr s => YStr s
  | PCond v f => fields [("value", Some (dump_setting v)); ("filter", option_map YStr f)]
  | PList l => YList (map dump_setting l)
  end.
Definition dump_dict {V} (dump : V -> yval) (d : dict string V) : yval := YMap (map (fun kv => (fst kv, dump (snd kv))) d).
Definition dump_list {A} (dump : A -> yval) (l : list A) : yval := YList (map dump l).
Definition dump_params (p : params) : option yval := option_map (dump_dict dump_setting) p.
Definition dump_islice (s : input_slice model_ref) : yval :=
  fields [("model", Some (dump_ref (is_model s))); ("layer_range", Some (YList [YInt (is_start s); YInt (is_end s)])); ("parameters", dump_params (is_params s))].
Definition dump_imodel (m : input_model model_ref) : yval :=
  fields [("model", Some (dump_ref (im_model m))); ("parameters", dump_params (im_params m))].
Definition dump_oslice (s : output_slice model_ref) : yval :=
  fields [("sources", Some (dump_list dump_islice (os_sources s))); ("base_model", option_map dump_ref (os_base s)); ("parameters", dump_params (os_params s))].
Definition dump_omodule (m : output_module model_ref) : yval :=
  fields [("slices", option_map (dump_list dump_oslice) (om_slices m)); ("models", option_map (dump_list dump_imodel) (om_models m));
          ("parameters", dump_params (om_params m))].
Definition dump_tok_source (s : tok_source) : yval := match s with TUnion => YStr "union" | TBase => YStr "base" | TModel m => dump_ref m end.
Definition dump_token_source (s : token_source) : yval :=
  match s with
  | EToken m id tok => fields [("kind", Some (YStr "model_token")); ("model", Some (dump_ref m)); ("token_id", option_map YInt id); ("token", option_map YStr tok)]
  | EZero => fields [("kind", Some (YStr "zero"))]
  | EModel m => dump_ref m
  end.
Definition dump_token (t : token_config) : yval :=
  fields [("source", option_map dump_token_source (te_source t)); ("force", if te_force t then Some (YBool true) else None)].
Definition dump_tokenizer (t : tokenizer_config) : yval :=
  fields [("source", match tk_source t with TUnion => None | s => Some (dump_tok_source s) end);
          ("tokens", option_map (dump_dict dump_token) (tk_tokens t)); ("pad_to_multiple_of", option_map YInt (tk_pad t))].
Definition dump (d : document) : yval :=
  let c := d_config d in
  fields [("modules", option_map (dump_dict dump_omodule) (mc_modules c)); ("slices", option_map (dump_list dump_oslice) (mc_slices c));
          ("models", option_map (dump_list dump_imodel) (mc_models c)); ("merge_method", Some (YStr (d_method d)));
          ("base_model", option_map dump_ref (mc_base c)); ("dtype", option_map YStr (mc_dtype c));
          ("tokenizer_source", option_map dump_tok_source (d_tok_source d)); ("tokenizer", option_map dump_tokenizer (d_tokenizer d));
          ("chat_template", option_map YStr (d_chat d)); ("out_dtype", option_map YStr (mc_out_dtype c)); ("parameters", dump_params (mc_params c))].
(** to_yaml, as the value its text stands for *)
Definition to_yaml (d : document) : yval := ysort (dump d).

(** ** model_validate. Errors pydantic collects are [ValidationError]; a RuntimeError of a validator goes through. Unknown keys
    are ignored. Of a union, the first member that accepts the value is taken. *)
Definition required (d : list (string * yval)) (k : string) : result yval :=
  match dget d k with Some y => Ok y | None => Err ValidationError end.
Definition optional {A} (rd : yval -> result A) (d : list (string * yval)) (k : string) : result (option A) :=
  match dget d k with
  | None | Some YNull => Ok None
  | Some y => let! v := rd y in Ok (Some v)
  end.
Definition as_map (y : yval) : result (list (string * yval)) := match y with YMap d => Ok d | _ => Err ValidationError end.
Definition read_str (y : yval) : result string := match y with YStr s => Ok s | _ => Err ValidationError end.
(** numeric strings are outside the model *)
Definition read_int (y : yval) : result Z :=
  match y with
  | YInt z => Ok z
  | YBool b => Ok (if b then 1 else 0)%Z
  | YFloat q => if Qeq_bool q (inject_Z (Qtrunc q)) then Ok (Qtrunc q) else Err ValidationError
  | _ => Err ValidationError
  end.
Definition read_num (y : yval) : result pval :=
  match y with
  | YFloat q => Ok (PNum q)
  | YInt z => Ok (PNum (inject_Z z))
  | YBool b => Ok (PNum (if b then 1 else 0))
  | _ => Err ValidationError
  end.
Definition read_list {A} (rd : yval -> result A) (y : yval) : result (list A) :=
  match y with YList l => rmapM rd l | _ => Err ValidationError end.
Definition read_dict {A} (rd : yval -> result A) (y : yval) : result (dict string A) :=
  let! d := as_map y in rmapM (fun kv => let! v := rd (snd kv) in Ok (fst kv, v)) d.

Definition read_path (y : yval) : result model_path :=
  match y with
  | YStr s => parse_path s
  | _ => let! d := as_map y in
         let! p := required d "path" in let! p := read_str p in
         let! r := optional read_str d "revision" in
         Ok {| mp_path := p; mp_revision := r |}
  end.
Definition read_ref (y : yval) : result model_ref :=
  match y with
  | YStr s => parse_ref s
  | _ => let! d := as_map y in
         let! m := required d "model" in let! m := read_path m in
         let! l := optional read_path d "lora" in
         let! a := optional read_str d "override_architecture" in
         Ok {| mr_model := m; mr_lora := l; mr_arch := a |}
  end.
(** [ScalarOrGradient], [ConditionalParameter], [ParameterSetting] (config.py:12-23) *)
Definition read_gradient (y : yval) : result pval :=
  match y with YList _ => let! l := read_list read_num y in Ok (PList l) | _ => read_num y end.
Definition read_cond (y : yval) : result pval :=
  let! d := as_map y in
  let! v := required d "value" in let! v := read_gradient v in
  let! f := optional read_str d "filter" in
  Ok (PCond v f).
Definition read_setting (y : yval) : result pval :=
  match y with
  | YMap _ => read_cond y
  | YList l => match rmapM read_cond l with Ok l => Ok (PList l) | Err _ => read_gradient y end
  | _ => read_num y
  end.
Definition read_params (d : list (string * yval)) : result params := optional (read_dict read_setting) d "parameters".
Definition read_range (y : yval) : result (Z * Z) :=
  let! l := read_list read_int y in match l with [a; b] => Ok (a, b) | _ => Err ValidationError end.
Definition read_islice (y : yval) : result (input_slice model_ref) :=
  let! d := as_map y in
  let! m := required d "model" in let! m := read_ref m in
  let! r := required d "layer_range" in let! r := read_range r in
  let! p := read_params d in
  Ok {| is_model := m; is_start := fst r; is_end := snd r; is_params := p |}.
Definition read_imodel (y : yval) : result (input_model model_ref) :=
  let! d := as_map y in
  let! m := required d "model" in let! m := read_ref m in
  let! p := read_params d in
  Ok {| im_model := m; im_params := p |}.
Definition read_oslice (y : yval) : result (output_slice model_ref) :=
  let! d := as_map y in
  let! s := required d "sources" in let! s := read_list read_islice s in
  let! b := optional read_ref d "base_model" in
  let! p := read_params d in
  Ok {| os_sources := s; os_base := b; os_params := p |}.
Definition read_omodule (y : yval) : result (output_module model_ref) :=
  let! d := as_map y in
  let! s := optional (read_list read_oslice) d "slices" in
  let! m := optional (read_list read_imodel) d "models" in
  let! p := read_params d in
  let r := {| om_slices := s; om_models := m; om_params := p |} in
  let! _ := validate_module r in Ok r.

(** a literal is an exact match and wins over a model of that name *)
Definition read_tok_source (y : yval) : result tok_source :=
  match y with
  | YStr s => if String.eqb s "union" then Ok TUnion else if String.eqb s "base" then Ok TBase else let! m := read_ref y in Ok (TModel m)
  | _ => let! m := read_ref y in Ok (TModel m)
  end.
Definition has_kind (d : list (string * yval)) (k : string) : bool :=
  match dget d "kind" with Some (YStr s) => String.eqb s k | _ => false end.
Definition read_model_token (d : list (string * yval)) : result token_source :=
  if has_kind d "model_token" then
    let! m := required d "model" in let! m := read_ref m in
    let! i := optional read_int d "token_id" in
    let! t := optional read_str d "token" in
    match i, t with
    | None, None | Some _, Some _ => Err ValidationError
    | _, _ => Ok (EToken m i t)
    end
  else Err ValidationError.
Definition or_try {A} (a b : result A) : result A := match a with Err ValidationError => b | _ => a end.
Definition read_token_source (y : yval) : result token_source :=
  match y with
  | YMap d => or_try (read_model_token d)
                (if has_kind d "zero" then Ok EZero else let! m := read_ref y in Ok (EModel m))
  | _ => let! m := read_ref y in Ok (EModel m)
  end.
Definition read_bool (y : yval) : result bool := match y with YBool b => Ok b | _ => Err ValidationError end.
(** a field with a default that is not None: an explicit null is an error *)
Definition defaulted {A} (rd : yval -> result A) (dflt : A) (d : list (string * yval)) (k : string) : result A :=
  match dget d k with None => Ok dflt | Some y => rd y end.
Definition read_token (y : yval) : result token_config :=
  let! d := as_map y in
  let! s := optional read_token_source d "source" in
  let! f := defaulted read_bool false d "force" in
  Ok {| te_source := s; te_force := f |}.
Definition read_tokenizer (y : yval) : result tokenizer_config :=
  let! d := as_map y in
  let! s := defaulted read_tok_source TUnion d "source" in
  let! t := optional (read_dict read_token) d "tokens" in
  let! p := optional read_int d "pad_to_multiple_of" in
  Ok {| tk_source := s; tk_tokens := t; tk_pad := p |}.
(** validate_tokenizer (config.py:139-143) *)
Definition validate_tokenizer (d : document) : result unit :=
  match d_tok_source d, d_tokenizer d with Some _, Some _ => Err RuntimeError | _, _ => Ok tt end.
Definition read (y : yval) : result document :=
  let! d := as_map y in
  let! ms := optional (read_dict read_omodule) d "modules" in
  let! sl := optional (read_list read_oslice) d "slices" in
  let! im := optional (read_list read_imodel) d "models" in
  let! me := required d "merge_method" in let! me := read_str me in
  let! b := optional read_ref d "base_model" in
  let! dt := optional read_str d "dtype" in
  let! ts := optional read_tok_source d "tokenizer_source" in
  let! tk := optional read_tokenizer d "tokenizer" in
  let! ch := optional read_str d "chat_template" in
  let! od := optional read_str d "out_dtype" in
  let! p := read_params d in
  let r := {| d_config := {| mc_modules := ms; mc_slices := sl; mc_models := im; mc_base := b; mc_params := p; mc_dtype := dt; mc_out_dtype := od |};
              d_method := me; d_tok_source := ts; d_tokenizer := tk; d_chat := ch |} in
  let! _ := validate_config (d_config r) in
  let! _ := validate_tokenizer r in
  Ok r.
