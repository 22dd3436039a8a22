(** Model of mergekit/evo/genome.py. Genotype entries are finite floats, hence rationals; the only operations on them
    are [abs], [clamp] and comparisons, which are exact, and the softmax of the SLERP branch, left abstract. *)
From Coq Require Import QArith Qabs Qminmax.
From Verif.Base Require Import Py.
From Verif.Config Require Import Model.
Local Open Scope string_scope.
Local Open Scope list_scope.

(** METHOD_PARAM_MAPS (genome.py:16-22) *)
Definition method_params : dict string (list string) :=
  [("linear", ["weight"]); ("task_arithmetic", ["weight"]); ("ties", ["weight"; "density"]);
   ("dare_ties", ["weight"; "density"]); ("slerp", ["t"])].

(** a tensor of shape (groups, models, param sets, params) *)
Record tensor4 := { t_groups : nat; t_models : nat; t_sets : nat; t_params : nat; t_at : nat -> nat -> nat -> nat -> Q }.
(** a genotype as given: one-dimensional, four-dimensional, or anything else *)
Inductive genotype := Flat (l : list Q) | Shaped (t : tensor4) | OtherShape.

Section Genome.
Context {M : Type} `{Eqb M}.

(** [ModelGenomeDefinition] (genome.py:29-38), with [ModelGenome.num_layers] (genome.py:69) *)
Record genome := {
  g_models : list M; g_method : string; g_base : option M; g_tokenizer : bool; g_granularity : Z;
  g_normalize : option bool; g_negative : bool; g_filters : option (list string); g_smooth : bool; g_layers : Z }.

(** [validate] (genome.py:40-53) and the check of [ModelGenome.__init__] (genome.py:71-74) *)
Definition validate (g : genome) : result unit :=
  if negb (dmem method_params (g_method g)) then Err ValidationError
  else if mem (g_method g) ["ties"; "dare_ties"; "task_arithmetic"] && match g_base g with None => true | Some _ => false end
  then Err ValidationError
  else if String.eqb (g_method g) "slerp" && (g_smooth g || truthy (g_filters g)) then Err ValidationError
  else if Z.ltb (g_granularity g) 1 || Z.eqb (g_layers g mod g_granularity g) 0 then Ok tt
  else Err AssertionError.

Definition filters (g : genome) : list string := match g_filters g with Some l => l | None => [] end.

(** the number of layer groups (genome.py:78-81, 323-327) *)
Definition layer_groups (g : genome) : Z :=
  if Z.ltb 0 (g_granularity g) then (g_layers g / g_granularity g)%Z else 1%Z.

(** [initial_genotype(random=False)] (genome.py:76-95) *)
Definition initial_genotype (g : genome) : result tensor4 :=
  let! ps := dgetE method_params (g_method g) in
  match g_models g with
  | [] => Err ZeroDivisionError
  | ms => Ok {| t_groups := Z.to_nat (layer_groups g); t_models := List.length ms; t_sets := S (List.length (filters g));
                t_params := List.length ps;
                t_at := fun _ _ _ p => match p with O => 1 / inject_Z (Z.of_nat (List.length ms)) | S _ => 1 end |}
  end.

(** [_to_torch] (genome.py:318-341): [view] with one inferred dimension *)
Definition to_torch (g : genome) (x : genotype) : result tensor4 :=
  match x with
  | Shaped t => Ok t
  | OtherShape => Err RuntimeError
  | Flat l =>
      let groups := Z.to_nat (layer_groups g) in
      let ms := List.length (g_models g) in
      let sets := S (List.length (filters g)) in
      let known := (groups * ms * sets)%nat in
      if Nat.eqb known 0 || negb (Nat.eqb (List.length l mod known) 0) then Err RuntimeError
      else let ps := (List.length l / known)%nat in
           Ok {| t_groups := groups; t_models := ms; t_sets := sets; t_params := ps;
                 t_at := fun a b c d => nth (((a * ms + b) * sets + c) * ps + d) l 0 |}
  end.

(** the values written for a parameter (genome.py:118-131) *)
Definition adjust (g : genome) (param : string) (v : Q) : Q :=
  let v := if String.eqb param "density" then Qmin (Qmax (Qabs v) 0) 1 else v in
  if negb (g_negative g) && mem param ["weight"; "t"] then Qabs v else v.

Definition layer_step (g : genome) : Z := if Z.ltb 0 (g_granularity g) then g_granularity g else g_layers g.

(** [(self.definition.filters + [None])[set_idx]] *)
Definition filter_at (g : genome) (i : nat) : result (option string) :=
  match g_filters g with
  | None => Err TypeError
  | Some l => nthE (map Some l ++ [None]) i
  end.

(** the extra source for a base model that is not one of the models *)
Definition extra_base (g : genome) : option M :=
  match g_base g with
  | Some b => if mem b (g_models g) then None else Some b
  | None => None
  end.

(** the settings of one model: [value set param] is what is written for one parameter set *)
Definition settings (g : genome) (sets : nat) (ps : list string) (value : nat -> nat -> string -> pval) : result (dict string pval) :=
  if Nat.ltb 1 sets then
    rmapM (fun ip => let! conds := rmapM (fun i => let! f := filter_at g i in Ok (PCond (value i (fst ip) (snd ip)) f)) (seq 0 sets) in
                     Ok (snd ip, PList conds)) (combine (seq 0 (List.length ps)) ps)
  else if Nat.eqb sets 0 then match ps with [] => Ok [] | _ => Err IndexError end
  else Ok (map (fun ip => (snd ip, value 0%nat (fst ip) (snd ip))) (combine (seq 0 (List.length ps)) ps)).

(** [_discrete_config_slices] (genome.py:156-218) *)
Definition discrete_slices (g : genome) (t : tensor4) (ps : list string) : result (list (output_slice M)) :=
  rmapM (fun k =>
    let lo := (Z.of_nat k * layer_step g)%Z in
    let hi := ((Z.of_nat k + 1) * layer_step g)%Z in
    let! srcs := rmapM (fun im : nat * M =>
      let! params := settings g (t_sets t) ps (fun i p name => PNum (adjust g name (t_at t k (fst im) i p))) in
      Ok {| is_model := snd im; is_start := lo; is_end := hi; is_params := Some params |})
      (combine (seq 0 (List.length (g_models g))) (g_models g)) in
    Ok {| os_sources := srcs ++ match extra_base g with
                                | Some b => [{| is_model := b; is_start := lo; is_end := hi; is_params := None |}]
                                | None => []
                                end;
          os_base := None; os_params := None |}) (seq 0 (t_groups t)).

(** [_unpack_single_element] (genome.py:368-371) *)
Definition unpack_single (l : list Q) : pval := match l with [x] => PNum x | _ => PList (map PNum l) end.

(** [_smooth_config_models] (genome.py:220-257). The [layer_range] key is not a field of [InputModelDefinition] and is
    dropped by pydantic. *)
Definition smooth_models (g : genome) (t : tensor4) (ps : list string) : result (list (input_model M)) :=
  let! ms := rmapM (fun im : nat * M =>
    let! params := settings g (t_sets t) ps
                     (fun i p name => unpack_single (map (fun k => adjust g name (t_at t k (fst im) i p)) (seq 0 (t_groups t)))) in
    Ok {| im_model := snd im; im_params := Some params |}) (combine (seq 0 (List.length (g_models g))) (g_models g)) in
  Ok (ms ++ match extra_base g with Some b => [{| im_model := b; im_params := None |}] | None => [] end).

(** [_slerp_slices] (genome.py:259-316). [topk2 l] is [torch.topk(l, 2)]'s indices (ties are broken arbitrarily),
    [softmax1 a b] the second entry of [softmax([a, b])], [minus1 t] is [1 - t]. *)
Definition slerp_slices (topk2 : list Q -> nat * nat) (softmax1 : Q -> Q -> Q) (g : genome) (t : tensor4) : result (list (output_slice M)) :=
  rmapM (fun k =>
    let lo := (Z.of_nat k * layer_step g)%Z in
    let hi := ((Z.of_nat k + 1) * layer_step g)%Z in
    if Nat.eqb (t_sets t) 0 then Err IndexError
    else if Nat.ltb (t_models t) 2 then Err RuntimeError
    else
      let row := map (fun m => t_at t k m 0 0) (seq 0 (t_models t)) in
      let (i, j) := topk2 row in
      let tv := softmax1 (nth i row 0) (nth j row 0) in
      let! mi := nthE (g_models g) i in
      let! mj := nthE (g_models g) j in
      let src (m : M) (w : Q) := {| is_model := m; is_start := lo; is_end := hi;
                                    is_params := if g_tokenizer g then Some [("weight", PNum w)] else None |} in
      Ok {| os_sources := [src mi (1 - tv); src mj tv]
                          ++ match extra_base g with
                             | Some b => [{| is_model := b; is_start := lo; is_end := hi; is_params := None |}]
                             | None => []
                             end;
            os_base := Some mi; os_params := Some [("t", PNum tv)] |}) (seq 0 (t_groups t)).

(** [genotype_merge_config] (genome.py:97-154) *)
Definition genotype_merge_config (topk2 : list Q -> nat * nat) (softmax1 : Q -> Q -> Q) (g : genome) (x : genotype)
  : result (merge_config M) :=
  let! t := to_torch g x in
  if Z.ltb 0 (g_granularity g) && negb (Z.eqb (Z.of_nat (t_groups t) * g_granularity g) (g_layers g)) then Err AssertionError
  else if negb (Nat.eqb (t_models t) (List.length (g_models g))) then Err AssertionError
  else
    let! ps := dgetE method_params (g_method g) in
    if negb (Nat.eqb (t_params t) (List.length ps)) then Err AssertionError
    else
      let! (slices, models) :=
        if String.eqb (g_method g) "slerp" then let! s := slerp_slices topk2 softmax1 g t in Ok (Some s, None)
        else if g_smooth g then let! ms := smooth_models g t ps in Ok (None, Some ms)
        else let! s := discrete_slices g t ps in Ok (Some s, None) in
      let normalize := match g_normalize g with Some b => b | None => mem (g_method g) ["ties"; "dare_ties"; "linear"] end in
      let c := {| mc_modules := None; mc_slices := slices; mc_models := models; mc_base := g_base g;
                  mc_params := Some [("normalize", PNum (if normalize then 1 else 0)); ("int8_mask", PNum 1)];
                  mc_dtype := Some "bfloat16"; mc_out_dtype := None |} in
      let! _ := validate_config c in Ok c.
End Genome.
Arguments genome M : clear implicits.
