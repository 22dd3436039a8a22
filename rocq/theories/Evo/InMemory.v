(** Model of the in-memory evaluator (mergekit/evo/actors.py:124-353): one model is kept, the parameters are overwritten with
    the merged tensors of each genotype in turn.

    Parameters: the configurations of genotypes, the configuration of the merged model, what the executor yields for a plan,
    the parameters of a model, the harness. A parameter of vLLM may consist of parts (the queries, keys and values of
    [qkv_proj]); each part is a cell of its own. Not modelled: shapes, devices, the creation of the vLLM engine. *)
From Coq Require Import QArith.
From Verif.Base Require Import Py PyStr.
From Verif.Moe Require Import Model.
From Verif.Evo Require Import Evaluate.
Local Open Scope string_scope.
Local Open Scope list_scope.

Inductive shard := SQ | SK | SV | SGate | SUp.
Global Instance shard_eqb : Eqb shard.
Proof.
  refine {| eqb a b := match a, b with SQ, SQ | SK, SK | SV, SV | SGate, SGate | SUp, SUp => true | _, _ => false end |}.
  intros a b; destruct a, b; constructor; congruence.
Defined.
(** [None] for a parameter that is not made of parts *)
Definition cell : Type := string * option shard.

(** [stacked_mapping] (actors.py:295-302) *)
Definition stacked_mapping : list (string * (string * shard)) :=
  [(".q_proj.", (".qkv_proj.", SQ)); (".k_proj.", (".qkv_proj.", SK)); (".v_proj.", (".qkv_proj.", SV));
   (".gate_proj.", (".gate_up_proj.", SGate)); (".up_proj.", (".gate_up_proj.", SUp))].
(** the first needle found, replaced everywhere (actors.py:326-331) *)
Definition stacked (name : string) : option (string * shard) :=
  match find (fun e => infix (fst e) name) stacked_mapping with
  | Some (needle, (replacement, shard_id)) => Some (replace needle replacement name, shard_id)
  | None => None
  end.

(** keys the comparison passes over (actors.py:164-168) and keys that are updated (169-172) *)
Definition skipped_key (k : string) : bool := mem k ["architectures"; "model_type"; "use_cache"; "torch_dtype"].
Definition token_key (k : string) : bool := ends_with "_token_id" k.

Section InMemory.
Context {A V : Type} `{Eqb A}.                       (** attributes of configurations, tensors *)
Definition config : Type := dict string A.
Variable defaults : config.                           (** the attributes of a configuration that was given nothing *)
Variable parts : config -> list (string * list shard). (** the parameters of a model and their parts *)
Variable part : V -> shard -> V.                      (** the part of a tensor copied over a parameter made of parts *)
Variable garbage : config -> cell -> V.               (** [no_init_weights] *)

(** [to_diff_dict] of transformers: the attributes with values other than the default *)
Definition diff_keys (c : config) : list string :=
  filter (fun k => negb (match dget c k, dget defaults k with Some a, Some b => eqb a b | _, _ => false end)) (dkeys c).

Definition cells_of (p : string * list shard) : list cell :=
  match snd p with [] => [(fst p, None)] | l => map (fun s => (fst p, Some s)) l end.
Definition cells (c : config) : list cell := flat_map cells_of (parts c).

Record state := { st_config : config; st_parts : list (string * list shard); st_store : dict cell V }.
Definition fresh (c : config) : state := {| st_config := c; st_parts := parts c; st_store := map (fun x => (x, garbage c x)) (cells c) |}.

(** [_maybe_init_model] (actors.py:151-258): [None] if some key differs, else the configuration with updated token ids *)
Fixpoint compare_keys (cfg_out old : config) (ks : list string) : option config :=
  match ks with
  | [] => Some old
  | k :: ks =>
      if skipped_key k then compare_keys cfg_out old ks
      else if token_key k then compare_keys cfg_out (match dget cfg_out k with Some a => dset old k a | None => old end) ks
      else if eqb (dget cfg_out k) (dget old k) then compare_keys cfg_out old ks else None
  end.
Definition maybe_init (st : option state) (cfg_out : config) : state :=
  match st with
  | None => fresh cfg_out
  | Some st => match compare_keys cfg_out (st_config st) (diff_keys cfg_out) with
               | Some cfg => {| st_config := cfg; st_parts := st_parts st; st_store := st_store st |}
               | None => fresh cfg_out
               end
  end.

(** the loop over the executor's results (actors.py:315-341); [vllm] as given on the command line *)
Definition copy_over (ps : list (string * list shard)) (store : dict cell V) (name : string) (v : V) : dict cell V :=
  match dget ps name with
  | Some [] | None => dset store (name, None) v
  | Some l => fold_left (fun s x => dset s (name, Some x) (part v x)) l store
  end.
Definition load_one (vllm : bool) (ps : list (string * list shard)) (store : dict cell V) (nv : string * option V) : result (dict cell V) :=
  let (name, value) := nv in
  if dmem ps name then match value with Some v => Ok (copy_over ps store name v) | None => Err TypeError end
  else if vllm then
    match stacked name with
    | Some (target, s) =>
        match dget ps target with
        | None => Err KeyError
        | Some l => match value with
                    | Some v => if mem s l then Ok (dset store (target, Some s) v) else Err AttributeError
                    | None => Err AttributeError
                    end
        end
    | None => Err ValueError
    end
  else Err ValueError.
(** the store after the loop, and what was raised in it *)
Fixpoint load (vllm : bool) (ps : list (string * list shard)) (store : dict cell V) (l : list (string * option V)) (raised : option exn)
  : dict cell V * option exn :=
  match l with
  | [] => (store, raised)
  | nv :: l => match load_one vllm ps store nv with
               | Ok store' => load vllm ps store' l raised
               | Err e => (store, Some e)
               end
  end.

Context {Geno Cfg : Type}.
Variable configure : Geno -> result (option Cfg).
Variable out_config : Cfg -> result config.           (** [_model_out_config], with use_cache and torch_dtype set *)
Variable executed : Cfg -> config -> list (string * option V) * option exn.  (** what [executor.run] yields, and raises *)
Variable harness : dict cell V -> result results.
Variable tasks : list task.
Variable vllm : bool.

(** [evaluate] (actors.py:260-347) *)
Definition evaluate (st : option state) (g : Geno) : option state * result (option Q) :=
  match configure g with
  | Err e => (st, Err e)
  | Ok None => (st, Ok None)
  | Ok (Some c) =>
      match out_config c with
      | Err e => (st, Err e)
      | Ok cfg_out =>
          let st1 := maybe_init st cfg_out in
          let (l, raised) := executed c (st_config st1) in
          let (store, failure) := load vllm (st_parts st1) (st_store st1) l raised in
          (Some {| st_config := st_config st1; st_parts := st_parts st1; st_store := store |},
           match failure with
           | Some e => Err e
           | None => let! res := harness store in let! s := score tasks res in Ok (Some s)
           end)
      end
  end.
(** the genotypes evaluated before *)
Definition after (gs : list Geno) : option state := fold_left (fun st g => fst (evaluate st g)) gs None.
End InMemory.
