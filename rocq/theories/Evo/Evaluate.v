(** Model of the evaluation of genotypes: mergekit/evo/helpers.py, evo/actors.py (OnDiskMergeEvaluator), the pool and serial
    strategies of evo/strategy.py, check_for_naughty_config (evo/config.py:43-86) and the driver scripts/evolve.py.

    Parameters: what a genotype is configured to, the merge of a configuration, the harness (lm-eval). The directory of merged
    models is a dictionary; [mkdtemp] returns some name that is not in use. Actors work in any interleaving, at most [n] at
    a time. Not modelled: retries after ConnectionError, the optimiser (cma), wandb. *)
From Coq Require Import QArith.
From Verif.Base Require Import Py PyStr.
From Verif.Config Require Import Model.
From Verif.Common Require Import Model Lora.
From Verif.Evo Require Import Model.
Local Open Scope string_scope.
Local Open Scope list_scope.

(** [TaskConfiguration] (evo/config.py:12-15) *)
Record task := { tk_name : string; tk_weight : Q; tk_metric : string }.
(** [results["results"]] of lm-eval *)
Definition results := dict string (dict string Q).

(** evo/config.py:28-42 *)
Definition naughty_prefixes : list string :=
  ["mmlu"; "hendrycks"; "agieval"; "gsm8k"; "hellaswag"; "winogrande"; "arc_"; "ai2_arc"; "truthfulqa"; "bigbench"; "piqa";
   "openbookqa"; "leaderboard"].
Definition ends_with (s suffix : string) : bool :=
  Nat.leb (String.length suffix) (String.length s) &&
  String.eqb (substring (String.length s - String.length suffix) (String.length suffix) s) suffix.
(** [check_for_naughty_config] (evo/config.py:45-86) *)
Definition check_naughty (tasks : list task) (allow : bool) : result unit :=
  fold_left (fun acc t =>
    fold_left (fun acc p =>
      let! _ := acc in
      if String.prefix p (tk_name t) then
        if ends_with (tk_name t) "_train" then Ok tt else if allow then Ok tt else Err ValueError
      else Ok tt) naughty_prefixes acc) tasks (Ok tt).

(** the loop of [_eval_model] (helpers.py:42-45) *)
Definition score (tasks : list task) (res : results) : result Q :=
  fold_left (fun acc t =>
    let! s := acc in
    let! row := dgetE res (tk_name t) in
    let! v := dgetE row (tk_metric t) in
    Ok (s + v * tk_weight t)%Q) tasks (Ok 0%Q).

Section Evaluate.
Context {Geno Cfg Content : Type}.
Variable configure : Geno -> result (option Cfg).   (** [None]: InvalidGenotypeError *)
Variable run_merge : Cfg -> result Content.
Variable harness : Content -> list string -> result results.
Variable as_list : list string -> list string.       (** [list(set(..))] *)
Variable tasks : list task.

(** [_eval_model] (helpers.py:26-46) *)
Definition eval_model (x : Content) : result Q :=
  let! res := harness x (as_list (map tk_name tasks)) in score tasks res.

(** ** The actor pool (strategy.py:60-105, actors.py:77-117, helpers.py:49-110) *)
Inductive job :=
| Waiting
| Merging (d : nat)                    (** the directory exists, the merge is running *)
| Merged (d : nat)                     (** the merge is complete, the evaluation is running *)
| Finished (r : result (option Q)).    (** the score returned, or what was raised *)
Record pool := { p_jobs : list (Geno * job); p_disk : dict nat (option Content) }.   (** [None]: an incomplete model *)

Definition busy (j : job) : bool := match j with Merging _ | Merged _ => true | _ => false end.
Definition active (p : pool) : nat := List.length (filter (fun gj => busy (snd gj)) (p_jobs p)).

(** one step of job [g] *)
Inductive job_step (disk : dict nat (option Content)) (g : Geno) : job -> job -> dict nat (option Content) -> Prop :=
| JInvalid : configure g = Ok None -> job_step disk g Waiting (Finished (Ok None)) disk
| JConfigRaises e : configure g = Err e -> job_step disk g Waiting (Finished (Err e)) disk
| JStart c d : configure g = Ok (Some c) -> dmem disk d = false -> job_step disk g Waiting (Merging d) (dset disk d None)
| JMergeRaises c d e : configure g = Ok (Some c) -> run_merge c = Err e -> job_step disk g (Merging d) (Finished (Err e)) disk
| JMerge c d x : configure g = Ok (Some c) -> run_merge c = Ok x -> job_step disk g (Merging d) (Merged d) (dset disk d (Some x))
| JEvaluate d x : dget disk d = Some (Some x) ->
    job_step disk g (Merged d) (Finished (let! s := eval_model x in Ok (Some s))) (ddel disk d).
(** one step of the pool of [n] actors *)
Inductive pool_step (n : nat) : pool -> pool -> Prop :=
| PStep a g j b disk j' disk' :
    job_step disk g j j' disk' ->
    (j = Waiting -> (active {| p_jobs := a ++ (g, j) :: b; p_disk := disk |} < n)%nat) ->
    pool_step n {| p_jobs := a ++ (g, j) :: b; p_disk := disk |} {| p_jobs := a ++ (g, j') :: b; p_disk := disk' |}.
Definition submit (gs : list Geno) (disk : dict nat (option Content)) : pool :=
  {| p_jobs := map (fun g => (g, Waiting)) gs; p_disk := disk |}.
Inductive pool_run (n : nat) (p : pool) : pool -> Prop :=
| run_nil : pool_run n p p
| run_snoc q r : pool_run n p q -> pool_step n q r -> pool_run n p r.

(** [list(actor_pool.map(..))]: results in order; the first that raised raises *)
Definition collect (p : pool) : option (result (list (option Q))) :=
  if forallb (fun gj => match snd gj with Finished _ => true | _ => false end) (p_jobs p)
  then Some (rmapM (fun gj => match snd gj with Finished r => r | _ => Err OutOfFuel end) (p_jobs p))
  else None.

(** ** The serial strategy (strategy.py:234-281): [merged_path] is an object reference, which is always true, so an invalid
    genotype reaches [evaluate_model(None)], whose [finally] clause raises *)
Definition serial (g : Geno) : result (option Q) :=
  let! oc := configure g in
  match oc with
  | None => Err TypeError
  | Some c => let! x := run_merge c in let! s := eval_model x in Ok (Some s)
  end.
End Evaluate.

(** [parallel_evaluate] (evolve.py:298-336): the costs; [-None] raises *)
Definition costs (scores : result (list (option Q))) : result (list Q) :=
  let! l := scores in rmapM (fun s => match s with Some q => Ok (- q)%Q | None => Err TypeError end) l.

(** ** The genotypes of a search (genome.py:97-105) *)
Definition configure_genome {M} `{Eqb M} (topk2 : list Q -> nat * nat) (softmax1 : Q -> Q -> Q) (g : genome M) (x : genotype)
  : result (option (merge_config M)) :=
  match x with
  | OtherShape => Ok None
  | _ => let! c := genotype_merge_config topk2 softmax1 g x in Ok (Some c)
  end.

(** ** The best genotype so far (evolve.py:254-296): [xbest_cost = np.inf] is [None] *)
Section Best.
Context {X Y : Type}.
Variable to_yaml : X -> Y.
Record best := { b_x : X; b_cost : option Q; b_file : option Y }.
Definition callback (b : best) (r : X * Q) : best :=
  if match b_cost b with None => true | Some c => negb (Qle_bool c (snd r)) end
  then {| b_x := fst r; b_cost := Some (snd r); b_file := Some (to_yaml (fst r)) |} else b.
End Best.

(** ** Models converted once (evolve.py:378-427): the directory is named after the model; one that exists is used as it is.
    The conversion may fail after some files were written. *)
Section Reshard.
Context {C : Type}.
Variable convert : model_path -> C.
Definition reshard_path (storage : string) (m : model_path) : string := join (join storage "input_models") (unique_id m).
Definition reshard (storage : string) (fs : dict string (option C)) (m : model_path) (fails : bool) : dict string (option C) * result string :=
  let out := reshard_path storage m in
  if dmem fs out then (fs, Ok out)
  else if fails then (dset fs out None, Err OSError_) else (dset fs out (Some (convert m)), Ok out).
Fixpoint reshard_all (storage : string) (fs : dict string (option C)) (ms : list (model_path * bool)) : dict string (option C) * result (list string) :=
  match ms with
  | [] => (fs, Ok [])
  | (m, fails) :: ms =>
      let (fs1, r) := reshard storage fs m fails in
      match r with
      | Err e => (fs1, Err e)
      | Ok out => let (fs2, r2) := reshard_all storage fs1 ms in (fs2, let! outs := r2 in Ok (out :: outs))
      end
  end.
End Reshard.

(** ** Renaming the models of a genome: the converted models are used in the search and the original ones in the final
    configuration (evolve.py:212-226, 357-360) *)
Section Rename.
Context {M N : Type} `{Eqb M} `{Eqb N}.
Variable f : M -> N.
Definition rename_genome (g : genome M) : genome N :=
  {| g_models := map f (g_models g); g_method := g_method g; g_base := option_map f (g_base g); g_tokenizer := g_tokenizer g;
     g_granularity := g_granularity g; g_normalize := g_normalize g; g_negative := g_negative g; g_filters := g_filters g;
     g_smooth := g_smooth g; g_layers := g_layers g |}.
End Rename.
