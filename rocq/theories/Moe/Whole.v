(** Model of a whole run of mergekit-moe (scripts/moe.py:22-92 with the four [write_model]): the configuration is checked, the
    architecture chosen and the gates computed (Gates.v), the loaders are opened (moe/common.py:19-43) and the writer of the
    architecture makes its saves (Model.v).

    [dirs m] is the directory of model [m]. [of_rows] makes the matrix of a router from its rows. Not modelled: the
    configuration and the tokenizer that are written beside the weights; which exception ends an unsuccessful run. *)
From Verif.Base Require Import Py.
From Verif.Arch Require Import Model Data.
From Verif.IO Require Model.
From Verif.Moe Require Import Model Gates.
Local Open Scope string_scope.
Local Open Scope list_scope.

Section Whole.
Context {T F : Type}.
Variables (o : ops T F) (of_rows : list vec -> T) (dirs : string -> IO.Model.fs T).

(** what the loader of a directory can return (C20): each indexed name with the tensor in the shard it is indexed in *)
Definition tensors_of (f : IO.Model.fs T) : result (tensors T) :=
  let! ix := IO.Model.from_disk f in
  Ok (flat_map (fun kv => match IO.Model.open_shard f (snd kv) with
                          | Ok d => match dget d (fst kv) with Some t => [(fst kv, t)] | None => [] end
                          | Err _ => []
                          end) (IO.Model.ix_paths ix)).
Definition disk (m : string) : tensors T := match tensors_of (dirs m) with Ok d => d | Err _ => [] end.

(** the loaders [initialize_io] opens *)
Definition open_all (base : string) (experts : list (expert F)) : result unit :=
  let! _ := rmapM (fun m => tensors_of (dirs m)) (base :: map (@ex_model F) experts) in Ok tt.

(** [base_cfg], the sizes of its attention and [arch_info_for_config(base_cfg)] *)
Variables (cfg : cfgval) (d : dims) (dense : json_arch).

(** [out_arch.write_model] (moe.py:72-80) *)
Definition write_model (a : arch) (c : moe_config F) (routers shared_routers : list T) : result (list (string * T)) :=
  match a with
  | Mixtral => mixtral_write o disk cfg (c_base F c) (c_experts F c) routers
  | DeepSeek => deepseek_write o disk dense cfg (c_base F c) (c_experts F c) (hd_error (c_shared F c)) routers
  | Qwen => match c_shared F c with
            | s :: _ => qwen_write o disk cfg d (c_base F c) (c_experts F c) s routers shared_routers
            | [] => Err TypeError
            end
  | Qwen3 => qwen3_write o disk cfg (c_base F c) (c_experts F c) routers
  end.

Variables (draw : nat -> nat -> nat -> Rdefinitions.R) (model_type : string -> string) (available : list arch).
(** [build] as a whole: [Exit], or the architecture and the saves given to the writer *)
Definition moe_run (m : llm) (tk : tokenizer) (c : moe_config F) (allow_all_same : bool)
    : result (outcome (arch * list (string * T))) :=
  let! r := build F draw model_type available m tk c allow_all_same in
  match r with
  | Exit => Ok Exit
  | Go (a, routers, shared) =>
      let! _ := open_all (c_base F c) (c_experts F c) in
      let! saves := write_model a c (map of_rows routers) (map of_rows shared) in
      Ok (Go (a, saves))
  end.
End Whole.
