(** Model of the [PermutedEmbeddings] task as a task on tensors (mergekit/tokenizer/embed.py 30-108), to be put in place
    of the abstract [e_permute] of a run ([Run.Model]).

    [Tokenizer.Model.execute] works on matrices; here tensors are taken apart into rows and put together again. A tensor
    that is not a matrix is rejected at once; the code fails on it too, with one of several exceptions, as [shape[1]] does
    not exist or as its rows do not fit a matrix (50, 85, 94). Devices and dtypes are left out. *)
From Coq Require Import Reals.
From Verif.Base Require Import Py.
From Verif.Tokenizer Require Model.
From Verif.Tokenizer Require Import Model.
From Verif.Methods Require Import Model.
Local Open Scope string_scope.
Local Open Scope list_scope.

(** [t[i]] for a matrix: row-major storage *)
Definition matrix (t : tensor) : emb :=
  let c := nth 1 (shp t) 0 in
  {| e_cols := c; e_rows := map (fun i => firstn c (skipn (i * c) (dat t))) (seq 0 (nth 0 (shp t) 0)) |}.
Definition to_matrix (t : tensor) : result emb :=
  if Nat.eqb (length (shp t)) 2 then Ok (matrix t) else Err RuntimeError.
Definition of_matrix (e : emb) : tensor := {| shp := [length (e_rows e); e_cols e]; dat := concat (e_rows e) |}.

Section Permute.
(** the order in which a set of models is iterated (36-39) *)
Variable order : list string -> list string.
(** [tokens] and [pad_to_multiple_of] (23-24) *)
Variables (cfgs : dict string tcfg) (pad : option Z).

(** the set of models: those that gave a tensor, and the base model (36-39) *)
Definition all_models (base : option string) (keys : list string) : list string :=
  order (match base with Some b => set_add b keys | None => keys end).
(** execute (30-108) *)
Definition permute_task (base : option string) (ti : tokenizer_info) (ds : dict string tensor) : result (dict string tensor) :=
  let! es := rmapM (fun mt => let! e := to_matrix (snd mt) in Ok (fst mt, e)) ds in
  let! res := Tokenizer.Model.execute ti es (all_models base (dkeys ds)) base cfgs pad in
  Ok (map (fun me => (fst me, of_matrix (snd me))) res).
End Permute.
