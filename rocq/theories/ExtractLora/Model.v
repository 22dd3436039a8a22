(** Model of mergekit/scripts/extract_lora.py.

    Matrices have real entries: rounding, the conversions to float32 and back to the weight's dtype are left out.
    [torch.linalg.svd] is a parameter, constrained in [Spec.is_svd]. Only two-dimensional weights are modelled (for
    the 3- and 4-dimensional weights of convolutions the code calls the batched SVD). [max_rank] is a natural number. *)
From Coq Require Import Reals.
From Verif.Base Require Import LinAlg Py.
Local Open Scope string_scope.
Local Open Scope list_scope.

(** ** Matrices *)
Record mat := { rows : nat; cols : nat; at_ : nat -> nat -> R }.
Definition tr (a : mat) : mat := {| rows := cols a; cols := rows a; at_ := fun i j => at_ a j i |}.
Definition mmul (a b : mat) : mat :=
  {| rows := rows a; cols := cols b; at_ := fun i j => Sum (cols a) (fun l => at_ a i l * at_ b l j)%R |}.
Definition diag (n : nat) (s : nat -> R) : mat := {| rows := n; cols := n; at_ := fun i j => if Nat.eqb i j then s i else 0%R |}.
Definition eye (n : nat) : mat := diag n (fun _ => 1%R).
(** [a[:r]] and [a[:, :r]] *)
Definition first_rows (r : nat) (a : mat) : mat := {| rows := Nat.min r (rows a); cols := cols a; at_ := at_ a |}.
Definition first_cols (r : nat) (a : mat) : mat := {| rows := rows a; cols := Nat.min r (cols a); at_ := at_ a |}.

(** ** [TaskVectorTask.execute] (267-268) *)
Definition task_vector (base model : mat) : mat :=
  {| rows := rows model; cols := cols model; at_ := fun i j => (at_ model i j - at_ base i j)%R |}.

(** ** [TaskVectorDecompositionTask] (221-253) *)
Record dtask := { dt_max_rank : nat; dt_distribute : bool; dt_transpose : bool; dt_eps : R }.

(** [(s > eps).sum()] over [k] values *)
Fixpoint count_gt (k : nat) (s : nat -> R) (eps : R) : nat :=
  match k with O => O | S k => (count_gt k s eps + if Rlt_dec eps (s k) then 1 else 0)%nat end.

Section Decomp.
(** [torch.linalg.svd(m, full_matrices=False)]: u, s, vh; there are [min rows cols] singular values *)
Variable svd : mat -> mat * (nat -> R) * mat.

Definition rank_of (t : dtask) (m : mat) : nat :=
  let '(u, s, vh) := svd m in
  let k := Nat.min (rows m) (cols m) in
  let rank := Nat.min (dt_max_rank t) k in
  if Rlt_dec 0 (dt_eps t) then Nat.min (count_gt k s (dt_eps t)) rank else rank.

(** execute (232-253): (weight_a, weight_b) *)
Definition decompose (t : dtask) (tv : mat) : mat * mat :=
  let m := if dt_transpose t then tr tv else tv in
  let '(u, s, vh) := svd m in
  let rank := rank_of t m in
  let '(scale_a, scale_b) :=
    if dt_distribute t then (diag rank (fun i => sqrt (s i)), diag rank (fun i => sqrt (s i)))
    else (diag rank s, eye rank) in
  (mmul scale_a (first_rows rank vh), mmul (first_cols rank u) scale_b).
End Decomp.

(** ** The adapter configuration *)
(** [s.removesuffix(suf)] *)
Definition removesuffix (suf s : string) : string :=
  if Nat.leb (String.length suf) (String.length s) &&
     eqb (String.substring (String.length s - String.length suf) (String.length suf) s) suf
  then String.substring 0 (String.length s - String.length suf) s else s.

Record adapter_config := {
  ac_r : nat; ac_alpha : nat; ac_rank_pattern : dict string nat; ac_alpha_pattern : dict string nat;
  ac_targets : list string; ac_modules_to_save : list string }.

(** [make_config_dict] (196-218) *)
Definition make_config (max_rank : nat) (mts targets : list string) (ranks : dict string nat) : adapter_config :=
  let different := filter (fun kv => negb (Nat.eqb (snd kv) max_rank)) ranks in
  {| ac_r := max_rank; ac_alpha := max_rank; ac_rank_pattern := different; ac_alpha_pattern := different;
     ac_targets := targets; ac_modules_to_save := mts |}.

(** [name.split(".")[-1]] *)
Fixpoint last_part_acc (acc : string) (s : string) : string :=
  match s with
  | EmptyString => acc
  | String c s => if Ascii.eqb c "."%char then last_part_acc "" s else last_part_acc (acc ++ String c "")%string s
  end.
Definition last_part (s : string) : string := last_part_acc "" s.

(** main (160-178): the decompositions come out of the executor in some order *)
Definition real_ranks (results : list (string * (mat * mat))) : dict string nat :=
  fold_left (fun d wr => dset d (removesuffix ".weight" (fst wr)) (rows (fst (snd wr)))) results [].
Definition lmax (l : list nat) : nat := fold_right Nat.max 0 l.
(** [max] of an empty sequence raises ValueError (167) *)
Definition adapter (mts : list string) (results : list (string * (mat * mat))) : result adapter_config :=
  let ranks := real_ranks results in
  match ranks with
  | [] => Err ValueError
  | _ => Ok (make_config (lmax (dvals ranks)) mts (dedup (map last_part (dkeys ranks))) ranks)
  end.

(** ** [plan_extraction] (348-456) *)
Inductive kind := KLinear | KConv | KEmbedding | KOther.
(** a module of the model: its dotted name, its class, whether it has a [weight] attribute, whether it is the input or
    output embedding, and whether the architecture knows its weight and bias *)
Record module_ := {
  mo_name : string; mo_kind : kind; mo_has_weight : bool; mo_is_io : bool; mo_known : bool; mo_bias : bool }.
Inductive action :=
| ALora (name : string) (transpose bias : bool)
| AFull (name : string) (bias : bool).
Definition action_name (a : action) : string := match a with ALora n _ _ => n | AFull n _ => n end.

Record options := {
  op_embed_lora : bool;                     (* after the vocabulary check (379-386) *)
  op_include : option (string -> bool);     (* [None]: no include regex *)
  op_exclude : string -> bool;
  op_skip : bool }.

Section Plan.
Variable o : options.
(** [modules_to_save] is a list when the option was not given and click's tuple when it was (113-114): a tuple has no
    [append]. *)
Variable is_tuple : bool.

Definition append_key (key : string) (mts : list string) : result (list string) :=
  if mem key mts then Ok mts else if is_tuple then Err AttributeError else Ok (mts ++ [key]).

(** [_should_extract] (391-396) *)
Definition should_extract (name : string) : bool :=
  match op_include o with Some f => f name | None => true end && negb (op_exclude o name).

Definition is_emb (m : module_) : bool :=
  mo_is_io m || match mo_kind m with KEmbedding => true | _ => false end.
Definition supported (m : module_) : bool := match mo_kind m with KOther => false | _ => true end.

Definition plan_module (m : module_) (mts : list string) : result (list action * list string) :=
  if negb (mo_known m) && negb (mo_has_weight m) then Ok ([], mts)
  else
    let name := mo_name m in
    let key := last_part name in
    let! mts := if negb (op_embed_lora o) && is_emb m && negb (op_exclude o name) then append_key key mts else Ok mts in
    if mem name mts || mem key mts then Ok ([AFull name (mo_bias m)], mts)
    else if should_extract name then
      if supported m then
        Ok ([ALora name (match mo_kind m with KEmbedding => true | _ => false end) (mo_bias m)], mts)
      else if op_skip o then Ok ([], mts)
      else let! mts := append_key key mts in Ok ([AFull name (mo_bias m)], mts)
    else Ok ([], mts).

Fixpoint plan_modules (ms : list module_) (mts : list string) : result (list action * list string) :=
  match ms with
  | [] => Ok ([], mts)
  | m :: ms => let! (a, mts) := plan_module m mts in
               let! (rest, mts) := plan_modules ms mts in
               Ok (a ++ rest, mts)
  end.
End Plan.
