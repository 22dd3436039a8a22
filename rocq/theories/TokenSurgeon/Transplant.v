(** Model of compute_new_embeddings (mergekit/scripts/tokensurgeon.py 256-389) and of the noise and scale put on its result
    (507-510): which rows of which matrix the approximations of [Approx.v], [Weights.v] and [Rope.v] are given.

    Exact real arithmetic. [k] is not negative. A matrix without rows has the mean zero (NaN in the code). *)
From Coq Require Import Reals.
From Verif.Base Require Import LinAlg RList Py.
From Verif.TokenSurgeon Require Import Model Approx Weights Rope.
Local Open Scope list_scope.
Local Open Scope R_scope.

(** ApproximationMethod and the options read here (TokenSurgeonOptions) *)
Inductive approximation :=
| ACommon (s : scheme) (cosine : bool) | ASubword (m : subword_method) | AMean | AZero | ARandn | AHewitt | AOmp | APca | ARope | AStb.
Record options := { op_method : approximation; op_k : nat; op_noise : option R; op_scale : option R }.

(** what the computation relies on: functions of torch, the tokenizer, the two configs (328-339) *)
Record world := {
  w_topk : list R -> nat -> list nat;
  w_lstsq : nat -> nat -> (nat -> row) -> row -> (nat -> R);
  w_pick : list row -> row -> list nat -> nat;
  w_qr : nat -> (nat -> row) -> (nat -> row) * (nat -> nat -> R);
  w_solve : nat -> (nat -> nat -> R) -> (nat -> R) -> (nat -> R);
  w_pca : nat -> list row -> nat -> (nat -> nat -> R);
  w_svd : nat -> (nat -> nat -> R) -> (nat -> nat -> R) * (nat -> nat -> R);
  w_randn : list ntok -> list row;              (* torch.randn, one row for each token *)
  w_definite : list row -> bool;                (* is the covariance positive definite *)
  w_normal : list row -> list ntok -> list row; (* samples of the normal distribution with the mean and covariance of the rows *)
  w_ids : text -> list nat;                     (* what the original tokenizer makes of a text *)
  w_heads_donor : nat; w_heads_orig : nat;      (* num_attention_heads of the two models *)
  w_base_donor : R; w_base_orig : R;            (* rope_theta of the two models *)
  w_listing : list ntok -> list ntok            (* the order in which a set of tokens is run through *)
}.

(** 293-298: tokens both vocabularies have, sorted by their donor id *)
Fixpoint insert_by (key : ntok -> nat) (t : ntok) (l : list ntok) : list ntok :=
  match l with [] => [t] | s :: l' => if Nat.leb (key t) (key s) then t :: l else s :: insert_by key t l' end.
Definition sort_by (key : ntok -> nat) (l : list ntok) : list ntok := fold_right (insert_by key) [] l.
Definition id_of (v : dict ntok nat) (t : ntok) : nat := match dget v t with Some i => i | None => O end.
Definition shared_vocab (w : world) (orig donor : dict ntok nat) : list ntok :=
  sort_by (id_of donor) (w_listing w (filter (dmem orig) (dkeys donor))).
(** 299-308, [m[torch.tensor([vocab[t] for t in ts])]]; the tensor of an empty list has a floating-point type, which is no index *)
Definition rows_of (m : list row) (vocab : dict ntok nat) (ts : list ntok) : result (list row) :=
  match ts with
  | [] => Err IndexError
  | _ => rmapM (fun t => let! i := dgetE vocab t in nthE m i) ts
  end.

(** the default [eps] of [batch_omp] (tokensurgeon/omp.py 18) and of [batch_mp_rope] (213) *)
Definition eps_omp : R := / 10 ^ 8.
(** 309-351, one target: the donor's rows of the shared tokens are given with the target, the original rows make up the result *)
Definition approximate (w : world) (o : options) (d_donor d_orig : nat) (donor_shared orig_shared : list row) (target : row) : result row :=
  match op_method o with
  | APca =>
      (* [pca_lowrank] takes no more directions than there are points *)
      if Nat.ltb (length donor_shared) (Nat.min d_donor d_orig) then Err ValueError
      else Ok (landmark_pca (w_pca w) (w_svd w) d_donor d_orig donor_shared orig_shared target)
  | ACommon s cosine => interpolate_with (w_lstsq w) (w_topk w) s cosine d_donor (op_k o) donor_shared orig_shared target
  | ARope =>
      let! r := mp_rope (w_lstsq w) (w_pick w donor_shared) d_donor d_orig (w_heads_donor w) (w_heads_orig w) (w_base_donor w)
                  (w_base_orig w) eps_omp true (op_k o) donor_shared orig_shared target in
      Ok (snd (fst r))
  | AOmp =>
      let! r := omp d_donor donor_shared eps_omp 256 target (w_pick w donor_shared) (w_qr w) (w_solve w) (op_k o) in
      let! rs := rmapM (nthE orig_shared) (fst r) in
      Ok (wsum (snd r) rs)
  | _ => Err ValueError
  end.

(** [compute_new_embeddings] (256-389), with [john_hewitt_init] (229-253) *)
Definition compute_new (w : world) (o : options) (d_donor d_orig : nat) (is_lm_head : bool) (orig_embed donor_embed : list row)
    (orig donor : dict ntok nat) (ts : list ntok) : result (list row) :=
  if negb (forallb (dmem donor) ts) then Err AssertionError
  else match op_method o with
  | AMean => Ok (map (fun _ => mean_row orig_embed) ts)
  | AZero => Ok (map (fun _ => rzero) ts)
  | ARandn => Ok (w_randn w ts)
  | AHewitt => if w_definite w orig_embed then Ok (w_normal w orig_embed ts) else Err TypeError   (* len() of a number (241) *)
  | ASubword m => rmapM (fun t => subword m is_lm_head orig_embed (w_ids w (unnormalize t))) ts
  | AStb => Err AssertionError   (* never reached: build_embedding_matrix has failed by then (433-441) *)
  | ACommon _ _ | AOmp | APca | ARope =>
      let shared := shared_vocab w orig donor in
      let! donor_shared := rows_of donor_embed donor shared in
      let! orig_shared := rows_of orig_embed orig shared in
      let! targets := rows_of donor_embed donor ts in
      rmapM (approximate w o d_donor d_orig donor_shared orig_shared) targets
  end.

(** 507-510: noise, then scale; zero counts as not given. The mean is one row expanded, which cannot be changed in place when there
    are several tokens. *)
Definition given (x : option R) : option R := match x with Some r => if Req_EM_T r 0 then None else Some r | None => None end.
Definition in_place (o : options) (es : list row) (f : list row -> list row) : result (list row) :=
  match op_method o with
  | AMean => if Nat.ltb 1 (length es) then Err RuntimeError else Ok (f es)
  | _ => Ok (f es)
  end.
Definition finish (w : world) (o : options) (ts : list ntok) (es : list row) : result (list row) :=
  let! es := match given (op_noise o) with
             | Some r => in_place o es (fun es => map2 (fun e n : row => radd e (rscale r n)) es (w_randn w ts))
             | None => Ok es
             end in
  match given (op_scale o) with
  | Some r => in_place o es (map (rscale r))
  | None => Ok es
  end.
(** the approximation as [build] and [surgery] use it *)
Definition new_rows (w : world) (o : options) (d_donor d_orig : nat) (is_lm_head : bool) (orig_embed donor_embed : list row)
    (orig donor : dict ntok nat) (ts : list ntok) : result (list row) :=
  let! es := compute_new w o d_donor d_orig is_lm_head orig_embed donor_embed orig donor ts in
  finish w o ts es.
