(** Models in floating point of one entry of the result of linear.py (31-58), of generalized_task_arithmetic.py without
    sparsification and sign consensus (107-178: methods task_arithmetic and linear deltas), of slerp.py (94-157) and of
    passthrough.py (25-34).

    A number of a tensor is a real that belongs to the tensor's format (precision and least exponent, Flocq's [FLT_exp]); every
    operation rounds to nearest, ties to even. Reduced-precision tensors (bfloat16, float16) are computed in a wider format (opmath,
    float32 in torch) and rounded again, so every operation has two formats; for float32 and float64 they are the same.
    [sum(dim=0)] adds in some order, which is an arbitrary binary tree, each addition rounded in the wider format.
    Not modelled: overflow, infinities, NaN and the sign of zero. *)
From Coq Require Import ZArith Reals.
From Flocq Require Import Core.Core.
From Verif.Base Require Import Py.
Local Open Scope list_scope.
Local Open Scope R_scope.

Record fmt := { f_prec : Z; f_emin : Z }.
Definition bfloat16 := {| f_prec := 8; f_emin := -133 |}.
Definition float16 := {| f_prec := 11; f_emin := -24 |}.
Definition float32 := {| f_prec := 24; f_emin := -149 |}.
Definition float64 := {| f_prec := 53; f_emin := -1074 |}.
Definition in_fmt (f : fmt) (x : R) : Prop := generic_format radix2 (FLT_exp (f_emin f) (f_prec f)) x.
Definition rnd (f : fmt) (x : R) : R := round radix2 (FLT_exp (f_emin f) (f_prec f)) ZnearestE x.
(** the result of one operation on tensors of format [f] computed in format [g] *)
Definition op (f g : fmt) (x : R) : R := rnd f (rnd g x).

(** an order of summation *)
Inductive sum_tree := Leaf (i : nat) | Add (a b : sum_tree).
Fixpoint leaves (t : sum_tree) : list nat := match t with Leaf i => [i] | Add a b => leaves a ++ leaves b end.
Fixpoint run_sum (g : fmt) (t : sum_tree) (xs : list R) : R :=
  match t with Leaf i => nth i xs 0 | Add a b => rnd g (run_sum g a xs + run_sum g b xs) end.
Definition torch_sum (f g : fmt) (t : sum_tree) (xs : list R) : R := rnd f (run_sum g t xs).

(** linear.py:47-56 *)
Definition linear_entry (f g : fmt) (normalize : bool) (tr tr' : sum_tree) (ws ts : list R) : R :=
  let ws := map (rnd f) ws in
  let res := torch_sum f g tr (map (fun wt => op f g (fst wt * snd wt)) (combine ws ts)) in
  if normalize then op f g (res / torch_sum f g tr' ws) else res.

(** generalized_task_arithmetic.py:140-178 and [get_task_vectors] (181-227): [delta = x - base] *)
Definition gta_entry (f g : fmt) (normalize : bool) (lam : R) (tr tr' : sum_tree) (base : R) (ws xs : list R) : R :=
  let ws := map (rnd f) ws in
  let deltas := map (fun x => op f g (x - base)) xs in
  let mixed := torch_sum f g tr (map (fun wd => op f g (snd wd * fst wd)) (combine ws deltas)) in
  let divisor := torch_sum f g tr' ws in
  let divisor := if Rlt_dec (Rabs divisor) (/ 100000000) then 1 else divisor in
  let mixed := if normalize then op f g (mixed / divisor) else mixed in
  let mixed := if Req_EM_T lam 1 then mixed else op f g (mixed * lam) in
  rnd f (op f g (base + mixed)).

(** slerp.py: the vectors are converted to [h] (float32), scalars are computed in [s]; [dot] is the computed product of the
    normalised vectors, [acos_] and [sin_] are the library functions *)
Definition lerp_entry (h s : fmt) (t v0 v1 : R) : R :=
  rnd h (rnd h (rnd s (1 - t) * v0) + rnd h (t * v1)).
Definition slerp_entry (f h s : fmt) (acos_ sin_ : R -> R) (dot t v0 v1 : R) : R :=
  let res :=
    if Rlt_dec (9995 / 10000) (Rabs dot) then lerp_entry h s t v0 v1
    else
      let theta_0 := acos_ dot in
      let sin_theta_0 := sin_ theta_0 in
      let theta_t := rnd s (theta_0 * t) in
      let s0 := rnd s (sin_ (rnd s (theta_0 - theta_t)) / sin_theta_0) in
      let s1 := rnd s (sin_ theta_t / sin_theta_0) in
      rnd h (rnd h (s0 * v0) + rnd h (s1 * v1)) in
  rnd f res.

(** passthrough.py:29-34 *)
Definition passthrough_entry (f g : fmt) (scale : option R) (x : R) : R :=
  match scale with Some c => op f g (x * c) | None => x end.
