(** Model of mergekit/sparsify.py.

    Tensors are lists of rows of reals; [concat] is the flattened view.
    Elementwise arithmetic is exact.  Two roundings are modelled because they
    decide which entries are kept: the conversion of magnitudes to float32 on
    the CPU (67-68, 104-105) and the float64 product [density * numel] (63, 97-98).
    torch.argsort does not specify the order of equal elements, so the order it
    returns is an argument of each function; torch.bernoulli's draw is too. *)
From Coq Require Import Reals.
From Flocq Require Import Core.
From Verif.Base Require Import Py RList.
Local Open Scope list_scope.
Local Open Scope R_scope.

(** rounding to IEEE single and double precision, ties to even (no overflow) *)
Definition float32 (x : R) : R := round radix2 (FLT_exp (-149) 24) ZnearestE x.
Definition float64 (x : R) : R := round radix2 (FLT_exp (-1074) 53) ZnearestE x.
(** Python's [int(x)] *)
Definition trunc (x : R) : Z := Ztrunc x.

(** Python's [l[a:b]] *)
Definition clip (n : nat) (i : Z) : nat :=
  if (i <? 0)%Z then Z.to_nat (i + Z.of_nat n) else Nat.min (Z.to_nat i) n.
Definition slice {A} (l : list A) (a b : Z) : list A :=
  let a := clip (length l) a in let b := clip (length l) b in firstn (b - a) (skipn a l).

(** ** rescaled_masked_tensor (23-53) *)
Inductive rescale_norm := L1 | L2 | Linf.
Definition eps : R := / 10 ^ 7.
Definition scale_of (n : rescale_norm) (x : list R) : result R :=
  match n with
  | L1 => Ok (norm1 x)
  | L2 => Ok (norm2 x)
  | Linf => match x with [] => Err RuntimeError (* max of an empty tensor *) | _ => Ok (normi x) end
  end.
Definition rescaled_masked (x mask : list R) (norm : option rescale_norm) : result (list R) :=
  let masked := vmul x mask in
  match norm with
  | None => Ok masked
  | Some n =>
      let! before := scale_of n x in
      let! after := scale_of n masked in
      if Rlt_dec before eps then Ok masked
      else if Rlt_dec after eps then Ok masked
      else Ok (map (fun v => v * (before / after)) masked)
  end.

(** zeros with ones at the given positions (65, 70; 107-109) *)
Definition mask_at (n : nat) (idx : list nat) : list R :=
  map (fun i => if existsb (Nat.eqb i) idx then 1 else 0) (seq 0 n).

(** the values that are sorted (66-68, 103-105) *)
Definition sort_keys (cpu : bool) (x : list R) : list R :=
  map (fun v => if cpu then float32 (Rabs v) else Rabs v) x.

(** ** magnitude (56-74); [order] is [torch.argsort(w, descending=True)] *)
Definition magnitude (x : list R) (density : R) (norm : option rescale_norm) (order : list nat) : result (list R) :=
  if Rle_dec 1 density then Ok x
  else
    let k := trunc (float64 (density * INR (length x))) in
    if (k <=? 0)%Z then Err AssertionError
    else rescaled_masked x (mask_at (length x) (slice order 0 k)) norm.

(** ** magnitude_outliers (77-116); [order] is [torch.sort(w).indices] *)
Definition magnitude_outliers (x : list R) (density gamma : R) (norm : option rescale_norm) (order : list nat) : result (list R) :=
  if Rle_dec 1 density then Ok x
  else
    let n := Z.of_nat (length x) in
    let target_n := trunc (float64 (density * INR (length x))) in
    let n_top := trunc (float64 (gamma * INR (length x))) in
    let n_bot := (n - target_n - n_top)%Z in
    let '(n_top, n_bot) := if (n_bot <? 0)%Z then ((n_top + n_bot)%Z, 0%Z) else (n_top, n_bot) in
    rescaled_masked x (mask_at (length x) (slice order n_bot (- n_top))) norm.

Definition draw_mask (b : list bool) : list R := map (fun k : bool => if k then 1 else 0) b.

(** torch.bernoulli rejects probabilities outside [0,1] *)
Definition prob_ok (p : R) : Prop := 0 <= p <= 1.
Definition prob_dec (p : R) : {prob_ok p} + {~ prob_ok p}.
Proof.
  unfold prob_ok. destruct (Rle_dec 0 p); [destruct (Rle_dec p 1)|]; [left|right|right]; intuition.
Defined.

(** ** bernoulli (119-135); [draw] is torch.bernoulli's result *)
Definition bernoulli (x : list R) (density : R) (norm : option rescale_norm) (draw : list bool) : result (list R) :=
  if Rle_dec 1 density then Ok x
  else match x with
       | [] => rescaled_masked [] [] norm
       | _ => if prob_dec density then rescaled_masked x (draw_mask draw) norm else Err RuntimeError
       end.

(** ** della_magprune (138-175) *)
Definition clamp01 (v : R) : R := Rmin (Rmax v 0) 1.
Definition row_min (l : list R) : R := fold_right Rmin (hd 0 l) l.
Definition row_max (l : list R) : R := fold_right Rmax (hd 0 l) l.
(** the keep probabilities of one row (160-166).  [sorted] is the argsort of the
    magnitudes, [ranks] the argsort of [sorted].  min and max of an empty row
    raise; a row of one element gives 0/0, a NaN that torch.bernoulli rejects. *)
Definition row_probs (density epsilon : R) (ranks : list nat) : result (list R) :=
  let rk := map (fun r => INR r + 1) ranks in
  match rk with
  | [] => Err IndexError
  | _ =>
      if Req_EM_T (row_max rk - row_min rk) 0 then Err RuntimeError
      else Ok (map (fun r => density - epsilon + clamp01 ((r - row_min rk) / (row_max rk - row_min rk)) * 2 * epsilon) rk)
  end.
Definition della_magprune (rows : list (list R)) (density epsilon : R) (norm : option rescale_norm)
    (ranks : list (list nat)) (draw : list bool) : result (list R) :=
  if Rle_dec 1 density then Ok (concat rows)
  else if Rle_dec density 0 then Ok (map (fun _ => 0) (concat rows))
  else if Rle_dec 1 (density + epsilon) then Err ValueError
  else if Rle_dec (density - epsilon) 0 then Err ValueError
  else
    let! probs := rmapM (row_probs density epsilon) ranks in
    if forallb (fun p => if prob_dec p then true else false) (concat probs)
    then rescaled_masked (concat rows) (draw_mask draw) norm
    else Err RuntimeError.

(** ** sparsify (178-199) *)
Inductive method := Magnitude | Random | MagnitudeOutliers | DellaMagprune.
(** what the library calls return: the argsort of the whole tensor and of each
    row, and the Bernoulli draw *)
Record choices := { c_order : list nat; c_ranks : list (list nat); c_draw : list bool }.
Definition sparsify (rows : list (list R)) (density : R) (m : method) (gamma epsilon : R)
    (norm : option rescale_norm) (c : choices) : result (list R) :=
  match m with
  | Magnitude => magnitude (concat rows) density norm (c_order c)
  | Random => bernoulli (concat rows) density norm (c_draw c)
  | MagnitudeOutliers => magnitude_outliers (concat rows) density gamma norm (c_order c)
  | DellaMagprune => della_magprune rows density epsilon norm (c_ranks c) (c_draw c)
  end.
