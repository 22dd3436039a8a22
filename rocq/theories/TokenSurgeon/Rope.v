(** Model of mergekit/tokensurgeon/rope_helpers.py and of the matching pursuits in omp.py 121-316, for one target (the code
    treats the rows of a batch independently).

    Exact real arithmetic, as in [Approx.v]. A row of dimension D is viewed as [heads] heads of [hd] entries each; entry [d] of
    head [h] is entry [h * hd + d] of the row. Left out: the code after the first [return] of estimate_pos_id_best,
    which never runs; k = 0, where [mp_rope] may raise less than here and [mp_resets] with a positive number of iterations never ends. *)
From Coq Require Import Reals.
From Verif.Base Require Import LinAlg RList Py.
From Verif.TokenSurgeon Require Import Approx.
Local Open Scope list_scope.
Local Open Scope R_scope.

(** [torch.atan2 y x]: the angle in (-pi, pi] of the point (x, y), 0 for the origin (signed zeros are left out) *)
Definition atan2 (y x : R) : R :=
  let r := sqrt (x * x + y * y) in
  if Req_EM_T r 0 then 0 else if Rle_dec 0 y then acos (x / r) else - acos (x / r).

(** [_rope_inv_freq] (32-37): entry d of the hd/2 frequencies *)
Definition inv_freq (base : R) (hd d : nat) : R := 1 / Rpower base (INR (2 * d) / INR hd).

(** [x.view(..., heads, hd)], halves of the heads: RuntimeError when the row does not split into heads or a head not into halves *)
Definition splits (D heads hd : nat) : bool := Nat.eqb D (heads * hd) && Nat.even hd.
(** the two halves of head h *)
Definition lo (hd : nat) (x : row) (h d : nat) : R := x (h * hd + d)%nat.
Definition hi (hd : nat) (x : row) (h d : nat) : R := x (h * hd + (hd / 2 + d))%nat.

(** the result of [torch.cat([a, b], dim=-1).view(...)]: a row from the halves of its heads (180, 183) *)
Definition joined (hd : nat) (a b : nat -> nat -> R) : row :=
  fun i => let h := (i / hd)%nat in let d := (i mod hd)%nat in if Nat.ltb d (hd / 2) then a h d else b h (d - hd / 2)%nat.
(** [apply_rope_theta] (147-183) *)
Definition rotate (hd : nat) (theta : nat -> nat -> R) (x : row) : row :=
  joined hd (fun h d => lo hd x h d * cos (theta h d) - hi hd x h d * sin (theta h d))
            (fun h d => hi hd x h d * cos (theta h d) + lo hd x h d * sin (theta h d)).
(** [apply_rope] (238-264): the same angles for every head *)
Definition angles (base : R) (hd : nat) (pos : R) : nat -> nat -> R := fun _ d => pos * inv_freq base hd d.
Definition rope (base : R) (hd : nat) (pos : R) (x : row) : row := rotate hd (angles base hd pos) x.
Definition apply_rope (D heads hd : nat) (base pos : R) (x : row) : result row :=
  if splits D heads hd then Ok (rope base hd pos x) else Err RuntimeError.

(** [llama_rope_rotationmat] (6-29), the matrix of one head with angles theta *)
Definition rotation_matrix (hd : nat) (theta : nat -> R) : nat -> nat -> R := fun i j =>
  let half := (hd / 2)%nat in
  if Nat.ltb i half then
    if Nat.eqb j i then cos (theta i) else if Nat.eqb j (half + i) then sin (theta i) else 0
  else if Nat.eqb j (i - half) then - sin (theta (i - half)%nat)
  else if Nat.eqb j i then cos (theta (i - half)%nat) else 0.

(** [estimate_theta] (40-75) *)
Definition estimate_theta (hd : nat) (x0 x1 : row) (h d : nat) : R :=
  atan2 (lo hd x0 h d * hi hd x1 h d - hi hd x0 h d * lo hd x1 h d)
        (lo hd x0 h d * lo hd x1 h d + hi hd x0 h d * hi hd x1 h d).

(** sum over all heads and frequencies *)
Definition over (heads hd : nat) (f : nat -> nat -> R) : R := Sum heads (fun h => Sum (hd / 2) (f h)).
Definition eps8 : R := / 10 ^ 8.
(** [estimate_position_id] (78-120) *)
Definition estimate_position_id (heads hd : nat) (base : R) (x0 x1 : row) : R :=
  let w := fun h d => lo hd x0 h d * lo hd x0 h d + hi hd x0 h d * hi hd x0 h d in
  over heads hd (fun h d => estimate_theta hd x0 x1 h d / inv_freq base hd d * w h d) / (over heads hd w + eps8).
(** [estimate_position_id_projection] (123-144) = [estimate_pos_id_best] (186-199) *)
Definition estimate_position (heads hd : nat) (base : R) (x0 x1 : row) : R :=
  let f := inv_freq base hd in
  let norm := sqrt (over heads hd (fun _ d => f d * f d)) in
  let unit := fun d => f d / (norm + eps8) in
  let projection := over heads hd (fun h d => estimate_theta hd x0 x1 h d * unit d) in
  let scaling := sqrt (INR heads) * sqrt (Sum (hd / 2) (fun d => f d * f d)) in
  projection / (scaling + eps8).

(** ** batch_mp_rope (omp.py 206-316) *)
(** angles found for the atom and for its opposite: the smaller one is used for both (254-271) *)
Definition best_position (heads hd : nat) (base : R) (atom residual : row) : R :=
  let p := estimate_position heads hd base atom residual in
  let q := estimate_position heads hd base atom (fun i => - residual i) in
  if Rlt_dec (Rabs p) (Rabs q) then p else q.

Record mp_state := { mp_sel : list nat; mp_pos : list R; mp_coeff : list R; mp_res : row }.
Section Mp.
Variables (D heads hd : nat) (base : R) (pts : list row) (eps : R) (target : row).
(** [torch.max] over the absolute inner products, the already chosen points being masked *)
Variable pick : row -> list nat -> nat.
(** one iteration (242-288) *)
Definition mp_step (st : mp_state) : mp_state :=
  let idx := pick (mp_res st) (mp_sel st) in
  let pos := best_position heads hd base (pt pts idx) (mp_res st) in
  let atom := rope base hd pos (pt pts idx) in
  let c := ip D (mp_res st) atom / Rmax (ip D atom atom) eps in
  {| mp_sel := mp_sel st ++ [idx]; mp_pos := mp_pos st ++ [pos]; mp_coeff := mp_coeff st ++ [c];
     mp_res := fun i => mp_res st i - c * atom i |}.
Fixpoint mp_run (k : nat) : mp_state :=
  match k with
  | O => {| mp_sel := []; mp_pos := []; mp_coeff := []; mp_res := target |}
  | S k => mp_step (mp_run k)
  end.
End Mp.

(** the chosen points, each turned to its position *)
Definition turned (base : R) (hd : nat) (pts : list row) (sel : list nat) (pos : list R) (j : nat) : row :=
  rope base hd (nth j pos 0) (pt pts (nth j sel 0%nat)).
Section MpRope.
(** [lstsq D k columns b]: coefficients of the k columns of height D *)
Variable lstsq : nat -> nat -> (nat -> row) -> row -> (nat -> R).
Variable pick : row -> list nat -> nat.
(** the result: the indices, the coefficients, the row in the space of b, and what the pursuit reached in the space of a *)
Definition mp_rope (d_a d_b heads_a heads_b : nat) (base_a base_b eps : R) (final : bool) (k : nat) (points_a points_b : list row)
    (target : row) : result (list nat * list R * row * row) :=
  if negb (Nat.eqb (length points_a) (length points_b)) then Err AssertionError
  else if Nat.ltb (length points_a) k then Err ValueError
  else if Nat.eqb heads_a 0 || Nat.eqb heads_b 0 then Err ZeroDivisionError
  else if negb (splits d_a heads_a (d_a / heads_a) && splits d_b heads_b (d_b / heads_b)) then Err RuntimeError
  else
    let st := mp_run d_a heads_a (d_a / heads_a) base_a points_a eps target pick k in
    let c := if final then lstsq d_a k (turned base_a (d_a / heads_a) points_a (mp_sel st) (mp_pos st)) target
             else fun j => nth j (mp_coeff st) 0 in
    let approx := fun i => Sum k (fun j => turned base_b (d_b / heads_b) points_b (mp_sel st) (mp_pos st) j i * c j) in
    Ok (mp_sel st, map c (seq 0 k), approx, fun i => target i - mp_res st i).
End MpRope.

(** ** batch_mp_resets (omp.py 121-203) *)
Record reset_state := { r_sel : nat -> option nat; r_coeff : nat -> R; r_res : row }.
Section Resets.
Variables (D k : nat) (pts : list row) (eps : R) (target : row).
(** [torch.max] over the (signed) inner products, the points in use being masked *)
Variable pick : row -> list nat -> nat.
(** the points in use *)
Definition in_use (st : reset_state) : list nat := flat_map (fun t => match r_sel st t with Some i => [i] | None => [] end) (seq 0 k).
Definition put {A} (f : nat -> A) (t : nat) (a : A) : nat -> A := fun s => if Nat.eqb s t then a else f s.
(** choose a point for place t (168-180, 190-201) *)
Definition choose (t : nat) (st : reset_state) : reset_state :=
  let idx := pick (r_res st) (in_use st) in
  let c := ip D (r_res st) (pt pts idx) / (ip D (pt pts idx) (pt pts idx) + eps) in
  {| r_sel := put (r_sel st) t (Some idx); r_coeff := put (r_coeff st) t c; r_res := fun i => r_res st i - c * pt pts idx i |}.
(** give the point at place t back (182-189) *)
Definition release (t : nat) (st : reset_state) : reset_state :=
  match r_sel st t with
  | None => st
  | Some old => {| r_sel := put (r_sel st) t None; r_coeff := put (r_coeff st) t 0;
                   r_res := fun i => r_res st i + r_coeff st t * pt pts old i |}
  end.
Definition reset_step (st : reset_state) (t : nat) : reset_state := choose t (release t st).
Definition reset_init : reset_state := {| r_sel := fun _ => None; r_coeff := fun _ => 0; r_res := target |}.
(** [perms]: the random permutations of the k places, one after another; the first round fills the places in order *)
Definition mp_resets (total : option nat) (perms : list nat) : result (list nat * list R) :=
  let total := match total with Some n => n | None => (k * 3)%nat end in
  if Nat.ltb total k then Err ValueError
  else if Nat.ltb (length pts) k then Err ValueError
  else
    let st := fold_left reset_step (firstn total (seq 0 k ++ perms)) reset_init in
    Ok (map (fun t => match r_sel st t with Some i => i | None => 0%nat end) (seq 0 k), map (r_coeff st) (seq 0 k)).
End Resets.
