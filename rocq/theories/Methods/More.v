(** Model of further merge methods: ram.py, sce.py, arcee_fusion.py, nuslerp.py, multislerp.py and karcher.py, in exact
    real arithmetic and with the conventions of [Methods.Model]. Conversions between dtypes are left out. *)
From Coq Require Import Reals.
From Verif.Base Require Import Py RList.
From Verif.Sparsify Require Import Model.
From Verif.Methods Require Import Model.
Local Open Scope list_scope.
Local Open Scope R_scope.

(** entry [i] *)
Definition ent (t : tensor) (i : nat) : R := nth i (dat t) 0.
(** the differences to the base of all models at one position *)
Definition column (ts : list tensor) (base : tensor) (i : nat) : list R := map (fun t => ent t i - ent base i) ts.
Definition same_shapes (ts : list tensor) (base : tensor) : bool := forallb (fun t => shape_eqb (shp t) (shp base)) ts.
Definition positions (base : tensor) : list nat := seq 0 (length (dat base)).

(** ** ram.py *)
(** [_prepare_ram_vectors] (78-103) *)
Definition active (eps d : R) : bool := if Rlt_dec eps (Rabs d) then true else false.
Definition actives (eps : R) (col : list R) : nat := length (filter (active eps) col).
(** the merged delta at one position (32-36, 69-73); [lambdas] scales the values only one model changes *)
Definition ram_position (eps : R) (lambdas col : list R) : R :=
  let n := actives eps col in
  rsum (map2 (fun l d =>
    let z := if active eps d then d else 0 in
    (if Nat.eqb n 1 then z * l else 0) + (if Nat.ltb 1 n then z / Rmax (INR n) 1 else 0)) lambdas col).
Definition ram (ts : list tensor) (base : tensor) (eps : R) : result tensor :=
  match ts with
  | [] => Ok base
  | _ => if same_shapes ts base
         then Ok {| shp := shp base;
                    dat := map (fun i => ent base i + ram_position eps (map (fun _ => 1) ts) (column ts base i)) (positions base) |}
         else Err RuntimeError
  end.
(** [ramplus_tl_merge] (46-75): the scale of one model *)
Definition ram_count (eps : R) (ts : list tensor) (base t : tensor) (shared : bool) : R :=
  INR (length (filter (fun i => active eps (ent t i - ent base i) &&
                                (if shared then Nat.ltb 1 (actives eps (column ts base i)) else Nat.eqb (actives eps (column ts base i)) 1))
                 (positions base))).
Definition ram_lambda (r alpha eps : R) (ts : list tensor) (base t : tensor) : R :=
  1 + r * clamp 0 alpha (ram_count eps ts base t true / Rmax (ram_count eps ts base t false) eps).
Definition ramplus (ts : list tensor) (base : tensor) (r alpha eps : R) : result tensor :=
  match ts with
  | [] => Ok base
  | _ => if same_shapes ts base
         then Ok {| shp := shp base;
                    dat := map (fun i => ent base i + ram_position eps (map (ram_lambda r alpha eps ts base) ts) (column ts base i)) (positions base) |}
         else Err RuntimeError
  end.

(** ** sce.py *)
(** population variance over the models (63) *)
Definition variance (col : list R) : R := mean (map (fun d => (d - mean col) * (d - mean col)) col).
Definition variances (ts : list tensor) (base : tensor) : list R := map (fun i => variance (column ts base i)) (positions base).
(** the number of positions selected (64-65) *)
Definition sce_k (density : R) (vars : list R) : Z :=
  trunc (INR (length (filter (fun v => if Req_EM_T v 0 then false else true) vars)) * density).
(** [sce_weight] (47-52), given the mean squares of the task vectors *)
Definition sce_weight (squares : list R) : list R :=
  if Rlt_dec (Rabs (rsum squares)) (/ 10 ^ 6) then map (fun _ => / INR (length squares)) squares
  else map (fun s => s / rsum squares) squares.
(** 34-42, at one position *)
Definition sce_position (ws col : list R) : R :=
  let ew := map2 Rmult ws (get_mask CSum col) in
  rsum (map2 Rmult col ew) / Rmax (rsum ew) (/ 10 ^ 6).
(** 36-44, on task vectors that are zero outside [kept] *)
Definition sce_merge (ts : list tensor) (base : tensor) (kept : nat -> bool) : tensor :=
  let col i := if kept i then column ts base i else map (fun _ => 0) ts in
  let squares := map (fun j => mean (map (fun i => let d := nth j (col i) 0 in d * d) (positions base))) (seq 0 (length ts)) in
  {| shp := shp base; dat := map (fun i => ent base i + sce_position (sce_weight squares) (col i)) (positions base) |}.
(** [sce_merge] (19-44). [topk l k]: the indices [torch.topk(l, k)] returns. When no position is selected, [sce_mask] (58-59,
    66-67) returns zeros of the shape of the stacked task vectors instead of one of them; after the [unsqueeze(0)] (32) the
    broadcast product has one dimension more, and so has the result: n copies of the base tensor. *)
Definition sce (topk : list R -> nat -> list nat) (ts : list tensor) (base : tensor) (density : R) : result tensor :=
  match ts with
  | [] => Ok base
  | _ =>
      if same_shapes ts base then
        if Rlt_dec density 1 then
          let vars := variances ts base in
          let k := sce_k density vars in
          if (if Rle_dec density 0 then true else (k =? 0)%Z)
          then Ok {| shp := length ts :: shp base; dat := concat (map (fun _ => dat base) ts) |}
          else let idx := topk vars (Z.to_nat k) in Ok (sce_merge ts base (fun i => existsb (Nat.eqb i) idx))
        else Ok (sce_merge ts base (fun _ => true))
      else Err RuntimeError
  end.

(** ** arcee_fusion.py *)
(** [torch.sort] *)
Fixpoint insert (x : R) (l : list R) : list R := match l with [] => [x] | y :: l => if Rle_dec x y then x :: y :: l else y :: insert x l end.
Definition sort (l : list R) : list R := fold_right insert [] l.
(** [approximate_quantiles] (22-37) for the quantile num/4. [perm] is [randperm(numel)], used for large tensors only. The
    float32 product is exact for sizes up to a million. *)
Definition sampled (perm : list nat) (l : list R) : list R :=
  if (1000000 <? Z.of_nat (length l))%Z then map (fun i => nth i l 0) (firstn (Z.to_nat 1000000) perm) else l.
Definition quantile (num : nat) (perm : list nat) (l : list R) : result R :=
  let s := sort (sampled perm l) in nthE s (num * (length s - 1) / 4).
(** [calculate_dynamic_threshold] (39-52): the median is taken on one sample, the quartiles on another *)
Definition threshold (perm1 perm2 : list nat) (scores : list R) : result R :=
  let! median := quantile 2 perm1 scores in
  let! q1 := quantile 1 perm2 scores in
  let! q3 := quantile 3 perm2 scores in
  Ok (median + 3 / 2 * (q3 - q1)).
(** [_compute_importance] (100-107) *)
Definition softmax (l : list R) : list R := map (fun v => exp v / rsum (map exp l)) l.
Definition kl (params base : list R) : R :=
  let e := / 10 ^ 8 in
  let p := map (fun v => v + e) (softmax params) in
  let q := map (fun v => v + e) (softmax base) in
  rsum (map2 (fun p q => p * ln (p / q)) p q).
Definition row_scores (params base : list R) : list R := map2 (fun x y => Rabs (x - y) * kl params base) params base.
(** rows along the last dimension; a 0-d tensor counts as one row *)
Definition last_rows (t : tensor) : list (list R) :=
  match rev (shp t) with
  | c :: rest => chunk (fold_right Nat.mul 1%nat rest) c (dat t)
  | [] => [dat t]
  end.
Definition importance (params base : tensor) : list R := concat (map2 row_scores (last_rows params) (last_rows base)).
(** [ArceeFusionMergeTask.execute] (71-98). The [unsqueeze(-1)] (107) makes a 1-d tensor of a 0-d one. *)
Definition fuse (perm1 perm2 : list nat) (base other : tensor) : result tensor :=
  let scores := importance other base in
  let! th := threshold perm1 perm2 scores in
  Ok {| shp := match shp base with [] => [1%nat] | s => s end;
        dat := map (fun i => ent base i + (ent other i - ent base i) * (if Rle_dec th (nth i scores 0) then 1 else 0)) (positions base) |}.
Definition arcee_fusion (is_embed : bool) (perm1 perm2 : list nat) (base_model : string) (tensors : dict string tensor) : result tensor :=
  match tensors with
  | [(_, x)] => Ok x
  | [(ka, a); (kb, b)] =>
      if dmem tensors base_model then
        let '(a, b) := if eqb ka base_model then (a, b) else (b, a) in
        let! ts := rectify_embed_sizes is_embed [a; b] in
        match ts with
        | [a; b] => if shape_eqb (shp a) (shp b) then fuse perm1 perm2 a b else Err RuntimeError
        | _ => Err ValueError
        end
      else Err RuntimeError
  | _ => Err RuntimeError
  end.

(** ** nuslerp.py *)
(** [nuslerp] (130-165) on two vectors *)
Definition nuslerp_vec (t : R) (v0 v1 : list R) : list R :=
  let unit v := map (fun x => x / Rmax (norm2 v) (/ 10 ^ 7)) v in
  let theta := acos (clamp (-1) 1 (dot (unit v0) (unit v1))) in
  if Rlt_dec (Rabs (sin theta)) (/ 10 ^ 8) then lerp t v0 v1
  else map2 (fun a b => (sin ((1 - t) * theta) * a + sin (t * theta) * b) / sin theta) v0 v1.
(** the [c] columns of a row-major matrix *)
Definition col_of (c j : nat) (r : nat) (l : list R) : list R := map (fun i => nth (i * c + j) l 0) (seq 0 r).
(** flattened, along the last dimension, or along the first one; tensors of more than two dimensions are modelled only flattened *)
Definition nuslerp (t : R) (shape : list nat) (row_wise flatten : bool) (v0 v1 : list R) : result (list R) :=
  if flatten then Ok (nuslerp_vec t v0 v1)
  else match shape with
       | [_] => Ok (nuslerp_vec t v0 v1)
       | [r; c] =>
           if row_wise
           then Ok (flat_map (fun i => map (fun j => nth i (nuslerp_vec t (col_of c j r v0) (col_of c j r v1)) 0) (seq 0 c)) (seq 0 r))
           else Ok (concat (map2 (nuslerp_vec t) (chunk r c v0) (chunk r c v1)))
       | _ => Err NotImplementedError
       end.
(** [NuSlerpTask.execute] (35-82) *)
Definition nuslerp_t (w0 w1 : R) : R := if Rlt_dec (Rabs (w0 + w1)) (/ 10 ^ 6) then 1 / 2 else w1 / (w0 + w1).
Definition nuslerp_task (is_embed row_wise flatten : bool) (base_model : option string) (tensors : dict string tensor)
    (weights : dict string R) : result tensor :=
  match tensors with
  | [(_, x)] => Ok x
  | _ =>
      let! (base, rest) := match base_model with
                           | Some b => if Nat.eqb (length tensors) 3
                                       then let! x := dgetE tensors b in Ok (Some x, ddel tensors b)
                                       else Err RuntimeError
                           | None => Ok (None, tensors)
                           end in
      let! ws := rmapM (fun kt => dgetE weights (fst kt)) rest in
      match rest, ws with
      | [(_, a); (_, b)], [w0; w1] =>
          let t := nuslerp_t w0 w1 in
          let! ts := rectify_embed_sizes is_embed (a :: b :: match base with Some x => [x] | None => [] end) in
          match ts with
          | [a; b] => if shape_eqb (shp a) (shp b)
                      then let! d := nuslerp t (shp a) row_wise flatten (dat a) (dat b) in Ok {| shp := shp a; dat := d |}
                      else Err RuntimeError
          | [a; b; x] => if shape_eqb (shp a) (shp x) && shape_eqb (shp b) (shp x)
                         then let! d := nuslerp t (shp x) row_wise flatten (vsub (dat a) (dat x)) (vsub (dat b) (dat x)) in
                              Ok {| shp := shp x; dat := vadd (dat x) d |}
                         else Err RuntimeError
          | _ => Err RuntimeError
          end
      | _, _ => Err RuntimeError
      end
  end.

(** ** multislerp.py 16-99, on flattened tensors: rows [xs] of [n] entries *)
Definition comb (n : nat) (ws : list R) (xs : list (list R)) : list R :=
  map (fun i => rsum (map2 (fun w x => w * nth i x 0) ws xs)) (seq 0 n).
Definition multislerp_flat (n : nat) (xs : list (list R)) (ws : list R) (eps : R) : result (list R) :=
  let norms := map norm2 xs in
  if existsb (fun m => if Req_EM_T (m + eps) 0 then true else false) norms then Err ZeroDivisionError else
  let units := map (fun x => vscale (/ (norm2 x + eps)) x) xs in
  let m := comb n ws units in
  let mean_norm := norm2 m in
  if Rlt_dec mean_norm eps then
    if Nat.eqb (length xs) 2 then Ok (comb n ws xs) else Err ValueError
  else if Req_EM_T mean_norm 0 then Err ZeroDivisionError
  else
    let m := vscale (/ mean_norm) m in
    let tangents := map (fun u => vsub u (vscale (dot u m) m)) units in
    let tr := comb n ws tangents in
    let tn := norm2 tr + eps in
    if Req_EM_T tn 0 then Err ZeroDivisionError else
    let r := vadd (vscale (cos tn) m) (vscale (sin tn / tn) tr) in
    Ok (vscale (rsum (map2 Rmult norms ws)) r).
Definition multislerp (ts : list tensor) (weights : list R) (base : option tensor) (normalize : bool) (eps : R) : result tensor :=
  match ts with
  | [] => Err RuntimeError
  | [t] => Ok t
  | t0 :: _ =>
      let shape := match base with Some b => shp b | None => shp t0 end in
      if forallb (fun t => shape_eqb (shp t) shape) ts && Nat.eqb (length weights) (length ts) then
        let xs := map (fun t => match base with Some b => vsub (dat t) (dat b) | None => dat t end) ts in
        if normalize && (if Req_EM_T (rsum weights) 0 then true else false) then Err ZeroDivisionError else
        let ws := if normalize then map (fun w => w / rsum weights) weights else weights in
        let! r := multislerp_flat (length (dat t0)) xs ws eps in
        Ok {| shp := shape; dat := match base with Some b => vadd r (dat b) | None => r end |}
      else Err RuntimeError
  end.

(** ** karcher.py 110-195 *)
Section Karcher.
Variables (n : nat) (tol : R) (alphas : list R) (units : list (list R)).
(** one term of T (163-173) *)
Definition pull (u : list R) (a : R) (ui : list R) : list R :=
  let d := clamp (-1) 1 (dot u ui) in
  let theta := acos d in
  if Rlt_dec theta tol then map (fun _ => 0) u
  else map2 (fun x y => a * (theta / sin theta) * (x - d * y)) ui u.
Definition tangent (u : list R) : list R :=
  map (fun i => rsum (map2 (fun a ui => nth i (pull u a ui) 0) alphas units)) (seq 0 n).
Fixpoint karcher_loop (fuel : nat) (u : list R) : list R :=
  match fuel with
  | O => u
  | S fuel =>
      let t := tangent u in
      let nt := norm2 t in
      if Rlt_dec nt tol then u
      else
        let u' := map2 (fun x y => cos nt * x + sin nt * (y / nt)) u t in
        let un := norm2 u' in
        karcher_loop fuel (if Rlt_dec tol un then vscale (/ un) u' else u')
  end.
(** the initial guess (150-158) *)
Definition karcher_start : list R :=
  let u := comb n alphas units in
  if Rlt_dec (norm2 u) tol then match units with u0 :: _ => u0 | [] => [] end else vscale (/ norm2 u) u.
End Karcher.
(** [karcher_merge_tensors] (110-195) on flattened tensors *)
Definition karcher_vec (n : nat) (xs : list (list R)) (alphas : list R) (max_iter : nat) (tol : R) : list R :=
  match xs with
  | [x] => x
  | _ =>
      let norms := map norm2 xs in
      let unit x := if Req_EM_T (norm2 x) 0 then map (fun _ => 0) x else vscale (/ norm2 x) x in
      let valid := filter (fun ax => if Rlt_dec tol (norm2 (snd ax)) then true else false) (combine alphas xs) in
      match valid with
      | [] => repeat 0 n
      | _ =>
          let asum := rsum (map fst valid) in
          let al := map (fun ax => fst ax / asum) valid in
          let us := map (fun ax => unit (snd ax)) valid in
          vscale (rsum (map2 Rmult alphas norms)) (karcher_loop n tol al us max_iter (karcher_start n tol al us))
      end
  end.
(** [KarcherTask.execute] (40-57). The lists passed to rectify_embed_sizes (48-49) are temporary, so its effect is lost; what
    remains is the error it can raise. Tensors of different sizes cannot be added. *)
Definition karcher (is_embed : bool) (max_iter : nat) (tol : R) (tensors : dict string tensor) : result tensor :=
  match tensors with
  | [(_, x)] => Ok x
  | [] => Err ZeroDivisionError
  | (_, t0) :: rest =>
      let! _ := rmapM (fun kt => rectify_embed_sizes is_embed [t0; snd kt]) rest in
      if forallb (fun kt => shape_eqb (shp (snd kt)) (shp t0)) rest
      then let k := length tensors in
           Ok {| shp := shp t0;
                 dat := karcher_vec (length (dat t0)) (map (fun kt => dat (snd kt)) tensors) (repeat (1 / INR k) k) max_iter tol |}
      else Err RuntimeError
  end.
