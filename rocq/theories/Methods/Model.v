(** Model of merge methods in mergekit/merge_methods, in exact real arithmetic.

    A tensor is a shape and its entries in row-major order.  A result that would
    contain an infinity or a NaN from a division by zero is reported as
    ZeroDivisionError (PyTorch does not raise).  Broadcasting between tensors of
    different shapes is not modelled: it is reported as RuntimeError. *)
From Coq Require Import Reals.
From Verif.Base Require Import Py RList.
From Verif.Sparsify Require Import Model.
Local Open Scope string_scope.
Local Open Scope list_scope.
Local Open Scope R_scope.

Record tensor := { shp : list nat; dat : list R }.
Definition numel (s : list nat) : nat := fold_right Nat.mul 1%nat s.
Definition wf (t : tensor) : Prop := length (dat t) = numel (shp t).

Definition shape_eqb (a b : list nat) : bool := if list_eq_dec Nat.eq_dec a b then true else false.

(** [t[:r, :c]] of a matrix; indexing a vector that way raises *)
Definition submatrix (r c : nat) (t : tensor) : result tensor :=
  match shp t with
  | rt :: ct :: rest =>
      match rest with
      | [] => let r := Nat.min r rt in let c := Nat.min c ct in
              Ok {| shp := [r; c];
                    dat := flat_map (fun i => map (fun j => nth (i * ct + j) (dat t) 0) (seq 0 c)) (seq 0 r) |}
      | _ => Err NotImplementedError
      end
  | _ => Err IndexError
  end.

(** ** rectify_embed.py 13-34 *)
Definition dim2 (t : tensor) : bool := Nat.eqb (length (shp t)) 2.
Definition min_of (l : list nat) : nat := match l with [] => 0%nat | x :: l => fold_right Nat.min x l end.
Definition min_size (ts : list tensor) (idx : nat) : nat := min_of (map (fun t => nth idx (shp t) 0%nat) ts).
Definition rectify_embed_sizes (is_embed : bool) (ts : list tensor) : result (list tensor) :=
  if is_embed && forallb dim2 ts
  then let r := min_size ts 0 in let c := min_size ts 1 in
       if forallb (fun t => shape_eqb (shp t) [r; c]) ts then Ok ts
       else rmapM (submatrix r c) ts
  else Ok ts.

(** ** LinearMergeTask.execute (linear.py 32-57) *)
Definition linear (is_embed normalize : bool) (tensors : dict string tensor) (weights : dict string R) : result tensor :=
  let! ws := rmapM (fun kt => match dget weights (fst kt) with Some w => Ok w | None => Err KeyError end) tensors in
  let! ts := rectify_embed_sizes is_embed (map snd tensors) in
  match ts with
  | [] => Err RuntimeError
  | t0 :: _ =>
      if forallb (fun t => shape_eqb (shp t) (shp t0)) ts
      then
        let res := map (fun i => rsum (map2 (fun w t => w * nth i (dat t) 0) ws ts)) (seq 0 (length (dat t0))) in
        if normalize
        then if Req_EM_T (rsum ws) 0 then Err ZeroDivisionError
             else Ok {| shp := shp t0; dat := map (fun v => v / rsum ws) res |}
        else Ok {| shp := shp t0; dat := res |}
      else Err RuntimeError
  end.

(** ** PassthroughMergeTask.execute (passthrough.py 25-34) *)
Definition passthrough (tensors : dict string tensor) (scale : dict string R) : result tensor :=
  match tensors with
  | [(m, t)] => match dget scale m with
                | Some s => Ok {| shp := shp t; dat := map (fun v => v * s) (dat t) |}
                | None => Ok t
                end
  | _ => Err RuntimeError
  end.

(** ** generalized_task_arithmetic.py *)
Inductive consensus := CCount | CSum.
Record tparams := { p_weight : R; p_density : R; p_gamma : R; p_epsilon : R }.
Record task_vector := { tv_model : string; tv_delta : list R; tv_par : tparams }.

(** get_task_vectors (190-227), for the models after the base has been found *)
Fixpoint task_vectors (is_embed : bool) (base_model : string) (base : tensor) (params : dict string tparams)
    (tensors : dict string tensor) : result (list task_vector) :=
  match tensors with
  | [] => Ok []
  | (m, x) :: rest =>
      if eqb m base_model then task_vectors is_embed base_model base params rest
      else
        let! ox := (if shape_eqb (shp x) (shp base) then Ok (Some x)
                    else if is_embed
                         then match shp base with
                              | r :: c :: _ => let! x' := submatrix r c x in
                                               if shape_eqb (shp x') (shp base) then Ok (Some x') else Err RuntimeError
                              | _ => Err IndexError
                              end
                         else Ok None) in
        match ox with
        | None => task_vectors is_embed base_model base params rest
        | Some x' =>
            match dget params m with
            | None => Err KeyError
            | Some p =>
                let! tvs := task_vectors is_embed base_model base params rest in
                Ok ({| tv_model := m; tv_delta := vsub (dat x') (dat base); tv_par := p |} :: tvs)
            end
        end
  end.

(** rows of a tensor, for the row-wise sparsification method; tensors of other
    ranks are not modelled there *)
Fixpoint chunk (k c : nat) (l : list R) : list (list R) :=
  match k with O => [] | S k => firstn c l :: chunk k c (skipn c l) end.
Definition rows_of (m : method) (shape : list nat) (l : list R) : result (list (list R)) :=
  match m with
  | DellaMagprune => match shape with
                     | [_] => Ok [l]
                     | [r; c] => Ok (chunk r c l)
                     | _ => Err NotImplementedError
                     end
  | _ => Ok [l]
  end.

(** get_mask (230-254) for one position: the weighted deltas of all models there *)
Definition sign (v : R) : R := if Rlt_dec 0 v then 1 else if Rlt_dec v 0 then -1 else 0.
Definition majority_sign (c : consensus) (col : list R) : R :=
  match c with
  | CSum => if Rle_dec 0 (rsum col) then 1 else -1
  | CCount => if Rle_dec 0 (rsum (map sign col)) then 1 else -1
  end.
Definition get_mask (c : consensus) (col : list R) : list R :=
  map (fun v => if Req_EM_T (sign v) (majority_sign c col) then 1 else 0) col.

(** mixing at one position (151-179): weights and deltas of all models *)
Definition mix (cm : option consensus) (normalize : bool) (lambda : R) (ws ds : list R) : R :=
  let wd := map2 Rmult ds ws in
  let '(mixed, divisor) :=
    match cm with
    | Some c =>
        let mask := get_mask c wd in
        let d := rsum (map2 Rmult ws mask) in
        (rsum (map2 Rmult wd mask), if Req_EM_T d 0 then 1 else d)
    | None =>
        let d := rsum ws in
        (rsum wd, if Rlt_dec (Rabs d) (/ 10 ^ 8) then 1 else d)
    end in
  let mixed := if normalize then mixed / divisor else mixed in
  if Req_EM_T lambda 1 then mixed else mixed * lambda.

Record gta_method := { g_consensus : option consensus; g_sparsify : option method }.
(** GTATask.execute (119-184); [choice m] is what the library calls return while
    sparsifying the task vector of model [m] *)
Definition gta (g : gta_method) (is_embed normalize : bool) (norm : option rescale_norm) (lambda : R)
    (base_model : string) (tensors : dict string tensor) (params : dict string tparams) (choice : string -> choices) : result tensor :=
  match dget tensors base_model with
  | None => Err KeyError
  | Some base =>
      let! tvs := task_vectors is_embed base_model base params tensors in
      match tvs with
      | [] => Ok base
      | _ =>
          let! deltas := rmapM (fun tv =>
              match g_sparsify g with
              | None => Ok (tv_delta tv)
              | Some m => let! rows := rows_of m (shp base) (tv_delta tv) in
                          sparsify rows (p_density (tv_par tv)) m (p_gamma (tv_par tv)) (p_epsilon (tv_par tv)) norm (choice (tv_model tv))
              end) tvs in
          let ws := map (fun tv => p_weight (tv_par tv)) tvs in
          Ok {| shp := shp base;
                dat := map (fun i => nth i (dat base) 0 + mix (g_consensus g) normalize lambda ws (map (fun d => nth i d 0) deltas))
                         (seq 0 (length (dat base))) |}
      end
  end.

(** ** nearswap.py 17-32 *)
Definition clamp (lo hi v : R) : R := Rmin (Rmax v lo) hi.
Definition nearswap_weight (t a b : R) : R := clamp 0 1 (t / Rmax (Rabs (a - b)) (/ 10 ^ 6)).
Definition nearswap (tensors : list tensor) (base : tensor) (t : R) : result tensor :=
  match tensors with
  | [] => Ok base
  | [b] => if shape_eqb (shp base) (shp b)
           then Ok {| shp := shp base;
                      dat := map2 (fun a b => nearswap_weight t a b * b + (1 - nearswap_weight t a b) * a) (dat base) (dat b) |}
           else Err RuntimeError
  | _ => Err RuntimeError
  end.

(** ** model_stock.py 33-99, on one row (the whole flattened tensor, or one row
    in filter-wise mode) *)
Definition pair_cos (a b : list R) : R :=
  clamp (-1) 1 (dot a b / Rmax (norm2 a * norm2 b) (/ 10 ^ 6)).
Fixpoint pairs_cos (l : list (list R)) : list R :=
  match l with [] => [] | a :: l => map (pair_cos a) l ++ pairs_cos l end.
Definition mean (l : list R) : R := rsum l / INR (length l).
Definition stock_ratio (offsets : list (list R)) : option R :=
  let c := mean (pairs_cos offsets) in
  let n := INR (length offsets) in
  if Req_EM_T (1 + (n - 1) * c) 0 then None else Some (n * c / (1 + (n - 1) * c)).
Definition vavg (ws : list (list R)) (len : nat) : list R :=
  map (fun i => rsum (map (fun w => nth i w 0) ws) / INR (length ws)) (seq 0 len).
Definition stock_row (w0 : list R) (ws : list (list R)) : result (list R) :=
  match stock_ratio (map (fun w => vsub w w0) ws) with
  | None => Err ZeroDivisionError
  | Some t => Ok (map2 (fun avg b => t * avg + (1 - t) * b) (vavg ws (length w0)) w0)
  end.
(** the rows the method works on (54-63): with [filter_wise], the lines along the
    last dimension; a vector is one row, a 0-d tensor is not modelled *)
Definition stock_rows (filter_wise : bool) (shape : list nat) (l : list R) : list (list R) :=
  if filter_wise
  then match rev shape with
       | c :: rest => chunk (fold_right Nat.mul 1%nat rest) c l
       | [] => [l]
       end
  else [l].
Definition model_stock (is_embed optional filter_wise : bool) (base_model : string) (tensors : dict string tensor) : result (option tensor) :=
  match dget tensors base_model, tensors with
  | Some b, [_] => Ok (Some b)
  | _, _ =>
      if (length tensors <? 3)%nat then if optional then Ok None else Err ValueError
      else match dget tensors base_model with
           | None => Err ValueError
           | Some b =>
               let! all := rectify_embed_sizes is_embed (b :: map snd (filter (fun kt => negb (eqb (fst kt) base_model)) tensors)) in
               match all with
               | [] => Err IndexError
               | w0 :: ws =>
                   if forallb (fun w => shape_eqb (shp w) (shp w0)) ws
                   then
                     let r0 := stock_rows filter_wise (shp w0) (dat w0) in
                     let rs := map (fun w => stock_rows filter_wise (shp w) (dat w)) ws in
                     let! out := rmapM (fun k => stock_row (nth k r0 []) (map (fun r => nth k r []) rs)) (seq 0 (length r0)) in
                     Ok (Some {| shp := shp w0; dat := concat out |})
                   else Err RuntimeError
               end
           end
  end.

(** ** slerp.py 97-167 *)
Definition lerp (t : R) (v0 v1 : list R) : list R := map2 (fun a b => (1 - t) * a + t * b) v0 v1.
Definition normalize_vec (v : list R) (eps : R) : list R := if Rlt_dec eps (norm2 v) then map (fun x => x / norm2 v) v else v.
Definition dot_threshold : R := 9995 / 10000.
Definition slerp (t : R) (v0 v1 : list R) : list R :=
  let eps := / 10 ^ 8 in
  let d := dot (normalize_vec v0 eps) (normalize_vec v1 eps) in
  if Rlt_dec dot_threshold (Rabs d) then lerp t v0 v1
  else
    let theta_0 := acos d in
    let theta_t := theta_0 * t in
    let s0 := sin (theta_0 - theta_t) / sin theta_0 in
    let s1 := sin theta_t / sin theta_0 in
    map2 (fun a b => s0 * a + s1 * b) v0 v1.
(** SlerpTask.execute (33-58) *)
Definition slerp_task (is_embed : bool) (t : R) (base_model : string) (tensors : dict string tensor) : result tensor :=
  match tensors with
  | [(_, x)] => Ok x
  | [(ka, a); (kb, b)] =>
      if dmem tensors base_model
      then
        let '(a, b) := if eqb ka base_model then (a, b) else (b, a) in
        let! ts := rectify_embed_sizes is_embed [a; b] in
        match ts with
        | [a; b] => if shape_eqb (shp a) (shp b)
                    then Ok {| shp := shp a; dat := slerp t (dat a) (dat b) |}
                    else Err ValueError
        | _ => Err ValueError
        end
      else Err RuntimeError
  | _ => Err RuntimeError
  end.
