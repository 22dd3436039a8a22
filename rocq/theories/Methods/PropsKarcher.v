(** C61: the Karcher mean. *)
From Coq Require Import Reals Lra Lia Psatz Permutation.
From Verif.Base Require Import LinAlg Py PyFacts RList.
From Verif.TokenSurgeon Require Import PropsPca.
From Verif.Methods Require Import Model LinearProofs PropsLinear PropsSlerp PropsStock More PropsRam PropsNuslerp PropsFusion PropsMultislerp.
Local Open Scope string_scope.
Local Open Scope list_scope.
Local Open Scope R_scope.

(** ** Specification *)
(** logarithm and exponential map of the unit sphere at [u] *)
Definition logv (u v : list R) : list R :=
  let theta := acos (dot u v) in map2 (fun y x => theta / sin theta * (y - dot u v * x)) v u.
Definition expv (u t : list R) : list R := map2 (fun x y => cos (norm2 t) * x + sin (norm2 t) * (y / norm2 t)) u t.
(** the weighted mean of the logarithms, leaving out vectors at an angle below [tol] *)
Definition mean_log (n : nat) (tol : R) (l : list (R * list R)) (u : list R) : list R :=
  map (fun i => rsum (map (fun p => if Rlt_dec (acos (dot u (snd p))) tol then 0 else fst p * nth i (logv u (snd p)) 0) l)) (seq 0 n).
(** at most [k] steps of gradient descent from [u] to [v] *)
Inductive descends (n : nat) (tol : R) (l : list (R * list R)) : nat -> list R -> list R -> Prop :=
| converged k u : norm2 (mean_log n tol l u) < tol -> descends n tol l k u u
| exhausted u : descends n tol l 0 u u
| one_step k u v : tol <= norm2 (mean_log n tol l u) -> descends n tol l k (expv u (mean_log n tol l u)) v -> descends n tol l (S k) u v.
(** the vectors longer than [tol], normalised, with equal weights *)
Definition direction (x : list R) : list R := vscale (/ norm2 x) x.
Definition longer (tol : R) (xs : list (list R)) : list (list R) := filter (fun x => if Rlt_dec tol (norm2 x) then true else false) xs.
Definition sphere_points (tol : R) (xs : list (list R)) : list (R * list R) :=
  map (fun x => (1 / INR (length (longer tol xs)), direction x)) (longer tol xs).
Definition total (n : nat) (l : list (R * list R)) : list R := map (fun i => rsum (map (fun p => fst p * nth i (snd p) 0) l)) (seq 0 n).
Definition first_guess (n : nat) (tol : R) (l : list (R * list R)) : list R :=
  if Rlt_dec (norm2 (total n l)) tol then hd [] (map snd l) else direction (total n l).

(** ** Lemmas *)
Lemma direction_unit x : norm2 x <> 0 -> unit_vec (direction x).
Proof. intros H. unfold unit_vec, direction. pose proof (norm2_nonneg x). rewrite norm2_scale, Rabs_pos_eq by (left; apply Rinv_0_lt_compat; lra). now apply Rinv_l. Qed.
Lemma unit_dot u v : length u = length v -> unit_vec u -> unit_vec v -> -1 <= dot u v <= 1.
Proof.
  intros L Hu Hv. pose proof (dot_lin 1 1 1 1 u v L) as H1. pose proof (dot_lin 1 (-1) 1 (-1) u v L) as H2. rewrite !(dot_self u), !(dot_self v) in H1, H2 by assumption.
  rewrite <- norm2_sq in H1, H2. pose proof (Rle_0_sqr (norm2 (map2 (fun x y => 1 * x + 1 * y) u v))) as G1. pose proof (Rle_0_sqr (norm2 (map2 (fun x y => 1 * x + -1 * y) u v))) as G2. unfold Rsqr in *. lra.
Qed.

Section Loop.
Variables (n : nat) (tol : R) (l : list (R * list R)).
Hypothesis Hl : forall p, In p l -> length (snd p) = n /\ unit_vec (snd p).
Lemma tangent_log u : length u = n -> unit_vec u -> tangent n tol (map fst l) (map snd l) u = mean_log n tol l u.
Proof.
  intros Lu Hu. unfold tangent, mean_log. apply map_ext_in. intros i Hi. apply in_seq in Hi. rewrite map2_map. apply rsum_ext. intros p Hp. destruct (Hl p Hp) as [Lp Up]. unfold pull.
  rewrite clamp_id by (apply unit_dot; congruence || assumption). destruct (Rlt_dec _ tol); [now rewrite (map_nth_in _ u i 0 0) by lia|].
  unfold logv. rewrite (map2_nth _ (snd p) u i 0 0 0), (map2_nth _ (snd p) u i 0 0 0) by lia. ring.
Qed.
Lemma mean_log_length u : length (mean_log n tol l u) = n.
Proof. unfold mean_log. now rewrite map_length, seq_length. Qed.
Lemma mean_log_ortho u : length u = n -> unit_vec u -> dot u (mean_log n tol l u) = 0.
Proof.
  intros Lu Hu. rewrite (dot_Sum _ _ n Lu (mean_log_length u)).
  transitivity (Sum n (fun i => rsum (map (fun p => nth i u 0 * (if Rlt_dec (acos (dot u (snd p))) tol then 0 else fst p * nth i (logv u (snd p)) 0)) l))).
  - apply Sum_ext. intros i Hi. unfold mean_log. rewrite nth_map_seq by exact Hi. now rewrite rsum_mul.
  - rewrite <- rsum_Sum. transitivity (rsum (map (fun _ : R * list R => 0) l)); [|rewrite rsum_const; ring]. apply rsum_ext. intros p Hp. destruct (Hl p Hp) as [Lp Up].
    destruct (Rlt_dec _ tol); [apply Sum_0; intros; ring|].
    transitivity (Sum n (fun i => fst p * (acos (dot u (snd p)) / sin (acos (dot u (snd p)))) * (nth i u 0 * nth i (snd p) 0 + - dot u (snd p) * (nth i u 0 * nth i u 0)))).
    + apply Sum_ext. intros i Hi. unfold logv. rewrite (map2_nth _ (snd p) u i 0 0 0) by lia. ring.
    + rewrite Sum_scal, Sum_plus, Sum_scal, <- !dot_Sum, (dot_self u) by assumption. ring.
Qed.
Lemma expv_unit u t : length t = length u -> unit_vec u -> dot u t = 0 -> norm2 t <> 0 -> unit_vec (expv u t).
Proof.
  intros L Hu Ho Hn. unfold unit_vec. rewrite norm2_dot. unfold expv. rewrite (map2_ext _ (fun x y => cos (norm2 t) * x + sin (norm2 t) / norm2 t * y)) by (intros; unfold Rdiv; ring).
  rewrite dot_lin by congruence. rewrite (dot_self u Hu), Ho, <- norm2_sq. transitivity (sqrt (sin (norm2 t) * sin (norm2 t) + cos (norm2 t) * cos (norm2 t))).
  - f_equal. field. exact Hn.
  - pose proof (sin2_cos2 (norm2 t)) as H. unfold Rsqr in H. rewrite H. apply sqrt_1.
Qed.
Lemma loop_descends k : 0 < tol < 1 -> forall u, length u = n -> unit_vec u ->
  let v := karcher_loop n tol (map fst l) (map snd l) k u in descends n tol l k u v /\ length v = n /\ unit_vec v.
Proof.
  intros Ht. induction k as [|k IH]; intros u Lu Hu; cbv zeta in *; cbn [karcher_loop]; [repeat split; auto; apply exhausted|]. rewrite !tangent_log by assumption.
  destruct (Rlt_dec (norm2 (mean_log n tol l u)) tol) as [Hc|Hc]; [repeat split; auto; now constructor|].
  fold (expv u (mean_log n tol l u)). set (w := expv u (mean_log n tol l u)).
  assert (Hw : unit_vec w) by (apply expv_unit; [rewrite mean_log_length; congruence|exact Hu|now apply mean_log_ortho|lra]).
  assert (Lw : length w = n) by (unfold w, expv; rewrite map2_length, mean_log_length; lia).
  assert (Ew : (if Rlt_dec tol (norm2 w) then vscale (/ norm2 w) w else w) = w).
  { destruct (Rlt_dec tol (norm2 w)); [|reflexivity]. rewrite Hw, Rinv_1. unfold vscale. rewrite <- (map_id w) at 2. apply map_ext. intros; ring. }
  rewrite Ew. destruct (IH w Lw Hw) as (Hd & Hv). split; [|exact Hv]. apply one_step; [lra|exact Hd].
Qed.
End Loop.

Lemma filter_combine_repeat {A B} (f : B -> bool) (a : A) (l : list B) : filter (fun p => f (snd p)) (combine (repeat a (length l)) l) = map (pair a) (filter f l).
Proof. induction l as [|x l IH]; cbn; [reflexivity|]. destruct (f x); cbn; now rewrite IH. Qed.
Lemma map2_repeat {A} (c : R) (g : A -> R) (l : list A) : map2 Rmult (repeat c (length l)) (map g l) = map (fun x => c * g x) l.
Proof. induction l as [|x l IH]; cbn; [reflexivity|]. now rewrite IH. Qed.
Lemma vec_value n xs k tol : (2 <= length xs)%nat -> 0 < tol < 1 -> (forall x, In x xs -> length x = n) -> longer tol xs <> [] ->
  let l := sphere_points tol xs in
  exists u, karcher_vec n xs (repeat (1 / INR (length xs)) (length xs)) k tol = vscale (rsum (map norm2 xs) / INR (length xs)) u /\
    descends n tol l k (first_guess n tol l) u /\ length u = n /\ unit_vec u.
Proof.
  intros H2 Ht Hx Hne l. destruct xs as [|x0 [|x1 xs]]; cbn in H2; try lia. set (L := x0 :: x1 :: xs) in *. set (a := 1 / INR (length L)).
  unfold karcher_vec, L at 1. fold L. cbv zeta. set (f := fun x => if Rlt_dec tol (norm2 x) then true else false). change (filter (fun ax : R * list R => if Rlt_dec tol (norm2 (snd ax)) then true else false) (combine (repeat a (length L)) L)) with (filter (fun ax => f (snd ax)) (combine (repeat a (length L)) L)).
  rewrite (filter_combine_repeat f a L). assert (El : filter f L = longer tol L) by reflexivity. rewrite El.
  assert (Hk : 0 < INR (length L)) by (apply lt_0_INR; cbn; lia).
  assert (Ha : a <> 0) by (unfold a, Rdiv; rewrite Rmult_1_l; apply Rinv_neq_0_compat; lra).
  assert (Hv : 0 < INR (length (longer tol L))) by (apply lt_0_INR; destruct (longer tol L); [congruence|cbn; lia]).
  assert (Esum : rsum (map fst (map (pair a) (longer tol L))) = INR (length (longer tol L)) * a) by (rewrite map_map; cbn [fst]; apply rsum_const).
  assert (Eal : map (fun ax : R * list R => fst ax / rsum (map fst (map (pair a) (longer tol L)))) (map (pair a) (longer tol L)) = map fst l).
  { unfold l, sphere_points. rewrite !map_map, <- (map_map (pair a) fst), Esum. cbn [fst]. apply map_ext. intros x. field. split; lra. }
  assert (Eus : map (fun ax : R * list R => if Req_EM_T (norm2 (snd ax)) 0 then map (fun _ : R => 0) (snd ax) else vscale (/ norm2 (snd ax)) (snd ax)) (map (pair a) (longer tol L)) = map snd l).
  { unfold l, sphere_points. rewrite !map_map. cbn [snd]. apply map_ext_in. intros x Hin. apply filter_In in Hin as [_ Hin]. destruct (Rlt_dec tol (norm2 x)); [|discriminate]. destruct (Req_EM_T _ 0); [lra|reflexivity]. }
  destruct (map (pair a) (longer tol L)) as [|vp vl] eqn:Ev; [destruct (longer tol L); [congruence|discriminate]|]. rewrite <- Ev in *. rewrite Eal, Eus.
  assert (Hl : forall p, In p l -> length (snd p) = n /\ unit_vec (snd p)).
  { intros p Hp. unfold l, sphere_points in Hp. apply in_map_iff in Hp as (x & <- & Hin). apply filter_In in Hin as [Hin Hlong]. cbn [snd]. destruct (Rlt_dec tol (norm2 x)); [|discriminate]. split; [unfold direction; rewrite vscale_length; auto|apply direction_unit; lra]. }
  assert (Est : karcher_start n tol (map fst l) (map snd l) = first_guess n tol l).
  { unfold karcher_start, first_guess. cbv zeta. rewrite comb_pairs. fold (total n l). destruct (Rlt_dec _ tol); [destruct (map snd l); reflexivity|reflexivity]. }
  assert (Hs : length (first_guess n tol l) = n /\ unit_vec (first_guess n tol l)).
  { unfold first_guess. destruct (Rlt_dec _ tol).
    - assert (Hl0 : l <> []) by (unfold l, sphere_points; destruct (longer tol L); [congruence|discriminate]). destruct l as [|p l0]; [congruence|]. cbn. apply (Hl p). now left.
    - split; [unfold direction; rewrite vscale_length; unfold total; now rewrite map_length, seq_length|apply direction_unit; lra]. }
  rewrite Est. destruct (loop_descends n tol l Hl k Ht _ (proj1 Hs) (proj2 Hs)) as (Hd & Lu & Uu). eexists. split; [|split; [exact Hd|split; assumption]].
  f_equal. rewrite map2_repeat, rsum_mul. unfold a. field. lra.
Qed.

(** ** The theorems *)
(** all tensors of one shape with [n] entries, at least two of them *)
Definition alike (shape : list nat) (n : nat) (tensors : dict string tensor) : Prop :=
  (2 <= length tensors)%nat /\ forall m t, In (m, t) tensors -> shp t = shape /\ length (dat t) = n.
Definition vectors (tensors : dict string tensor) : list (list R) := map (fun kt => dat (snd kt)) tensors.
Lemma karcher_run e k tol shape n tensors : alike shape n tensors ->
  karcher e k tol tensors = Ok {| shp := shape; dat := karcher_vec n (vectors tensors) (repeat (1 / INR (length tensors)) (length tensors)) k tol |}.
Proof.
  intros [H2 H]. unfold karcher. destruct tensors as [|[m0 t0] [|[m1 t1] rest]]; cbn in H2; try lia. set (r := (m1, t1) :: rest) in *. set (T := (m0, t0) :: r) in *.
  destruct (H m0 t0 (or_introl eq_refl)) as [S0 L0].
  assert (Hr : exists ys, rmapM (fun kt : string * tensor => rectify_embed_sizes e [t0; snd kt]) r = Ok ys).
  { exists (map (fun kt => map (fit e [t0; snd kt]) [t0; snd kt]) r). apply rmapM_map. intros kt _. apply rectify_fit. }
  destruct Hr as [ys Hr]. rewrite Hr. cbn [rbind].
  assert (Ef : forallb (fun kt => shape_eqb (shp (snd kt)) (shp t0)) r = true) by (apply forallb_forall; intros [m t] Hin; apply shape_eqb_true; cbn; rewrite S0; apply (H m t); now right). rewrite Ef, S0, L0. reflexivity.
Qed.

(** The result has the mean of the norms as its norm, and its direction is what at most [max_iter] steps of gradient
    descent on the sphere reach from the normalised mean (or the first vector when the mean is too short); it is reached
    either by running out of steps or with a mean logarithm shorter than [tol]. *)
Theorem C61_descent e k tol shape n tensors : alike shape n tensors -> 0 < tol < 1 -> longer tol (vectors tensors) <> [] ->
  let l := sphere_points tol (vectors tensors) in
  exists u out, karcher e k tol tensors = Ok out /\ shp out = shape /\ unit_vec u /\ descends n tol l k (first_guess n tol l) u /\
    dat out = vscale (rsum (map norm2 (vectors tensors)) / INR (length tensors)) u /\ norm2 (dat out) = rsum (map norm2 (vectors tensors)) / INR (length tensors).
Proof.
  intros Ha Ht Hne l. rewrite (karcher_run e k tol shape n tensors Ha). destruct Ha as [H2 H].
  assert (Lv : length (vectors tensors) = length tensors) by apply map_length.
  destruct (vec_value n (vectors tensors) k tol) as (u & E & Hd & Lu & Uu); [lia|exact Ht| |exact Hne|].
  { intros x Hx. unfold vectors in Hx. apply in_map_iff in Hx as ([m t] & <- & Hin). now apply (H m t). }
  rewrite Lv in E. exists u. eexists. split; [reflexivity|]. cbn [shp dat]. rewrite E. repeat split; auto. rewrite norm2_scale, Uu, Rmult_1_r. apply Rabs_pos_eq.
  apply Rmult_le_pos; [apply rsum_nonneg; intros y Hy; apply in_map_iff in Hy as (x & <- & _); apply norm2_nonneg|]. left. apply Rinv_0_lt_compat. apply lt_0_INR. lia.
Qed.

(** At a point where the weighted logarithms cancel, nothing moves. *)
Lemma descends_stop n tol l k u v : 0 < tol -> mean_log n tol l u = repeat 0 n -> descends n tol l k u v -> v = u.
Proof.
  intros Ht Hz Hd. inversion Hd; subst; auto. exfalso. rewrite Hz in H. assert (E0 : norm2 (repeat 0 n) = 0).
  { rewrite norm2_dot. replace (dot (repeat 0 n) (repeat 0 n)) with 0; [apply sqrt_0|]. rewrite (dot_Sum _ _ n) by apply repeat_length. symmetry. apply Sum_0. intros i Hi. rewrite nth_repeat. ring. }
  lra.
Qed.

(** Copies of one tensor give that tensor, unless it is shorter than [tol]. *)
Theorem C61_same e k tol m0 t rest out : let tensors := (m0, t) :: rest in rest <> [] -> (forall m t', In (m, t') rest -> t' = t) -> 0 < tol < 1 -> tol < norm2 (dat t) ->
  karcher e k tol tensors = Ok out -> out = t.
Proof.
  intros tensors Hr Hs Ht Hlong E. set (n := length (dat t)). set (x := dat t) in *.
  assert (Ha : alike (shp t) n tensors).
  { split; [destruct rest; [congruence|cbn; lia]|]. intros m t' [[= <- <-]|Hin]; [now split|]. now rewrite (Hs m t' Hin). }
  assert (Hx : forall y, In y (vectors tensors) -> y = x) by (intros y Hy; unfold vectors in Hy; apply in_map_iff in Hy as ([m t'] & <- & [[= <- <-]|Hin]); [reflexivity|]; cbn; now rewrite (Hs m t' Hin)).
  assert (Hlg : longer tol (vectors tensors) = vectors tensors) by (apply filter_all'; intros y Hy; rewrite (Hx y Hy); destruct (Rlt_dec tol (norm2 x)); [reflexivity|contradiction]).
  assert (Hnx : norm2 x <> 0) by lra. assert (Hk : 0 < INR (length tensors)) by (apply lt_0_INR; cbn; lia). assert (Lv : length (vectors tensors) = length tensors) by apply map_length.
  set (l := sphere_points tol (vectors tensors)). assert (Hl : l = map (fun _ => (1 / INR (length tensors), direction x)) tensors).
  { unfold l, sphere_points. rewrite Hlg, Lv. unfold vectors at 1. rewrite map_map. apply map_ext_in. intros kt Hin. f_equal. f_equal. apply Hx. unfold vectors. now apply in_map with (f := fun kt => dat (snd kt)). }
  assert (Ld : length (direction x) = n) by (unfold direction; now rewrite vscale_length).
  assert (Htot : total n l = direction x).
  { unfold total. apply nth_ext_R; rewrite map_length, seq_length; [easy|]. intros i Hi. rewrite nth_map_seq by exact Hi. rewrite Hl, map_map. cbn [fst snd]. rewrite rsum_const. field. lra. }
  assert (Hfg : first_guess n tol l = direction x).
  { unfold first_guess. rewrite Htot, (direction_unit x Hnx). destruct (Rlt_dec 1 tol); [lra|]. unfold direction at 1. rewrite (direction_unit x Hnx), Rinv_1. unfold vscale. rewrite <- (map_id (direction x)) at 2. apply map_ext. intros; ring. }
  destruct (C61_descent e k tol (shp t) n tensors Ha Ht) as (u & o & E' & S & Uu & Hd & D & _).
  { rewrite Hlg. intros Hz. apply (f_equal (@length _)) in Hz. rewrite Lv in Hz. discriminate. }
  fold l in Hd. rewrite Hfg in Hd. assert (o = out) by congruence. subst o.
  assert (Hu : u = direction x).
  { apply (descends_stop n tol l k _ _ (proj1 Ht)) in Hd; [exact Hd|]. unfold mean_log. apply nth_ext_R; rewrite map_length, seq_length; [now rewrite repeat_length|]. intros i Hi. rewrite nth_map_seq, nth_repeat by exact Hi.
    rewrite (rsum_ext _ (fun _ => 0)); [rewrite rsum_const; ring|]. intros p Hp. rewrite Hl in Hp. apply in_map_iff in Hp as (kt & <- & _). cbn [fst snd]. rewrite (dot_self _ (direction_unit x Hnx)), acos_1. destruct (Rlt_dec 0 tol); [reflexivity|lra]. }
  destruct out as [so d]. destruct t as [st dt]. cbn [shp dat] in *. subst so. f_equal. rewrite D, Hu. change x with dt in *.
  assert (Hsum : rsum (map norm2 (vectors tensors)) = INR (length tensors) * norm2 dt). { rewrite <- Lv, <- rsum_const. apply rsum_ext. intros y Hy. now rewrite (Hx y Hy). }
  rewrite Hsum. unfold direction, vscale. rewrite map_map. transitivity (map (fun y : R => y) dt); [|apply map_id]. apply map_ext. intros y. field. split; lra.
Qed.

(** Two models: the direction is that of the sum of the two unit vectors, whatever the number of steps. *)
Theorem C61_two e k tol ma a mb b shape n : alike shape n [(ma, a); (mb, b)] -> 0 < tol < 1 -> tol < norm2 (dat a) -> tol < norm2 (dat b) ->
  let s := vadd (direction (dat a)) (direction (dat b)) in 2 * tol <= norm2 s ->
  karcher e k tol [(ma, a); (mb, b)] = Ok {| shp := shape; dat := vscale ((norm2 (dat a) + norm2 (dat b)) / 2) (direction s) |}.
Proof.
  intros Ha Ht Ta Tb s Hs. set (tensors := [(ma, a); (mb, b)]) in *. destruct (proj2 Ha ma a (or_introl eq_refl)) as [Sa La]. destruct (proj2 Ha mb b (or_intror (or_introl eq_refl))) as [Sb Lb].
  set (p := direction (dat a)) in *. set (q := direction (dat b)) in *. assert (Up : unit_vec p) by (apply direction_unit; lra). assert (Uq : unit_vec q) by (apply direction_unit; lra).
  assert (Lp : length p = n) by (unfold p, direction; now rewrite vscale_length). assert (Lq : length q = n) by (unfold q, direction; now rewrite vscale_length).
  assert (Hlg : longer tol (vectors tensors) = [dat a; dat b]). { unfold longer, vectors, tensors. cbn. destruct (Rlt_dec tol (norm2 (dat a))); [|contradiction]. destruct (Rlt_dec tol (norm2 (dat b))); [reflexivity|contradiction]. }
  set (l := sphere_points tol (vectors tensors)). assert (Hl : l = [(1 / 2, p); (1 / 2, q)]). { unfold l, sphere_points. rewrite Hlg. cbn. repeat f_equal; lra. }
  assert (Ls : length s = n) by (unfold s, vadd; rewrite map2_length; lia).
  assert (Htot : total n l = vscale (1 / 2) s).
  { unfold total. apply nth_ext_R; rewrite map_length, seq_length; [now rewrite vscale_length|]. intros i Hi. rewrite nth_map_seq by exact Hi. rewrite Hl, nth_vscale. unfold s, vadd. rewrite (map2_nth Rplus p q i 0 0 0) by lia. cbn [map fst snd]. rewrite !rsum_cons. cbn. ring. }
  assert (Hns : norm2 (total n l) = norm2 s / 2) by (rewrite Htot, norm2_scale, Rabs_pos_eq by lra; lra).
  set (u := direction s). assert (Hfg : first_guess n tol l = u).
  { unfold first_guess. rewrite Hns. destruct (Rlt_dec _ tol); [lra|]. unfold direction at 1. rewrite Hns, Htot. unfold u, direction, vscale. rewrite map_map. apply map_ext. intros x. field. lra. }
  assert (Uu : unit_vec u) by (apply direction_unit; lra). assert (Lu : length u = n) by (unfold u, direction; now rewrite vscale_length).
  (* both vectors are at the same angle *)
  assert (Edot : dot u p = norm2 s / 2 /\ dot u q = norm2 s / 2).
  { set (d := dot p q). assert (Hpp := dot_self p Up). assert (Hqq := dot_self q Uq).
    assert (Esp : dot s p = 1 + d /\ dot s q = 1 + d).
    { pose proof (dot_lin 1 1 1 0 p q) as A. pose proof (dot_lin 1 1 0 1 p q) as B. rewrite (map2_left (fun x y => 1 * x + 0 * y)) in A by (congruence || intros; ring).
      rewrite (map2_swap (fun x y => 0 * x + 1 * y)), (map2_left (fun y x => 0 * x + 1 * y)) in B by (congruence || intros; ring).
      rewrite (map2_ext (fun x y => 1 * x + 1 * y) Rplus) in A, B by (intros; ring). change (map2 Rplus p q) with s in A, B. rewrite A, B, Hpp, Hqq by congruence. fold d. split; ring. }
    assert (Ess : norm2 s * norm2 s = 2 + 2 * d).
    { rewrite norm2_sq. pose proof (dot_lin 1 1 1 1 p q) as A. rewrite (map2_ext (fun x y => 1 * x + 1 * y) Rplus) in A by (intros; ring). change (map2 Rplus p q) with s in A. rewrite A, Hpp, Hqq by congruence. fold d. ring. }
    unfold u, direction. rewrite !(dot_comm (vscale _ _)), !dot_scale_r, (dot_comm p), (dot_comm q). destruct Esp as [-> ->]. replace (1 + d) with (norm2 s * norm2 s / 2) by lra. split; field; lra. }
  destruct (C61_descent e k tol shape n tensors Ha Ht) as (v & o & E & S & Uv & Hd & D & _); [rewrite Hlg; discriminate|]. fold l in Hd. rewrite Hfg in Hd.
  assert (Hv : v = u).
  { apply (descends_stop n tol l k _ _ (proj1 Ht)) in Hd; [exact Hd|]. unfold mean_log. apply nth_ext_R; rewrite map_length, seq_length; [now rewrite repeat_length|]. intros i Hi. rewrite nth_map_seq, nth_repeat by exact Hi.
    rewrite Hl. cbn [map fst snd]. rewrite (proj1 Edot), (proj2 Edot). destruct (Rlt_dec _ tol); [rewrite !rsum_cons; cbn; ring|]. unfold logv. rewrite (proj1 Edot), (proj2 Edot).
    rewrite (map2_nth _ p u i 0 0 0), (map2_nth _ q u i 0 0 0) by lia. rewrite !rsum_cons.
    assert (Ei : nth i p 0 + nth i q 0 = norm2 s * nth i u 0). { unfold u, direction. rewrite nth_vscale. unfold s at 3, vadd. rewrite (map2_nth Rplus p q i 0 0 0) by lia. field. lra. }
    set (c := acos _ / sin _). cbn [rsum fold_right]. transitivity (1 / 2 * c * (nth i p 0 + nth i q 0 - norm2 s * nth i u 0)); [unfold rsum; cbn; field|]. rewrite Ei. ring. }
  subst v. rewrite E. f_equal. destruct o as [so d]. cbn [shp dat] in *. subst so. f_equal. rewrite D. unfold vectors, tensors. cbn. f_equal. lra.
Qed.

(** The order of the models matters: opposite vectors give the first one. *)
Theorem C61_order_refuted e k tol : 0 < tol < 1 ->
  karcher e k tol [("a", vec [1]); ("b", vec [-1])] = Ok (vec [1]) /\ karcher e k tol [("b", vec [-1]); ("a", vec [1])] = Ok (vec [-1]).
Proof.
  intros Ht. assert (N : forall s, s = 1 \/ s = -1 -> norm2 [s] = 1) by (intros s Hs; unfold norm2; cbn; replace (s * s + 0) with 1 by (destruct Hs; subst; ring); apply sqrt_1).
  assert (G : forall ma mb s, s = 1 \/ s = -1 -> karcher e k tol [(ma, vec [s]); (mb, vec [-s])] = Ok (vec [s])).
  { intros ma mb s Hs. set (tensors := [(ma, vec [s]); (mb, vec [-s])]). assert (Ns := N s Hs). assert (Nm : norm2 [-s] = 1) by (apply N; destruct Hs; subst; [right|left]; ring).
    assert (Hlg : longer tol (vectors tensors) = [[s]; [-s]]). { unfold longer, vectors, tensors. cbn [map snd dat vec filter]. rewrite Ns, Nm. destruct (Rlt_dec tol 1); [reflexivity|lra]. }
    set (l := sphere_points tol (vectors tensors)). assert (Hl : l = [(1 / 2, [s]); (1 / 2, [-s])]). { unfold l, sphere_points. rewrite Hlg. cbn [map length]. unfold direction. rewrite Ns, Nm. cbn. repeat f_equal; lra. }
    assert (Htot : total 1 l = [0]) by (unfold total; rewrite Hl; cbn; f_equal; lra).
    assert (Hfg : first_guess 1 tol l = [s]). { unfold first_guess. rewrite Htot. assert (Z : norm2 [0] = 0) by (unfold norm2; cbn; replace (0 * 0 + 0) with 0 by ring; apply sqrt_0). rewrite Z. destruct (Rlt_dec 0 tol); [|lra]. now rewrite Hl. }
    destruct (C61_descent e k tol [1%nat] 1 tensors) as (v & o & E & S & Uv & Hd & D & _); [|exact Ht|rewrite Hlg; discriminate|].
    { split; [cbn; lia|]. intros m t [[= <- <-]|[[= <- <-]|[]]]; now split. }
    fold l in Hd. rewrite Hfg in Hd. assert (v = [s]).
    { apply (descends_stop 1 tol l k _ _ (proj1 Ht)) in Hd; [exact Hd|]. unfold mean_log. cbn [seq map repeat]. f_equal. rewrite Hl. cbn [map fst snd]. assert (D1 : dot [s] [s] = 1) by (unfold dot; cbn; destruct Hs; subst; ring). assert (D2 : dot [s] [-s] = -1) by (unfold dot; cbn; destruct Hs; subst; ring).
      rewrite D1, acos_1. destruct (Rlt_dec 0 tol); [|lra]. unfold logv. rewrite D2. cbn [map2 nth]. destruct (Rlt_dec _ tol); rewrite !rsum_cons; unfold rsum; cbn [fold_right]; [ring|]. replace (- s - -1 * s) with 0 by ring. ring. }
    subst v. rewrite E. f_equal. destruct o as [so d]. cbn [shp dat] in *. subst so. unfold vec. cbn [length]. f_equal. rewrite D. unfold vectors, tensors. cbn [map snd dat vec length]. rewrite Ns, Nm. unfold vscale. cbn. f_equal. lra. }
  split; [apply (G "a" "b" 1); now left|]. pose proof (G "b" "a" (-1) (or_intror eq_refl)) as H. replace (- -1) with 1 in H by ring. exact H.
Qed.

(** Tensors no longer than [tol] count as zero: copies of one give the zero tensor. *)
Theorem C61_small_refuted e k tol x : norm2 [x] <= tol ->
  karcher e k tol [("a", vec [x]); ("b", vec [x])] = Ok (vec [0]).
Proof.
  intros Hx. rewrite (karcher_run e k tol [1%nat] 1); [|split; [cbn; lia|intros m t [[= <- <-]|[[= <- <-]|[]]]; now split]].
  unfold karcher_vec, vectors. cbn [map snd dat vec length repeat combine filter]. destruct (Rlt_dec tol (norm2 [x])); [lra|]. reflexivity.
Qed.

(** Embeddings of different sizes are not cut to a common size, unlike for the other methods. *)
Theorem C61_embed_refuted k tol m0 t0 m1 t1 rest : shp t1 <> shp t0 -> exists err, karcher true k tol ((m0, t0) :: (m1, t1) :: rest) = Err err.
Proof.
  intros Hne. unfold karcher. destruct (rmapM _ _); [|eexists; reflexivity]. cbn [rbind forallb snd]. destruct (shape_eqb (shp t1) (shp t0)) eqn:E; [apply shape_eqb_true in E; congruence|]. cbn [andb]. eexists; reflexivity.
Qed.

Example C61_nonvacuous : exists tensors : dict string tensor, alike [2%nat] 2 tensors /\ longer (/ 10 ^ 5) (vectors tensors) <> [] /\
  (exists out, karcher true 10 (/ 10 ^ 5) tensors = Ok out /\ norm2 (dat out) = 1).
Proof.
  exists [("a", vec [1; 0]); ("b", vec [0; 1])]. destruct sqrt_unit2 as [N1 N2].
  assert (Ha : alike [2%nat] 2 [("a", vec [1; 0]); ("b", vec [0; 1])]) by (split; [cbn; lia|intros m t [[= <- <-]|[[= <- <-]|[]]]; now split]).
  assert (Ht : 0 < / 10 ^ 5 < 1) by (split; [apply Rinv_0_lt_compat, pow_lt; lra|rewrite <- Rinv_1; apply Rinv_lt_contravar; lra]).
  assert (Hlg : longer (/ 10 ^ 5) (vectors [("a", vec [1; 0]); ("b", vec [0; 1])]) <> []).
  { unfold longer, vectors. cbn [map snd dat vec filter]. rewrite N1. destruct (Rlt_dec _ 1); [discriminate|lra]. }
  split; [exact Ha|]. split; [exact Hlg|]. destruct (C61_descent true 10 (/ 10 ^ 5) _ _ _ Ha Ht Hlg) as (u & out & E & _ & _ & _ & _ & N). exists out. split; [exact E|]. rewrite N. unfold vectors. cbn [map snd dat vec length]. rewrite N1, N2. cbn. lra.
Qed.

Print Assumptions C61_descent.
Print Assumptions C61_two.
