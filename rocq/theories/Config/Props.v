(** Theorems about configuration values: C08 (gradients), C09 (filters), C10 (precedence). *)
From Coq Require Import Lia QArith Lqa Qabs.
From Verif.Base Require Import Py PyFacts.
From Verif.Config Require Import Model Spec Proofs.
Local Open Scope string_scope.
Local Open Scope list_scope.
Local Open Scope Q_scope.

(** * C08 *)
(** A gradient of at least two numbers evaluates, at depth t in [0,1], to exactly the value of the
    piecewise-linear curve through the points (i/(n-1), ps_i). *)
Theorem C08_piecewise_linear name ps t :
  (2 <= length ps)%nat -> 0 <= t <= 1 ->
  exists v, evaluate_setting name t (PList (map PNum ps)) = Ok (Some (PNum v)) /\
    forall w, on_segment ps (t * inject_Z (Z.of_nat (length ps) - 1)) w <-> w == v.
Proof.
  intros Hl Ht. destruct (eval_on_segment name ps t Hl Ht) as (v & Hv & Hs). exists v; split; [exact Hv|].
  intros w; split; [intros Hw; exact (on_segment_unique _ _ _ _ Hw Hs)|].
  intros Hw. destruct Hs as (i & a & b & Ha & Hb & Hx & He). exists i, a, b. rewrite Hw. auto.
Qed.

(** At depth i/(n-1) the i-th control point is returned; in particular the first at 0 and the last at 1.
    Single numbers and one-element gradients are constant. *)
Theorem C08_control_points name ps t i a :
  nth_error ps i = Some a -> 0 <= t <= 1 -> t * inject_Z (Z.of_nat (length ps) - 1) == inject_Z (Z.of_nat i) ->
  exists v, evaluate_setting name t (PList (map PNum ps)) = Ok (Some (PNum v)) /\ v == a.
Proof.
  intros Ha Ht Hx.
  assert (Hne : ps <> []) by (destruct ps; [destruct i; discriminate|discriminate]).
  destruct (eval_gradient name ps t Hne Ht) as (v & Hv & j & c & d & Hc & Hd & H1 & H2 & Hval).
  exists v; split; [exact Hv|]. unfold abscissa in *. rewrite Hx in *.
  rewrite <- Zle_Qle in H1. rewrite <- Zlt_Qlt in H2. assert (i = j) by lia. subst j.
  rewrite Ha in Hc. injection Hc as <-. rewrite Hval. ring.
Qed.

Theorem C08_constant name q t : 0 <= t <= 1 ->
  evaluate_setting name t (PNum q) = Ok (Some (PNum q)) /\
  exists v, evaluate_setting name t (PList [PNum q]) = Ok (Some (PNum v)) /\ v == q.
Proof. intros Ht. split; [reflexivity|exact (eval_single name q t Ht)]. Qed.

(** Monotone control points give a monotone curve. *)
Theorem C08_monotone name ps t s :
  (2 <= length ps)%nat -> 0 <= t -> t <= s -> s <= 1 ->
  (forall i a b, nth_error ps i = Some a -> nth_error ps (S i) = Some b -> a <= b) ->
  exists v w, evaluate_setting name t (PList (map PNum ps)) = Ok (Some (PNum v)) /\
              evaluate_setting name s (PList (map PNum ps)) = Ok (Some (PNum w)) /\ v <= w.
Proof.
  intros Hl H0 Hts H1 Hm.
  destruct (eval_on_segment name ps t Hl ltac:(lra)) as (v & Hv & Hs).
  destruct (eval_on_segment name ps s Hl ltac:(lra)) as (w & Hw & Hs').
  exists v, w; split; [exact Hv|]; split; [exact Hw|].
  eapply on_segment_mono; [exact Hm| |exact Hs|exact Hs'].
  unfold abscissa. apply Qmult_le_compat_r; [assumption|].
  change 0 with (inject_Z 0). apply inject_nat_le. lia.
Qed.

(** The curve is continuous: Lipschitz with constant (n-1) * L where L bounds the steps between neighbours. *)
Theorem C08_continuous name ps t s L :
  (2 <= length ps)%nat -> 0 <= t <= 1 -> 0 <= s <= 1 ->
  (forall i a b, nth_error ps i = Some a -> nth_error ps (S i) = Some b -> - L <= b - a <= L) ->
  exists v w, evaluate_setting name t (PList (map PNum ps)) = Ok (Some (PNum v)) /\
              evaluate_setting name s (PList (map PNum ps)) = Ok (Some (PNum w)) /\
              Qabs (w - v) <= L * inject_Z (Z.of_nat (length ps) - 1) * Qabs (s - t).
Proof.
  intros Hl Ht Hsr Hm.
  destruct (eval_on_segment name ps t Hl Ht) as (v & Hv & Hs).
  destruct (eval_on_segment name ps s Hl Hsr) as (w & Hw & Hs').
  exists v, w; split; [exact Hv|]; split; [exact Hw|].
  set (N := inject_Z (Z.of_nat (length ps) - 1)).
  assert (HN : 0 <= N) by (unfold N; change 0 with (inject_Z 0); apply inject_nat_le; lia).
  unfold abscissa in Hs, Hs'. fold N in Hs, Hs'.
  apply Qabs_Qle_condition.
  destruct (Qlt_le_dec t s) as [Hlt|Hle].
  - assert (Hx : t * N <= s * N) by (apply Qmult_le_compat_r; lra).
    pose proof (on_segment_lipschitz_le ps L _ _ _ _ Hm Hx Hs Hs') as Hb.
    rewrite (Qabs_pos (s - t)) by lra. split; lra.
  - assert (Hx : s * N <= t * N) by (apply Qmult_le_compat_r; lra).
    pose proof (on_segment_lipschitz_le ps L _ _ _ _ Hm Hx Hs' Hs) as Hb.
    rewrite (Qabs_neg (s - t)) by lra. split; lra.
Qed.

(** An empty gradient is an error at every depth in [0,1]. *)
Theorem C08_empty_gradient_raises name t : 0 <= t <= 1 -> evaluate_setting name t (PList []) = Err IndexError.
Proof.
  intros Ht. cbn [evaluate_setting forallb length]. unfold py_index.
  destruct (0 <=? Qtrunc (t * inject_Z (Z.of_nat 0 - 1)))%Z.
  - unfold nthE. destruct (Z.to_nat _); reflexivity.
  - simpl Z.of_nat. destruct (Z.leb_spec (- 0) (Qtrunc (t * inject_Z (0 - 1)))); simpl in *; [|reflexivity].
    unfold nthE. destruct (Z.to_nat _); reflexivity.
Qed.

Example C08_nonvacuous :
  (exists v, evaluate_setting None (1#4) (PList (map PNum [0; 1; 3])) = Ok (Some (PNum v)) /\ v == 1#2) /\
  (exists v, evaluate_setting None (3#4) (PList (map PNum [0; 1; 3])) = Ok (Some (PNum v)) /\ v == 2) /\
  (exists v, evaluate_setting None 1 (PList (map PNum [0; 1; 3])) = Ok (Some (PNum v)) /\ v == 3).
Proof. repeat split; try reflexivity; eexists; (split; [reflexivity|reflexivity]). Qed.

(** * C09 *)
(** A non-empty list of conditionals resolves to the value of the first entry whose filter applies, and to
    [None] exactly when none applies. The value of that entry is itself evaluated at the same depth. *)
Theorem C09_first_applicable name t (cs : list (pval * option string)) :
  cs <> [] ->
  (exists pre v f post, cs = pre ++ (v, f) :: post /\
     (forall c, In c pre -> ~ applies name (snd c)) /\ applies name f /\
     evaluate_setting name t (PList (map (fun c => PCond (fst c) (snd c)) cs)) = evaluate_setting name t v) \/
  ((forall c, In c cs -> ~ applies name (snd c)) /\
     evaluate_setting name t (PList (map (fun c => PCond (fst c) (snd c)) cs)) = Ok None).
Proof. intros Hne. rewrite (eval_conds name t cs Hne). apply cond_loop_spec. Qed.

(** unset iff no entry applies (entry values being numbers or non-empty gradients) *)
Theorem C09_unset_iff name t (cs : list (pval * option string)) :
  cs <> [] -> 0 <= t <= 1 ->
  (forall c, In c cs -> (exists q, fst c = PNum q) \/ (exists ps, ps <> [] /\ fst c = PList (map PNum ps))) ->
  (evaluate_setting name t (PList (map (fun c => PCond (fst c) (snd c)) cs)) = Ok None <->
   forall c, In c cs -> ~ applies name (snd c)) /\
  (forall e, evaluate_setting name t (PList (map (fun c => PCond (fst c) (snd c)) cs)) <> Err e).
Proof.
  intros Hne Ht Hv. destruct (C09_first_applicable name t cs Hne) as [(pre & v & f & post & Hcs & Hpre & Hap & He)|[Hno He]].
  - assert (Hin : In (v, f) cs) by (rewrite Hcs; apply in_or_app; right; left; reflexivity).
    assert (Hval : exists w, evaluate_setting name t v = Ok (Some w)).
    { destruct (Hv _ Hin) as [[q Hq]|(ps & Hps & Hq)]; simpl in Hq; subst v; [eexists; reflexivity|].
      destruct (eval_gradient name ps t Hps Ht) as (w & Hw & _). eexists; exact Hw. }
    destruct Hval as [w Hw]. rewrite He, Hw. split; [|discriminate]. split; [discriminate|].
    intros Hn. exfalso. exact (Hn _ Hin Hap).
  - rewrite He. split; [tauto|discriminate].
Qed.

(** without a tensor name only unfiltered entries and '*' apply; filters are plain substrings *)
Theorem C09_no_name f : applies None f <-> f = None \/ f = Some "*"%string.
Proof.
  split; [|intros [->| ->]; [left; reflexivity|right; left; reflexivity]].
  intros [H|[H|(s & sub & a & b & H & _)]]; [left; exact H|right; exact H|discriminate].
Qed.

Example C09_nonvacuous :
  let cs := [(PNum 1, Some "self_attn"%string); (PNum 2, Some "mlp"%string); (PNum 3, None)] in
  let s := PList (map (fun c => PCond (fst c) (snd c)) cs) in
  evaluate_setting (Some "model.layers.0.mlp.up_proj.weight"%string) 0 s = Ok (Some (PNum 2)) /\
  evaluate_setting None 0 s = Ok (Some (PNum 3)) /\
  evaluate_setting None 0 (PList [PCond (PNum 1) (Some "mlp"%string)]) = Ok None.
Proof. repeat split; reflexivity. Qed.

(** The empty list of conditionals is not "unset": it is read as an empty gradient and raises. *)
Theorem C09_empty_list_refuted :
  ~ (forall name t (cs : list (pval * option string)), 0 <= t <= 1 ->
       (forall c, In c cs -> ~ applies name (snd c)) ->
       evaluate_setting name t (PList (map (fun c => PCond (fst c) (snd c)) cs)) = Ok None).
Proof.
  intros H. specialize (H None 0 [] ltac:(lra) (fun c (Hc : In c []) => match Hc with end)).
  cbn [map] in H. rewrite (C08_empty_gradient_raises None 0 ltac:(lra)) in H. discriminate.
Qed.

(** * C10 *)
Section C10.
Context {M : Type} {HM : Eqb M}.

(** The most specific level that is set decides: [levels] lists the settings present for the parameter - in
    the matching sources of the slice, then the slice, the module, the whole configuration. *)
Theorem C10_precedence (r : reader M) name model default required pre s post :
  levels r name model = pre ++ s :: post ->
  (forall p, In p pre -> evaluate_setting (r_tensor r) (r_t r) p = Ok None) ->
  (forall v, evaluate_setting (r_tensor r) (r_t r) s = Ok (Some v) ->
     parameter r name model default required = Ok v) /\
  (forall e, evaluate_setting (r_tensor r) (r_t r) s = Err e ->
     parameter r name model default required = Err e).
Proof.
  intros Hl Hpre. rewrite parameter_first, Hl. split.
  - intros v Hv. rewrite first_set_hit by (assumption || congruence). rewrite Hv. reflexivity.
  - intros e He. rewrite first_set_hit by (assumption || congruence). rewrite He. reflexivity.
Qed.

(** Only when every level is unset is the default used - or, for a required parameter, an error raised. *)
Theorem C10_default (r : reader M) name model default required :
  (forall p, In p (levels r name model) -> evaluate_setting (r_tensor r) (r_t r) p = Ok None) ->
  parameter r name model default required = if required then Err RuntimeError else Ok default.
Proof. intros Hl. rewrite parameter_first. apply first_set_miss. exact Hl. Qed.

(** A required parameter whose levels evaluate without error raises exactly when every level is unset. *)
Theorem C10_required_raises_iff (r : reader M) name model default :
  (forall p, In p (levels r name model) -> exists v, evaluate_setting (r_tensor r) (r_t r) p = Ok v) ->
  ((exists e, parameter r name model default true = Err e) <->
   forall p, In p (levels r name model) -> evaluate_setting (r_tensor r) (r_t r) p = Ok None).
Proof.
  intros Hok. split.
  - rewrite parameter_first. induction (levels r name model) as [|p ls IH]; [intros _ p []|].
    intros [e He]. simpl in He. destruct (Hok p (or_introl eq_refl)) as [[v|] Hv]; rewrite Hv in He; [discriminate|].
    intros q [<-|Hq]; [exact Hv|]. apply IH; [intros x Hx; apply Hok; right; exact Hx|exists e; exact He|exact Hq].
  - intros Hn. exists RuntimeError. exact (C10_default r name model default true Hn).
Qed.

(** Settings attached to other models never influence the result. *)
Theorem C10_other_models_irrelevant (r1 r2 : reader M) name m default required s1 s2 :
  r_slice r1 = Some s1 -> r_slice r2 = Some s2 ->
  r_config r1 = r_config r2 -> r_t r1 = r_t r2 -> r_tensor r1 = r_tensor r2 -> r_module r1 = r_module r2 ->
  os_params s1 = os_params s2 ->
  filter (fun src => eqb (is_model src) m) (os_sources s1) = filter (fun src => eqb (is_model src) m) (os_sources s2) ->
  parameter r1 name (Some m) default required = parameter r2 name (Some m) default required.
Proof.
  intros Hs1 Hs2 Hc Ht Hn Hm Hp Hf. rewrite !parameter_first.
  assert (Hlev : levels r1 name (Some m) = levels r2 name (Some m)).
  { unfold levels. rewrite Hs1, Hs2, Hc, Hm, Hp. f_equal. f_equal.
    set (g := fun src : input_slice M => match is_params src with
        | Some d => match dget d name with Some v => [v] | None => [] end | None => [] end).
    assert (Hgen : forall l, flat_map (fun src => if eqb (is_model src) m then g src else []) l =
                        flat_map g (filter (fun src => eqb (is_model src) m) l)).
    { induction l as [|x l IHl]; [reflexivity|]. simpl. destruct (eqb (is_model x) m); simpl; rewrite IHl; reflexivity. }
    change (flat_map (fun src => if eqb (is_model src) m then g src else []) (os_sources s1) =
            flat_map (fun src => if eqb (is_model src) m then g src else []) (os_sources s2)).
    rewrite !Hgen, Hf. reflexivity. }
  rewrite Hlev. clear Hlev. generalize (levels r2 name (Some m)). intros ls.
  induction ls as [|x ls IHl]; [reflexivity|]. simpl. rewrite Hn, Ht, IHl. reflexivity.
Qed.
End C10.

(** a slice with two sources, a filter that misses at the source level, values at slice and global level *)
Example C10_nonvacuous :
  let src m p := {| is_model := m; is_start := 0; is_end := 4; is_params := p |} in
  let sl := {| os_sources := [src 1%nat (Some [("weight", PList [PCond (PNum 7) (Some "mlp")])]); src 2%nat None];
               os_base := None; os_params := Some [("weight", PNum 5)] |} in
  let cfg := {| mc_modules := None; mc_slices := Some [sl]; mc_models := None; mc_base := None;
                mc_params := Some [("weight", PNum 1); ("density", PNum 3)]; mc_dtype := None; mc_out_dtype := None |} in
  let r tn := {| r_config := cfg; r_t := 0; r_tensor := Some tn; r_slice := Some sl; r_module := None |} in
  parameter (r "x.mlp.y") "weight" (Some 1%nat) (PNum 0) true = Ok (PNum 7) /\
  parameter (r "x.attn.y") "weight" (Some 1%nat) (PNum 0) true = Ok (PNum 5) /\
  parameter (r "x.mlp.y") "weight" (Some 2%nat) (PNum 0) true = Ok (PNum 5) /\
  parameter (r "x.mlp.y") "density" (Some 2%nat) (PNum 0) true = Ok (PNum 3) /\
  parameter (r "x.mlp.y") "gamma" (Some 2%nat) (PNum 0) true = Err RuntimeError /\
  parameter (r "x.mlp.y") "gamma" (Some 2%nat) (PNum 9) false = Ok (PNum 9).
Proof. repeat split; reflexivity. Qed.

Print Assumptions C08_piecewise_linear.
Print Assumptions C08_control_points.
Print Assumptions C08_monotone.
Print Assumptions C08_continuous.
Print Assumptions C09_first_applicable.
Print Assumptions C09_unset_iff.
Print Assumptions C10_precedence.
Print Assumptions C10_required_raises_iff.
Print Assumptions C10_other_models_irrelevant.
