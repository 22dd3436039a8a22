(** Lemmas on generalized task arithmetic. *)
From Coq Require Import Reals Lra Psatz Permutation.
From Verif.Base Require Import Py PyFacts RList.
From Verif.Sparsify Require Import Model Proofs.
From Verif.Methods Require Import Model LinearProofs.
Local Open Scope string_scope.
Local Open Scope list_scope.
Local Open Scope R_scope.

(** What one listed model contributes: its weight and its sparsified delta, or
    nothing (the base itself and tensors of another shape). *)
Definition contrib (g : gta_method) (is_embed : bool) (norm : option rescale_norm) (base_model : string) (base : tensor)
    (params : dict string tparams) (choice : string -> choices) (mx : string * tensor) : result (option (R * list R)) :=
  let '(m, x) := mx in
  if eqb m base_model then Ok None
  else
    let! ox := (if shape_eqb (shp x) (shp base) then Ok (Some x)
                else if is_embed
                     then match shp base with
                          | r :: c :: _ => let! x' := submatrix r c x in
                                           if shape_eqb (shp x') (shp base) then Ok (Some x') else Err RuntimeError
                          | _ => Err IndexError
                          end
                     else Ok None) in
    match ox with
    | None => Ok None
    | Some x' =>
        match dget params m with
        | None => Err KeyError
        | Some p =>
            let d := vsub (dat x') (dat base) in
            let! d' := match g_sparsify g with
                       | None => Ok d
                       | Some s => let! rows := rows_of s (shp base) d in
                                   sparsify rows (p_density p) s (p_gamma p) (p_epsilon p) norm (choice m)
                       end in
            Ok (Some (p_weight p, d'))
        end
    end.
Fixpoint somes {A} (l : list (option A)) : list A :=
  match l with [] => [] | Some a :: l => a :: somes l | None :: l => somes l end.

Definition combine_all (g : gta_method) (normalize : bool) (lambda : R) (base : tensor) (cs : list (R * list R)) : tensor :=
  match cs with
  | [] => base
  | _ => {| shp := shp base;
            dat := map (fun i => nth i (dat base) 0 + mix (g_consensus g) normalize lambda (map fst cs) (map (fun c => nth i (snd c) 0) cs))
                     (seq 0 (length (dat base))) |}
  end.

Lemma gta_Ok g e normalize norm lambda bm tensors params choice y :
  gta g e normalize norm lambda bm tensors params choice = Ok y <->
  exists base l, dget tensors bm = Some base /\ rmapM (contrib g e norm bm base params choice) tensors = Ok l /\
    y = combine_all g normalize lambda base (somes l).
Proof.
  unfold gta. destruct (dget tensors bm) as [base|]; [|split; [discriminate|intros (? & ? & ? & _); discriminate]].
  set (sp := fun tv => match g_sparsify g with None => _ | Some m => _ end).
  assert (H : forall r, (exists tvs deltas, task_vectors e bm base params tensors = Ok tvs /\ rmapM sp tvs = Ok deltas /\
                          r = map2 (fun tv d => (p_weight (tv_par tv), d)) tvs deltas) <->
                        (exists l, rmapM (contrib g e norm bm base params choice) tensors = Ok l /\ r = somes l)).
  { induction tensors as [|[m x] ts IH]; intros r.
    - split.
      + intros (tvs & ds & [= <-] & E & ->). cbn in E. injection E as <-. exists []. auto.
      + intros (l & [= <-] & ->). exists [], []. auto.
    - rewrite rmapM_cons. unfold contrib at 1. cbn [task_vectors]. destruct (eqb m bm).
      + cbn [rbind]. rewrite IH. split.
        * intros (l & E & ->). exists (None :: l). rewrite E. auto.
        * intros (l & E & ->). destruct (rmapM _ ts) as [l'|]; [|discriminate]. cbn [rbind] in E. injection E as <-. exists l'. auto.
      + set (ox := if shape_eqb (shp x) (shp base) then _ else _). destruct ox as [[x'|]|er]; cbn [rbind].
        * destruct (dget params m) as [p|]; cbn [rbind].
          2:{ split; [intros (? & ? & ? & _); discriminate|intros (? & ? & _); discriminate]. }
          split.
          -- intros (tvs & ds & E1 & E2 & ->). destruct (task_vectors e bm base params ts) as [tvs'|] eqn:Et; [|discriminate]. cbn [rbind] in E1. injection E1 as <-.
             rewrite rmapM_cons in E2. unfold sp at 1 in E2. cbn [tv_delta tv_par tv_model] in E2.
             destruct (match g_sparsify g with None => _ | Some m => _ end) as [d'|]; [|discriminate]. cbn [rbind] in E2 |- *.
             destruct (rmapM sp tvs') as [ds'|] eqn:Eds; [|discriminate]. cbn [rbind] in E2. injection E2 as <-.
             destruct (proj1 (IH (map2 (fun tv d => (p_weight (tv_par tv), d)) tvs' ds'))) as (l & El & Er); [exists tvs', ds'; auto|].
             rewrite El. cbn [rbind]. eexists. split; [reflexivity|]. cbn [somes map2]. cbn. now rewrite Er.
          -- intros (l & E & ->). destruct (match g_sparsify g with None => _ | Some m => _ end) as [d'|] eqn:Ed; [|discriminate]. cbn [rbind] in E.
             destruct (rmapM _ ts) as [l'|] eqn:El; [|discriminate]. cbn [rbind] in E. injection E as <-.
             destruct (proj2 (IH (somes l'))) as (tvs & ds & E1 & E2 & E3); [exists l'; auto|].
             rewrite E1. cbn [rbind]. eexists. exists (d' :: ds). split; [reflexivity|]. rewrite rmapM_cons. unfold sp at 1. cbn [tv_delta tv_par tv_model].
             rewrite Ed. cbn [rbind]. rewrite E2. cbn [rbind]. split; [reflexivity|]. cbn. now rewrite E3.
        * rewrite IH. split.
          -- intros (l & E & ->). exists (None :: l). rewrite E. auto.
          -- intros (l & E & ->). destruct (rmapM _ ts) as [l'|]; [|discriminate]. cbn [rbind] in E. injection E as <-. exists l'. auto.
        * split; [intros (? & ? & ? & _); discriminate|intros (? & ? & _); discriminate]. }
  assert (Hlen : forall tvs ds, rmapM sp tvs = Ok ds -> length tvs = length ds).
  { induction tvs as [|tv tvs IHt]; intros ds E; [cbn in E; injection E as <-; reflexivity|]. rewrite rmapM_cons in E.
    destruct (sp tv); [|discriminate]. cbn [rbind] in E. destruct (rmapM sp tvs) as [ds'|]; [|discriminate]. cbn [rbind] in E. injection E as <-. cbn. now rewrite (IHt ds'). }
  assert (Hz : forall tvs ds, length tvs = length ds -> let cs := map2 (fun tv d => (p_weight (tv_par tv), d)) tvs ds in
              map fst cs = map (fun tv => p_weight (tv_par tv)) tvs /\ forall i, map (fun c : R * list R => nth i (snd c) 0) cs = map (fun d => nth i d 0) ds).
  { induction tvs as [|tv tvs IHt]; intros [|d ds] L; cbn in L; try lia; [cbn; auto|]. destruct (IHt ds) as [A B]; [lia|]. cbn. split; [now rewrite A|intros i; now rewrite B]. }
  split.
  - intros E. exists base. destruct (task_vectors e bm base params tensors) as [tvs|] eqn:Et; [|discriminate]. cbn [rbind] in E.
    destruct tvs as [|tv tvs].
    + injection E as <-. destruct (proj1 (H [])) as (l & El & Er); [exists [], []; auto|]. exists l. rewrite <- Er. auto.
    + destruct (rmapM sp (tv :: tvs)) as [ds|] eqn:Es; [|discriminate]. cbn [rbind] in E. injection E as <-.
      destruct (proj1 (H (map2 (fun tv d => (p_weight (tv_par tv), d)) (tv :: tvs) ds))) as (l & El & Er); [exists (tv :: tvs), ds; auto|].
      exists l. split; [reflexivity|]. split; [exact El|]. rewrite <- Er. destruct (Hz (tv :: tvs) ds (Hlen _ _ Es)) as [A B].
      destruct ds as [|d ds]; [apply Hlen in Es; discriminate|]. set (cs := map2 _ _ _) in *. unfold combine_all.
      destruct cs as [|c0 cs'] eqn:Ecs; [discriminate|]. rewrite <- Ecs in *. rewrite A. f_equal. apply map_ext. intros i. now rewrite B.
  - intros (b & l & [= <-] & El & ->). destruct (proj2 (H (somes l))) as (tvs & ds & E1 & E2 & E3); [eauto|]. rewrite E1. cbn [rbind].
    destruct tvs as [|tv tvs]; [rewrite E3; reflexivity|]. rewrite E2. cbn [rbind]. f_equal. rewrite E3.
    destruct (Hz (tv :: tvs) ds (Hlen _ _ E2)) as [A B]. destruct ds as [|d ds]; [apply Hlen in E2; discriminate|]. set (cs := map2 _ _ _) in *. unfold combine_all.
    destruct cs as [|c0 cs'] eqn:Ecs; [discriminate|]. rewrite <- Ecs in *. rewrite A. f_equal. apply map_ext. intros i. now rewrite B.
Qed.

(** ** order *)
Lemma rmapM_Permutation {A B} (f : A -> result B) l l' r : Permutation l l' -> rmapM f l = Ok r ->
  exists r', rmapM f l' = Ok r' /\ Permutation r r'.
Proof.
  intros Hp. revert r. induction Hp as [|a l l' Hp IH|a b l|l1 l2 l3 Hp1 IH1 Hp2 IH2]; intros r E.
  - exists r. cbn in *. injection E as <-. auto.
  - rewrite rmapM_cons in *. destruct (f a); [|discriminate]. cbn [rbind] in *. destruct (rmapM f l) as [r0|]; [|discriminate]. cbn [rbind] in E. injection E as <-.
    destruct (IH r0 eq_refl) as (r' & -> & Hr). cbn [rbind]. eexists. split; [reflexivity|now constructor].
  - rewrite !rmapM_cons in *. destruct (f a), (f b); try discriminate. cbn [rbind] in *. destruct (rmapM f l) as [r0|]; [|discriminate]. cbn [rbind] in *. injection E as <-.
    eexists. split; [reflexivity|apply perm_swap].
  - destruct (IH1 r E) as (r2 & E2 & P2). destruct (IH2 r2 E2) as (r3 & E3 & P3). exists r3. split; [exact E3|]. eapply perm_trans; eauto.
Qed.
Lemma somes_Permutation {A} (l m : list (option A)) : Permutation l m -> Permutation (somes l) (somes m).
Proof.
  induction 1 as [|[a|] l l' Hp IH|[a|] [b|] l|l1 l2 l3 Hp1 IH1 Hp2 IH2]; cbn; try reflexivity; auto.
  - apply perm_swap.
  - eapply perm_trans; eauto.
Qed.
Lemma dget_Permutation {V} (d d' : dict string V) k : Permutation d d' -> NoDup (dkeys d) -> dget d k = dget d' k.
Proof.
  intros Hp Hn. assert (Hn' : NoDup (dkeys d')) by (eapply Permutation_NoDup; [|exact Hn]; unfold dkeys; now apply Permutation_map).
  destruct (dget d k) as [v|] eqn:E.
  - apply (dget_In d) in E. symmetry. apply dget_In_NoDup; [exact Hn'|]. eapply Permutation_in; eauto.
  - destruct (dget d' k) as [v|] eqn:E'; [|reflexivity]. apply (dget_In d') in E'. rewrite (dget_In_NoDup d k v Hn) in E; [discriminate|].
    eapply Permutation_in; [apply Permutation_sym; exact Hp|exact E'].
Qed.

Lemma majority_Permutation c l m : Permutation l m -> majority_sign c l = majority_sign c m.
Proof.
  intros Hp. destruct c; unfold majority_sign.
  - now rewrite (rsum_Permutation _ _ (Permutation_map sign Hp)).
  - now rewrite (rsum_Permutation _ _ Hp).
Qed.
Definition mix_pairs (cm : option consensus) (normalize : bool) (lambda : R) (l : list (R * R)) : R :=
  let wd := map (fun p => snd p * fst p) l in
  let '(mixed, divisor) :=
    match cm with
    | Some c =>
        let keep p := if Req_EM_T (sign (snd p * fst p)) (majority_sign c wd) then 1 else 0 in
        let d := rsum (map (fun p => fst p * keep p) l) in
        (rsum (map (fun p => snd p * fst p * keep p) l), if Req_EM_T d 0 then 1 else d)
    | None => let d := rsum (map fst l) in (rsum wd, if Rlt_dec (Rabs d) (/ 10 ^ 8) then 1 else d)
    end in
  let mixed := if normalize then mixed / divisor else mixed in
  if Req_EM_T lambda 1 then mixed else mixed * lambda.
Lemma map2_map {A B C D} (f : B -> C -> D) (g : A -> B) (h : A -> C) l : map2 f (map g l) (map h l) = map (fun a => f (g a) (h a)) l.
Proof. induction l; cbn; congruence. Qed.
Lemma mix_as_pairs cm n lam l : mix cm n lam (map fst l) (map snd l) = mix_pairs cm n lam l.
Proof.
  unfold mix, mix_pairs, get_mask. rewrite map2_map. destruct cm as [c|]; [|reflexivity].
  rewrite map_map, !map2_map. reflexivity.
Qed.
Lemma mix_pairs_Permutation cm n lam l m : Permutation l m -> mix_pairs cm n lam l = mix_pairs cm n lam m.
Proof.
  intros Hp. unfold mix_pairs. destruct cm as [c|].
  - rewrite (majority_Permutation c _ _ (Permutation_map (fun p => snd p * fst p) Hp)). cbv zeta.
    rewrite (rsum_Permutation _ _ (Permutation_map (fun p => fst p * (if Req_EM_T (sign (snd p * fst p)) (majority_sign c (map (fun p => snd p * fst p) m)) then 1 else 0)) Hp)).
    rewrite (rsum_Permutation _ _ (Permutation_map (fun p => snd p * fst p * (if Req_EM_T (sign (snd p * fst p)) (majority_sign c (map (fun p => snd p * fst p) m)) then 1 else 0)) Hp)).
    reflexivity.
  - cbv zeta. rewrite (rsum_Permutation _ _ (Permutation_map fst Hp)), (rsum_Permutation _ _ (Permutation_map (fun p => snd p * fst p) Hp)). reflexivity.
Qed.
Lemma combine_Permutation g n lam base cs cs' : Permutation cs cs' -> combine_all g n lam base cs = combine_all g n lam base cs'.
Proof.
  intros Hp. unfold combine_all. destruct cs as [|c cs]; [apply Permutation_nil in Hp; subst; reflexivity|].
  destruct cs' as [|c' cs']; [apply Permutation_sym, Permutation_nil in Hp; discriminate|].
  f_equal. apply map_ext. intros i. f_equal.
  set (l := c :: cs) in *. set (m := c' :: cs') in *. clearbody l m.
  assert (E : forall l : list (R * list R), mix (g_consensus g) n lam (map fst l) (map (fun c => nth i (snd c) 0) l) = mix_pairs (g_consensus g) n lam (map (fun c => (fst c, nth i (snd c) 0)) l)).
  { intros l0. rewrite <- mix_as_pairs, !map_map. reflexivity. }
  rewrite !E. apply mix_pairs_Permutation. now apply Permutation_map.
Qed.

(** ** zero deltas *)
Lemma sparsify_zero rows d m gm ep norm c y : (forall i, nth i (concat rows) 0 = 0) -> sparsify rows d m gm ep norm c = Ok y -> forall i, nth i y 0 = 0.
Proof.
  assert (Hr : forall x mask norm y, (forall i, nth i x 0 = 0) -> rescaled_masked x mask norm = Ok y -> forall i, nth i y 0 = 0).
  { intros x mask nm y0 Hz E i. destruct (rescaled_masked_Ok _ _ _ _ E) as (s & _ & -> & _). unfold vscale, vmul.
    destruct (Nat.lt_ge_cases i (length (map2 Rmult x mask))) as [Hi|Hi]; [|rewrite nth_overflow; [reflexivity|now rewrite map_length]].
    rewrite (map_nth_in _ _ _ 0) by exact Hi. rewrite map2_length in Hi. rewrite (map2_nth _ _ _ _ 0 0) by lia. rewrite Hz. ring. }
  intros Hz E. destruct m; cbn [sparsify] in E.
  - unfold magnitude in E. destruct (Rle_dec 1 d); [injection E as <-; exact Hz|]. destruct (Z.leb _ 0); [discriminate|]. eapply Hr; eauto.
  - unfold bernoulli in E. destruct (Rle_dec 1 d); [injection E as <-; exact Hz|]. destruct (concat rows) as [|a l]; [eapply Hr; [|exact E]; intros [|i]; reflexivity|].
    destruct (prob_dec d); [|discriminate]. eapply Hr; eauto.
  - unfold magnitude_outliers in E. destruct (Rle_dec 1 d); [injection E as <-; exact Hz|].
    match type of E with context [let '(_, _) := ?q in _] => destruct q end. eapply Hr; eauto.
  - unfold della_magprune in E. destruct (Rle_dec 1 d); [injection E as <-; exact Hz|]. destruct (Rle_dec d 0).
    { injection E as <-. intros i. clear. generalize (concat rows). intros l. revert i. induction l; intros [|i]; cbn; auto. }
    destruct (Rle_dec 1 (d + ep)); [discriminate|]. destruct (Rle_dec (d - ep) 0); [discriminate|].
    destruct (rmapM _ _); [|discriminate]. cbn [rbind] in E. destruct (forallb _ _); [|discriminate]. eapply Hr; eauto.
Qed.
Lemma chunk_concat r c l : length l = (r * c)%nat -> concat (chunk r c l) = l.
Proof.
  revert l. induction r as [|r IH]; intros l L; cbn [chunk concat].
  - destruct l; [reflexivity|cbn in L; lia].
  - rewrite IH by (rewrite skipn_length; lia). apply firstn_skipn.
Qed.
Lemma nth_firstn_0 {A} (l : list A) n i d : (forall j, nth j l d = d) -> nth i (firstn n l) d = d.
Proof.
  revert n i. induction l as [|a l IH]; intros n i H; [rewrite firstn_nil; now destruct i|]. destruct n; [now destruct i|]. destruct i; cbn.
  - exact (H 0%nat).
  - apply IH. intros j. exact (H (S j)).
Qed.
Lemma nth_skipn' {A} (l : list A) n j d : nth j (skipn n l) d = nth (n + j) l d.
Proof. revert l. induction n; intros l; [reflexivity|]. destruct l; [now destruct j|]. cbn. apply IHn. Qed.
Lemma rows_zero s shape l rows : (forall i, nth i l 0 = 0) -> rows_of s shape l = Ok rows -> forall i, nth i (concat rows) 0 = 0.
Proof.
  assert (Hc : forall r c l, (forall i, nth i l 0 = 0) -> forall i, nth i (concat (chunk r c l)) 0 = 0).
  { induction r as [|r IH]; intros c l0 Hz i; [now destruct i|]. cbn [chunk concat].
    destruct (Nat.lt_ge_cases i (length (firstn c l0))); [rewrite app_nth1 by auto; now apply nth_firstn_0|].
    rewrite app_nth2 by auto. apply IH. intros j. rewrite nth_skipn'. apply Hz. }
  intros Hz E. assert (H1 : forall i, nth i (concat [l]) 0 = 0) by (cbn; rewrite app_nil_r; exact Hz).
  destruct s; cbn in E; try (injection E as <-; exact H1).
  destruct shape as [|a [|b [|? ?]]]; try discriminate; injection E as <-; [exact H1|now apply Hc].
Qed.
Lemma vsub_self l i : nth i (vsub l l) 0 = 0.
Proof. unfold vsub. revert i. induction l; intros [|i]; cbn; auto. ring. Qed.
Lemma rsum_zero {A} (f : A -> R) l : (forall x, In x l -> f x = 0) -> rsum (map f l) = 0.
Proof. intros H. rewrite (rsum_ext _ (fun _ => 0) l H). rewrite rsum_const. ring. Qed.
Lemma mix_zero cm n lam l : (forall p, In p l -> snd p = 0) -> mix_pairs cm n lam l = 0.
Proof.
  intros H. unfold mix_pairs. assert (E : (let '(mixed, divisor) := match cm with
    | Some c =>
        let keep p := if Req_EM_T (sign (snd p * fst p)) (majority_sign c (map (fun p => snd p * fst p) l)) then 1 else 0 in
        let d := rsum (map (fun p => fst p * keep p) l) in
        (rsum (map (fun p => snd p * fst p * keep p) l), if Req_EM_T d 0 then 1 else d)
    | None => let d := rsum (map fst l) in (rsum (map (fun p => snd p * fst p) l), if Rlt_dec (Rabs d) (/ 10 ^ 8) then 1 else d)
    end in if n then mixed / divisor else mixed) = 0).
  { destruct cm as [c|]; cbv zeta; rewrite rsum_zero; try (intros p Hp; rewrite (H p Hp); ring); destruct n; unfold Rdiv; try ring; reflexivity. }
  destruct (match cm with Some _ => _ | None => _ end) as [mixed divisor]. rewrite E. destruct (Req_EM_T lam 1); ring.
Qed.
