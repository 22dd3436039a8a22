(** C45: the model written by mergekit-fill-missing-params. *)
From Verif.Base Require Import Py PyFacts PyStr.
From Verif.IO Require Import Model Spec WriterProofs FsProofs DirProofs RunProofs Props.
From Verif.FillMissing Require Import Model Spec Proofs.
Local Open Scope string_scope.
Local Open Scope list_scope.

Section P.
Context {T : Type} (nbytes : T -> nat).
Implicit Types (base sub out : fs T).

(** The detected prefix is the empty one or the first part of a base name; no other such prefix makes more of the
    submodel's names appear among the base names, and a non-empty one makes strictly more appear than the empty one. *)
Theorem C45_prefix order list1 list2 p : part_order list1 order -> find_prefix order list1 list2 = Ok p ->
  (p = "" \/ exists item, In item list1 /\ first_part item = Some p) /\
  (forall q lq lp, q = "" \/ (exists item, In item list1 /\ first_part item = Some q) ->
     reached_names list1 list2 q lq -> reached_names list1 list2 p lp -> length lq <= length lp) /\
  (forall l0 lp, p <> "" -> reached_names list1 list2 "" l0 -> reached_names list1 list2 p lp -> length l0 < length lp).
Proof.
  intros [_ Ho] E. apply find_prefix_spec in E as [H1 H2]. split; [|split].
  - destruct H2 as [->|[Hp _]]; [now left|]. right. now apply Ho.
  - intros q lq lp Hq Lq Lp. rewrite (matches_spec _ _ _ _ Lq), (matches_spec _ _ _ _ Lp). apply H1.
    destruct Hq as [->|Hq]; [now left|right; now apply Ho].
  - intros l0 lp Hp L0 Lp. rewrite (matches_spec _ _ _ _ L0), (matches_spec _ _ _ _ Lp). destruct H2 as [->|[_ H2]]; [congruence|exact H2].
Qed.

(** Filling a model whose weights, and the submodel's, are in safetensors files succeeds when the base model has more
    tensors than the submodel. What is saved has exactly the base model's names, each with the submodel's value when
    the name is "prefix.m" for a submodel name m, and with the base model's value otherwise.
    The output directory loads as exactly that, provided no index file is around when everything fits in one shard:
    either neither the base nor the output directory has one, or the tensors exceed the shard size.
    Missing: the other case, refuted below. *)
Theorem C45_filled_partial order base sub out max bix six :
  from_disk base = Ok bix -> from_disk sub = Ok six ->
  NoDup (dkeys base) -> NoDup (dkeys (ix_paths bix)) -> readable base bix -> readable sub six ->
  length (dkeys (ix_paths six)) < length (dkeys (ix_paths bix)) ->
  exists p saves out',
    find_prefix order (dkeys (ix_paths bix)) (dkeys (ix_paths six)) = Ok p /\
    copy_and_fill nbytes order base sub out max = Ok out' /\
    map fst saves = dkeys (ix_paths bix) /\
    (forall n t, In (n, t) saves -> filled_value base sub bix six p n t) /\
    ((dget base "model.safetensors.index.json" = None /\ dget out "model.safetensors.index.json" = None) \/
     (2 <= length saves /\ (0 < max < Z.of_nat (bytes nbytes saves))%Z) ->
     loads out' saves).
Proof.
  intros Eb Es Hnb Hni Hrb Hrs Hl.
  destruct (find_prefix order (dkeys (ix_paths bix)) (dkeys (ix_paths six))) as [p|] eqn:Ep.
  2: { unfold find_prefix in Ep. destruct (Nat.ltb_spec (length (dkeys (ix_paths bix))) (length (dkeys (ix_paths six)))); [lia|discriminate]. }
  destruct (filled_total base sub bix six p Hrb Hrs) as [saves Ef]. destruct (filled_spec _ _ _ _ _ _ Ef) as [F1 F2].
  destruct (sync_async nbytes true max saves (copy_files base out)) as (out' & Eo & Hr).
  exists p, saves, out'. split; [reflexivity|]. split.
  { unfold copy_and_fill. rewrite Eb, Es. cbn [rbind]. replace (_ <=? _)%nat with false by (symmetry; apply Nat.leb_gt; exact Hl).
    rewrite Ep. cbn [rbind]. rewrite Ef. cbn [rbind]. exact Eo. }
  split; [exact F1|]. split; [exact F2|]. intros Hc.
  assert (Hne : saves <> []) by (intros ->; cbn in F1; rewrite <- F1 in Hl; cbn in Hl; lia).
  destruct (save_all nbytes (new_writer true None max) saves) as [w jobs] eqn:Esv.
  apply (C18_reused_directory_partial nbytes true max saves w jobs (copy_files base out) out'); auto; [|discriminate].
  intros H1. change (index_file true) with "model.safetensors.index.json". rewrite copy_other by auto.
  destruct Hc as [[-> ->]|[H2 Hm]]; [reflexivity|]. destruct (several_jobs nbytes true max saves w jobs Esv H2 Hm H1).
Qed.

(** A base model with as many tensors as the submodel, or fewer, is refused. *)
Theorem C45_too_small order base sub out max bix six : from_disk base = Ok bix -> from_disk sub = Ok six ->
  length (dkeys (ix_paths bix)) <= length (dkeys (ix_paths six)) ->
  copy_and_fill nbytes order base sub out max = Err AssertionError.
Proof.
  intros Eb Es Hl. unfold copy_and_fill. rewrite Eb, Es. cbn [rbind].
  replace (_ <=? _)%nat with true by (symmetry; now apply Nat.leb_le). reflexivity.
Qed.

(** When the base model is sharded, its index file is copied along. If the filled model fits in one shard no new index
    is written, and the output directory has the base model's index naming files that are not there: a loader fails on
    every tensor whose base file is not called model.safetensors. *)
Theorem C45_stale_index_refuted order base sub max total wm six :
  dget base "model.safetensors.index.json" = Some (FIndex total wm) ->
  NoDup (dkeys base) -> NoDup (dkeys wm) -> readable base {| ix_paths := wm |} ->
  from_disk sub = Ok six -> readable sub six -> length (dkeys (ix_paths six)) < length (dkeys wm) ->
  (max <= 0)%Z ->
  exists out', copy_and_fill nbytes order base sub [] max = Ok out' /\
    from_disk out' = Ok {| ix_paths := wm |} /\
    forall n file, dget wm n = Some file -> file <> "model.safetensors" -> is_weight_file file = true ->
      snd (get_tensor out' {| ix_paths := wm |} None n [] true) = Err OSError_.
Proof.
  intros Hi Hnb Hnw Hrb Es Hrs Hl Hmax.
  assert (Eb : from_disk base = Ok {| ix_paths := wm |}).
  { unfold from_disk, find_model, exists_. assert (Hm : dmem base "model.safetensors.index.json" = true) by (apply dmem_In, dget_Some_key; eauto).
    rewrite Hm, orb_true_r. cbn [append]. now rewrite Hi. }
  destruct (find_prefix order (dkeys wm) (dkeys (ix_paths six))) as [p|] eqn:Ep.
  2: { unfold find_prefix in Ep. destruct (Nat.ltb_spec (length (dkeys wm)) (length (dkeys (ix_paths six)))); [lia|discriminate]. }
  destruct (filled_total base sub {| ix_paths := wm |} six p Hrb Hrs) as [saves Ef]. destruct (filled_spec _ _ _ _ _ _ Ef) as [F1 F2].
  destruct (sync_async nbytes true max saves (copy_files base [])) as (out' & Eo & Hr).
  assert (Hne : saves <> []) by (intros ->; cbn in F1; rewrite <- F1 in Hl; cbn in Hl; lia).
  exists out'. split.
  { unfold copy_and_fill. rewrite Eb, Es. cbn [rbind ix_paths]. replace (_ <=? _)%nat with false by (symmetry; apply Nat.leb_gt; exact Hl).
    rewrite Ep. cbn [rbind]. rewrite Ef. cbn [rbind]. exact Eo. }
  destruct (save_all nbytes (new_writer true None max) saves) as [w jobs] eqn:Esv.
  pose proof (single_job nbytes true max saves w jobs Esv Hne (or_introl Hmax)) as H1.
  destruct jobs as [|job [|? ?]]; try discriminate.
  split.
  { apply (C18_stale_index_refuted nbytes true max saves w job (copy_files base []) out' total wm); auto; [|discriminate].
    change (index_file true) with "model.safetensors.index.json". rewrite copy_other by auto. now rewrite Hi. }
  intros n file Hf Hn Hw. destruct (async_written_full nbytes _ _ _ _ _ Hr) as (w' & jobs' & G & Es' & Hp & W).
  rewrite Esv in Es'. injection Es' as <- <-. pose proof (jobs_len _ _ _ _ _ _ _ Hp) as HG. cbn in HG.
  assert (Hno : dget out' file = None).
  { destruct (string_dec file (tmp_name w 0)) as [->|Ht]; [apply (wr_tmp _ _ _ _ W); lia|].
    rewrite (wr_other _ _ _ _ W); [now rewrite copy_weight| | |lia].
    - rewrite <- HG. intros [E|[]]. now apply Ht.
    - rewrite <- HG. intros [E|[]]. apply Hn. rewrite <- E, dest_file by apply Hp. rewrite (pk_safe _ _ _ _ _ _ _ Hp). reflexivity. }
  unfold get_tensor, resolve. cbn [ix_paths]. assert (Hk : dmem wm n = true) by (apply dmem_In, dget_Some_key; eauto).
  rewrite Hk, Hf. unfold open_shard. now rewrite Hno.
Qed.
End P.

(** A submodel tensor that the base model has under its plain name, while the others are under a prefix, is dropped: the
    filled model keeps the base model's value. *)
Definition vl_base : fs nat := [("model.safetensors", FShard true [("lm.a", 1); ("lm.b", 2); ("head", 3); ("vision", 4)]);
                                ("config.json", FOther)].
Definition lm_sub : fs nat := [("model.safetensors", FShard true [("a", 11); ("b", 12); ("head", 13)])].
Theorem C45_plain_name_dropped_refuted : exists out, copy_and_fill (fun _ => 1) ["lm"] vl_base lm_sub [] 0 = Ok out /\
  part_order ["lm.a"; "lm.b"; "head"; "vision"] ["lm"] /\
  dget out "model.safetensors" = Some (FShard true [("lm.a", 11); ("lm.b", 12); ("head", 3); ("vision", 4)]).
Proof.
  eexists. split; [vm_compute; reflexivity|]. split; [|reflexivity]. split; [repeat constructor; intros []|].
  intros p. split.
  - intros [<-|[]]. exists "lm.a". split; [now left|reflexivity].
  - intros (i & [<-|[<-|[<-|[<-|[]]]]] & E); vm_compute in E; [injection E as <-; now left|injection E as <-; now left|discriminate|discriminate].
Qed.

(** With two prefixes matching equally well the result depends on the iteration order of a Python set of strings, which
    changes from run to run. *)
Definition two_base : fs nat := [("model.safetensors", FShard true [("x.a", 1); ("y.a", 2); ("z", 3)])].
Definition one_sub : fs nat := [("model.safetensors", FShard true [("a", 11)])].
Theorem C45_order_refuted : 
  part_order ["x.a"; "y.a"; "z"] ["x"; "y"] /\ part_order ["x.a"; "y.a"; "z"] ["y"; "x"] /\
  copy_and_fill (fun _ => 1) ["x"; "y"] two_base one_sub [] 0 =
    Ok [("model.safetensors", FShard true [("x.a", 11); ("y.a", 2); ("z", 3)])] /\
  copy_and_fill (fun _ => 1) ["y"; "x"] two_base one_sub [] 0 =
    Ok [("model.safetensors", FShard true [("x.a", 1); ("y.a", 11); ("z", 3)])].
Proof.
  assert (H : forall p, In p ["x"; "y"] <-> exists item, In item ["x.a"; "y.a"; "z"] /\ first_part item = Some p).
  { intros p. split.
    - intros [<-|[<-|[]]]; [exists "x.a"|exists "y.a"]; (split; [cbn; tauto|reflexivity]).
    - intros (i & [<-|[<-|[<-|[]]]] & E); vm_compute in E; [injection E as <-; now left|injection E as <-; right; now left|discriminate]. }
  split; [split; [repeat constructor; cbn; intuition discriminate|exact H]|].
  split; [split; [repeat constructor; cbn; intuition discriminate|]|split; vm_compute; reflexivity].
  intros p. rewrite <- H. cbn. tauto.
Qed.

(** the hypotheses of [C45_filled_partial] and [C45_stale_index_refuted] on concrete models *)
Example C45_nonvacuous : exists bix six,
  from_disk vl_base = Ok bix /\ from_disk lm_sub = Ok six /\ NoDup (dkeys vl_base) /\ NoDup (dkeys (ix_paths bix)) /\
  readable vl_base bix /\ readable lm_sub six /\ length (dkeys (ix_paths six)) < length (dkeys (ix_paths bix)) /\
  find_prefix ["lm"] (dkeys (ix_paths bix)) (dkeys (ix_paths six)) = Ok "lm".
Proof.
  eexists _, _. split; [vm_compute; reflexivity|]. split; [vm_compute; reflexivity|].
  split; [repeat constructor; cbn; intuition discriminate|]. split; [repeat constructor; cbn; intuition discriminate|].
  assert (Hr : forall (d : dict string nat) file (f : fs nat), NoDup (dkeys d) -> dget f file = Some (FShard true d) ->
    readable f {| ix_paths := map (fun kv => (fst kv, file)) d |}).
  { intros d file f Hnd Hf n file' E. cbn [ix_paths] in E. apply dget_In in E. apply in_map_iff in E as ((k & v) & [= <- <-] & Hin).
    exists d, v. split; [exact Hf|]. now apply dget_In_NoDup. }
  split; [apply (Hr [("lm.a", 1); ("lm.b", 2); ("head", 3); ("vision", 4)] "model.safetensors"); [repeat constructor; cbn; intuition discriminate|reflexivity]|].
  split; [apply (Hr [("a", 11); ("b", 12); ("head", 13)] "model.safetensors"); [repeat constructor; cbn; intuition discriminate|reflexivity]|].
  split; [vm_compute; auto|vm_compute; reflexivity].
Qed.
Definition sharded : fs nat :=
  [("model.safetensors.index.json", FIndex 2 [("lm.a", "model-00001-of-00002.safetensors"); ("v", "model-00002-of-00002.safetensors")]);
   ("model-00001-of-00002.safetensors", FShard true [("lm.a", 1)]); ("model-00002-of-00002.safetensors", FShard true [("v", 2)])].
Example C45_stale_nonvacuous : readable sharded {| ix_paths := [("lm.a", "model-00001-of-00002.safetensors"); ("v", "model-00002-of-00002.safetensors")] |} /\
  is_weight_file "model-00001-of-00002.safetensors" = true /\
  exists out, copy_and_fill (fun _ => 1) ["lm"] sharded one_sub [] 0 = Ok out /\
    dget out "model.safetensors" = Some (FShard true [("lm.a", 11); ("v", 2)]) /\
    dget out "model-00001-of-00002.safetensors" = None.
Proof.
  split; [|split; [reflexivity|eexists; vm_compute; auto]].
  intros n file E. cbn [ix_paths] in E. apply dget_In in E as [[= <- <-]|[[= <- <-]|[]]].
  - exists [("lm.a", 1)], 1. split; reflexivity.
  - exists [("v", 2)], 2. split; reflexivity.
Qed.

Print Assumptions C45_prefix.
Print Assumptions C45_filled_partial.
Print Assumptions C45_too_small.
Print Assumptions C45_stale_index_refuted.
Print Assumptions C45_plain_name_dropped_refuted.
Print Assumptions C45_order_refuted.
