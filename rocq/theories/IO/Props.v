(** C15-C20: writing and reading sharded models. *)
From Verif.Base Require Import Py PyFacts PyStr.
From Verif.IO Require Import Model Spec WriterProofs FsProofs DirProofs LoaderProofs RunProofs.
Local Open Scope string_scope.
Local Open Scope list_scope.

Section P.
Context {T : Type} (nbytes : T -> nat).
Implicit Types (f : fs T) (saves : list (string * T)).

(** ** C15 *)
(** A finished write into an empty directory loads back: exactly the saved names, each with the last tensor saved
    under it. For every shard limit, synchronous or with any interleaving of the background writers. *)
Theorem C15_round_trip safe max saves :
  saves <> [] -> (safe = true \/ ~ In "state_dict" (map fst saves)) ->
  (exists f', apply_all (sync_ops nbytes safe None max saves) [] = Ok f' /\ loads f' saves) /\
  (forall f', async_run nbytes safe None max saves [] (Ok (f', None)) -> loads f' saves).
Proof.
  intros Hs Hf.
  assert (Ha : forall f', async_run nbytes safe None max saves [] (Ok (f', None)) -> loads f' saves).
  { intros f' Hr. apply (async_loads nbytes safe max saves [] f'); auto. }
  split; [|exact Ha]. destruct (sync_async nbytes safe max saves []) as (f' & E & Hr). eauto.
Qed.

(** With distinct names the reads may come in any order, interleaved with any other reads and flushes. *)
Theorem C15_any_read_order safe max saves f' :
  saves <> [] -> (safe = true \/ ~ In "state_dict" (map fst saves)) -> NoDup (map fst saves) ->
  async_run nbytes safe None max saves [] (Ok (f', None)) -> loads_always f' saves.
Proof.
  intros Hs Hf Hnd Hr. destruct (async_written nbytes _ _ _ _ _ Hr) as (w & jobs & G & Hp & W).
  pose proof (pk_concat _ _ _ _ _ _ _ Hp) as Ec. rewrite <- Ec in *.
  assert (Hne : G <> []) by (intros ->; now apply Hs).
  assert (Ei : from_disk f' = Ok (the_index w G)).
  { apply (written_index w G [] f'); try apply Hp; auto; [now rewrite (pk_safe _ _ _ _ _ _ _ Hp)|split; auto]. }
  assert (Hc : consistent f' (the_index w G)) by (apply (written_consistent w G [] f'); auto; apply Hp).
  exists (the_index w G). split; [exact Ei|]. split; [intros n; apply index_group; apply Hp|].
  intros history n t Ht. destruct (get_tensor_consistent f' (the_index w G) _ n [] true Hc (after_opened f' _ history Hc)) as [_ ->].
  destruct (written_loads w G [] f') as (ix & Ex & _ & Hg); try apply Hp; auto.
  { now rewrite (pk_safe _ _ _ _ _ _ _ Hp). }
  { split; auto. }
  rewrite Ei in Ex. injection Ex as <-. rewrite <- (Hg n t Ht).
  symmetry. apply get_tensor_consistent; auto. intros ? [=].
Qed.

(** ** C16 *)
(** The shard files partition the saves, in order, into groups; a group exceeds a positive limit only if it is a single
    save, and the next save would not have fitted. A limit of zero or less means one file. The index records the bytes
    of all saves. *)
Theorem C16_shards safe max saves f f' :
  async_run nbytes safe None max saves f (Ok (f', None)) ->
  exists groups, concat groups = saves /\ (forall g, In g groups -> g <> []) /\
    ((max > 0)%Z -> greedy nbytes max groups) /\ ((max <= 0)%Z -> length groups <= 1) /\
    (forall i g, nth_error groups i = Some g ->
       dget f' (shard_file safe (length groups) i) = Some (FShard safe (dict_of g))) /\
    (1 < length groups -> exists wm, dget f' (index_file safe) = Some (FIndex (Z.of_nat (bytes nbytes saves)) wm)).
Proof.
  intros Hr. destruct (async_written nbytes _ _ _ _ _ Hr) as (w & jobs & G & Hp & W).
  exists G. split; [apply Hp|]. split; [apply Forall_forall; apply Hp|]. split; [apply Hp|]. split; [apply Hp|].
  pose proof (pk_safe _ _ _ _ _ _ _ Hp) as Hs. pose proof (pk_base _ _ _ _ _ _ _ Hp) as Hb. split.
  - intros i g Hg. rewrite <- Hs, <- (dest_file w) by auto. now apply (wr_shard _ _ _ _ W).
  - intros Hl. rewrite <- Hs, <- index_file_name by auto. rewrite (wr_index _ _ _ _ W Hl), (pk_total _ _ _ _ _ _ _ Hp). eauto.
Qed.

(** So no file holds more than a positive limit, unless it holds a single tensor. *)
Theorem C16_shard_size safe max saves f' n d :
  (max > 0)%Z -> async_run nbytes safe None max saves [] (Ok (f', None)) ->
  dget f' n = Some (FShard safe d) -> (Z.of_nat (bytes nbytes d) <= max)%Z \/ length d = 1.
Proof.
  intros Hmax Hr Hd. destruct (async_written nbytes _ _ _ _ _ Hr) as (w & jobs & G & Hp & W).
  destruct (In_dec string_dec n (map (dest w (length G)) (seq 0 (length G)))) as [Hin|N2].
  { apply in_map_iff in Hin as (i & <- & Hi). apply in_seq in Hi. destruct (nth_error G i) as [g|] eqn:Eg.
    - rewrite (wr_shard _ _ _ _ W i g Eg) in Hd. injection Hd as _ <-.
      destruct (pk_greedy _ _ _ _ _ _ _ Hp Hmax) as [Hg _]. destruct (Hg g (nth_error_In _ _ Eg)) as [Hne Hsz].
      pose proof (dict_of_bytes nbytes g) as [B1 B2]. destruct Hsz as [?|E1]; [left; lia|right].
      destruct (dict_of g) eqn:Ed; [now apply dict_of_nil_inv in Ed|]. cbn in *. lia.
    - apply nth_error_None in Eg. lia. }
  exfalso. destruct (In_dec string_dec n (map (tmp_name w) (seq 0 (length G)))) as [Hin|N1].
  { apply in_map_iff in Hin as (i & <- & Hi). apply in_seq in Hi. rewrite (wr_tmp _ _ _ _ W) in Hd by lia. discriminate. }
  destruct (Nat.ltb_spec 1 (length G)) as [Hl|Hl].
  - destruct (string_dec n (index_name w)) as [-> | N3]; [rewrite (wr_index _ _ _ _ W Hl) in Hd; discriminate|].
    rewrite (wr_other _ _ _ _ W) in Hd; auto. discriminate.
  - rewrite (wr_other _ _ _ _ W) in Hd; auto; [discriminate|lia].
Qed.

(** The recorded total is the size of what is stored, when names are distinct. *)
Theorem C16_total_size safe max saves f f' total wm :
  NoDup (map fst saves) -> async_run nbytes safe None max saves f (Ok (f', None)) -> dget f (index_file safe) = None ->
  dget f' (index_file safe) = Some (FIndex total wm) ->
  total = Z.of_nat (bytes nbytes saves) /\
  exists groups, concat groups = saves /\
    (forall i g, nth_error groups i = Some g -> dget f' (shard_file safe (length groups) i) = Some (FShard safe g)).
Proof.
  intros Hnd Hr Hno Hi. destruct (async_written nbytes _ _ _ _ _ Hr) as (w & jobs & G & Hp & W).
  pose proof (pk_safe _ _ _ _ _ _ _ Hp) as Hs. pose proof (pk_base _ _ _ _ _ _ _ Hp) as Hb.
  split.
  - rewrite <- Hs, <- index_file_name in Hi by auto. destruct (Nat.ltb_spec 1 (length G)) as [Hl|Hl].
    + rewrite (wr_index _ _ _ _ W Hl) in Hi. injection Hi as <- _. now rewrite (pk_total _ _ _ _ _ _ _ Hp).
    + exfalso. rewrite (wr_other _ _ _ _ W) in Hi.
      * rewrite index_file_name, Hs in Hi by auto. congruence.
      * intros Hin. apply in_map_iff in Hin as (i & E & _). now apply tmp_index in E.
      * intros Hin. apply in_map_iff in Hin as (i & E & _). now apply dest_index in E.
      * lia.
  - exists G. split; [apply Hp|]. intros i g Hg. rewrite <- Hs, <- (dest_file w) by auto. rewrite (wr_shard _ _ _ _ W i g Hg).
    rewrite dict_of_id; [reflexivity|]. rewrite <- (pk_concat _ _ _ _ _ _ _ Hp) in Hnd. apply nth_error_split in Hg as (G1 & G2 & -> & _).
    rewrite concat_app in Hnd. cbn in Hnd. rewrite !map_app in Hnd. apply NoDup_app_remove_l, NoDup_app_remove_r in Hnd. exact Hnd.
Qed.

(** ** C17 *)
(** A run into an empty directory interrupted after any number [p] of its file-system operations - whatever the
    interleaving [q] of the shard writers - leaves a directory the loader rejects, or the complete model. *)
Theorem C17_crash safe max saves w jobs q p r :
  (safe = true \/ ~ In "state_dict" (map fst saves)) ->
  save_all nbytes (new_writer safe None max) saves = (w, jobs) ->
  merged (map (fun j => write_file (fst j) (snd j)) jobs) q ->
  q ++ finalize_ops w = p ++ r ->
  exists f1, apply_all p [] = Ok f1 /\ (r <> [] -> unreadable f1) /\ (unreadable f1 \/ loads f1 saves).
Proof.
  intros Hf Es Hm E. destruct r as [|o r].
  - rewrite app_nil_r in E. subst p. destruct (pack nbytes _ _ _ _ _ Es) as [G Hp].
    pose proof Hm as Hm'. change (fun j => write_file (fst j) (snd j)) with (wf (T:=T)) in Hm'.
    rewrite (pk_jobs _ _ _ _ _ _ _ Hp) in Hm'.
    destruct (run_done w G q [] Hm' (pk_written _ _ _ _ _ _ _ Hp)) as (f1 & E1 & W). exists f1. split; [exact E1|].
    split; [intros []; reflexivity|]. destruct G as [|g0 G0] eqn:EG.
    + left. assert (En : forall x, dget f1 x = None).
      { intros x. rewrite (wr_other _ _ _ _ W); cbn; [reflexivity| | |lia]; intros []. }
      apply (no_model_unreadable f1 true); auto.
    + right. rewrite <- EG in *. rewrite <- (pk_concat _ _ _ _ _ _ _ Hp). apply (written_loads w G [] f1); try apply Hp; auto.
      * congruence.
      * rewrite (pk_safe _ _ _ _ _ _ _ Hp), (pk_concat _ _ _ _ _ _ _ Hp). exact Hf.
      * split; auto.
  - destruct (cut_unreadable nbytes safe max saves w jobs q p (o :: r)) as (f1 & E1 & U); auto; [discriminate|]. exists f1. auto.
Qed.

(** A background writer that fails makes [finalize] raise and leaves no loadable model. *)
Theorem C17_failed_write safe max saves f' e :
  async_run nbytes safe None max saves [] (Ok (f', Some e)) -> unreadable f'.
Proof. apply failed_unreadable. Qed.

(** ** C18 *)
(** Writing into a directory that already holds files works if no index of the same kind is left over when the new
    model fits in one file, and, for torch files, if the directory holds no safetensors model.
    Missing for the full property: exactly these cases, see the refutations below. *)
Theorem C18_reused_directory_partial safe max saves w jobs f f' :
  saves <> [] -> (safe = true \/ ~ In "state_dict" (map fst saves)) ->
  save_all nbytes (new_writer safe None max) saves = (w, jobs) ->
  (length jobs = 1 -> dget f (index_file safe) = None) ->
  (safe = false -> dget f "model.safetensors" = None /\ dget f "model.safetensors.index.json" = None) ->
  async_run nbytes safe None max saves f (Ok (f', None)) -> loads f' saves.
Proof.
  intros Hs Hfine Es O1 O2 Hr. destruct (async_written_full nbytes _ _ _ _ _ Hr) as (w' & jobs' & G & Es' & Hp & W).
  rewrite Es in Es'. injection Es' as <- <-.
  assert (El : length G = length jobs).
  { rewrite (pk_jobs _ _ _ _ _ _ _ Hp). clear. generalize 0. induction G; cbn; auto. }
  pose proof (pk_concat _ _ _ _ _ _ _ Hp) as Ec. pose proof (pk_safe _ _ _ _ _ _ _ Hp) as Hsf. rewrite <- Ec.
  apply (written_loads w G f f'); try apply Hp; auto.
  - intros ->. apply Hs. now rewrite <- Ec.
  - rewrite Hsf, Ec. exact Hfine.
  - split.
    + intros E1. rewrite index_file_name, Hsf by apply Hp. apply O1. lia.
    + rewrite Hsf. exact O2.
Qed.

(** A leftover index wins over a new model that fits in one file: the loader shows the old index. *)
Theorem C18_stale_index_refuted safe max saves w job f f' total old :
  save_all nbytes (new_writer safe None max) saves = (w, [job]) ->
  dget f (index_file safe) = Some (FIndex total old) ->
  (safe = false -> dget f "model.safetensors" = None /\ dget f "model.safetensors.index.json" = None) ->
  async_run nbytes safe None max saves f (Ok (f', None)) ->
  from_disk f' = Ok {| ix_paths := old |}.
Proof.
  intros Es Hi O2 Hr. destruct (async_written_full nbytes _ _ _ _ _ Hr) as (w' & jobs' & G & Es' & Hp & W).
  rewrite Es in Es'. injection Es' as <- <-.
  assert (El : length G = 1).
  { change 1 with (length [job]). rewrite (pk_jobs _ _ _ _ _ _ _ Hp). clear. generalize 0. induction G; cbn; auto. }
  pose proof (pk_base _ _ _ _ _ _ _ Hp) as Hb. pose proof (pk_safe _ _ _ _ _ _ _ Hp) as Hsf.
  assert (Hi' : dget f' (index_file safe) = Some (FIndex total old)).
  { rewrite <- Hi, <- Hsf, <- index_file_name by auto. apply (wr_other _ _ _ _ W); [| |lia].
    - intros Hin. apply in_map_iff in Hin as (i & E & _). now apply tmp_index in E.
    - intros Hin. apply in_map_iff in Hin as (i & E & _). now apply dest_index in E. }
  unfold from_disk, find_model. rewrite !exists_get. destruct safe; cbn [index_file] in *.
  - rewrite Hi', orb_true_r. cbn [append]. now rewrite Hi'.
  - destruct (O2 eq_refl) as [N1 N2].
    assert (Hno : forall x, x = st_name \/ x = (st_name ++ ".index.json")%string -> dget f' x = dget f x).
    { intros x Hx. destruct (other_names w (length G) x Hb Hsf Hx) as (A1 & A2 & A3). now apply (wr_other _ _ _ _ W). }
    rewrite (Hno "model.safetensors"), N1 by auto. rewrite (Hno "model.safetensors.index.json"), N2 by auto. cbn [orb].
    rewrite Hi', orb_true_r. cbn [append]. now rewrite Hi'.
Qed.

(** A leftover safetensors file wins over a new torch model. *)
Theorem C18_stale_safetensors_refuted max saves f f' d :
  dget f "model.safetensors" = Some (FShard true d) -> dget f "model.safetensors.index.json" = None ->
  async_run nbytes false None max saves f (Ok (f', None)) ->
  from_disk f' = Ok {| ix_paths := map (fun kv => (fst kv, "model.safetensors")) d |}.
Proof.
  intros H1 H2 Hr. destruct (async_written nbytes _ _ _ _ _ Hr) as (w & jobs & G & Hp & W).
  pose proof (pk_base _ _ _ _ _ _ _ Hp) as Hb. pose proof (pk_safe _ _ _ _ _ _ _ Hp) as Hsf.
  assert (Hno : forall x, x = st_name \/ x = (st_name ++ ".index.json")%string -> dget f' x = dget f x).
  { intros x Hx. destruct (other_names w (length G) x Hb Hsf Hx) as (A1 & A2 & A3). now apply (wr_other _ _ _ _ W). }
  unfold from_disk, find_model. rewrite !exists_get. rewrite (Hno "model.safetensors"), H1 by auto. cbn [orb].
  cbn [append]. rewrite (Hno "model.safetensors.index.json"), H2 by auto. unfold from_file.
  rewrite (Hno "model.safetensors"), H1 by auto. reflexivity.
Qed.

(** ** C19 *)
(** Whatever the background writers do, [finalize] raises or the directory is the one synchronous writing leaves;
    and if no writer fails it does not raise. *)
Theorem C19_async_is_sync safe max saves f r :
  async_run nbytes safe None max saves f r ->
  exists f', (exists e, r = Ok (f', Some e)) \/
    (r = Ok (f', None) /\ exists f'', apply_all (sync_ops nbytes safe None max saves) f = Ok f'' /\ same_dir f' f'').
Proof.
  intros Hr. inversion Hr as [w jobs outs opss q Es Hw Hm E]. destruct (pack nbytes _ _ _ _ _ Es) as [G Hp].
  destruct (first_error outs) as [e|] eqn:Ee.
  - assert (Hops : Forall is_write q).
    { apply Forall_forall. intros o Ho. destruct (merged_In _ _ _ Hm Ho) as (l & Hl & Ho'). eapply workers_ops; eauto. }
    destruct (writes_effect q f Hops) as (f1 & E1 & _). rewrite E1. exists f1. left. exists e. reflexivity.
  - pose proof (workers_done _ _ _ Hw Ee) as ->. rewrite (pk_jobs _ _ _ _ _ _ _ Hp) in Hm.
    destruct (run_done w G q f Hm (pk_written _ _ _ _ _ _ _ Hp)) as (f1 & E1 & W). rewrite E1. exists f1. right.
    split; [reflexivity|]. unfold sync_ops. rewrite Es.
    destruct (run_done w G (flat_map (fun j => write_file (fst j) (snd j)) jobs) f) as (f2 & E2 & W2); [|apply Hp|].
    { rewrite (pk_jobs _ _ _ _ _ _ _ Hp), flat_map_concat_map. apply merged_seq. }
    exists f2. split; [exact E2|]. now apply (written_same w G f).
Qed.

(** ** C20 *)
(** On a checkpoint consistent with its index every read, after any history of reads and flushes, returns what the
    index and the shard files say, as a fresh loader would. *)
Theorem C20_history f ix history key aliases raise : consistent f ix ->
  snd (get_tensor f ix (after f ix history) key aliases raise) = expected f ix key aliases raise /\
  snd (get_tensor f ix (after f ix history) key aliases raise) = snd (get_tensor f ix None key aliases raise).
Proof.
  intros Hc. destruct (get_tensor_consistent f ix (after f ix history) key aliases raise Hc (after_opened f ix history Hc)) as [_ E].
  destruct (get_tensor_consistent f ix None key aliases raise Hc) as [_ E']; [intros ? [=]|]. split; congruence.
Qed.

(** A read finds nothing exactly when neither the key nor an alias is indexed. *)
Theorem C20_missing f ix history key aliases : consistent f ix ->
  (snd (get_tensor f ix (after f ix history) key aliases false) = Ok None <->
   forall x, In x (key :: aliases) -> ~ In x (dkeys (ix_paths ix))) /\
  (snd (get_tensor f ix (after f ix history) key aliases true) = Err KeyError <->
   forall x, In x (key :: aliases) -> ~ In x (dkeys (ix_paths ix))).
Proof.
  intros Hc. rewrite !(fun r => proj1 (C20_history f ix history key aliases r Hc)). unfold expected.
  destruct (find _ (key :: aliases)) as [x|] eqn:Ef.
  - apply find_some in Ef as [Hin Hx]. pose proof Hx as Hx'. apply dmem_In, dget_Some_key in Hx' as [file Hfile].
    unfold stored. rewrite Hfile. destruct Hc as [C1 _]. destruct (C1 x file Hfile) as (d & -> & Hd).
    apply dget_Some_key in Hd as [t ->]. apply dmem_In in Hx.
    split; (split; [discriminate|intros Hno; exfalso; exact (Hno x Hin Hx)]).
  - assert (Hno : forall x, In x (key :: aliases) -> ~ In x (dkeys (ix_paths ix))).
    { intros x Hx Hin. apply dmem_In in Hin. pose proof (find_none _ _ Ef x Hx) as E. cbn in E. congruence. }
    split; (split; [auto|reflexivity]).
Qed.

(** ** C48: finalize is not idempotent *)
Theorem C48_second_finalize_raises safe max saves w jobs f f' :
  saves <> [] -> save_all nbytes (new_writer safe None max) saves = (w, jobs) ->
  async_run nbytes safe None max saves f (Ok (f', None)) -> apply_all (finalize_ops w) f' = Err OSError_.
Proof.
  intros Hs Es Hr. destruct (async_written_full nbytes _ _ _ _ _ Hr) as (w' & jobs' & G & Es' & Hp & W).
  rewrite Es in Es'. injection Es' as <- <-.
  assert (Hne : G <> []) by now apply (packed_nonempty nbytes _ _ _ _ _ _ Hp).
  rewrite finalize_eq, (pk_written _ _ _ _ _ _ _ Hp). destruct G as [|g G]; [congruence|]. cbn [length moves seq map app apply_all].
  unfold ren at 1. cbn [fst snd apply]. rewrite (wr_tmp _ _ _ _ W 0) by (cbn; lia). reflexivity.
Qed.
End P.

(** ** Concrete cases *)
Section Examples.
(** tensors are their element count, one byte each; two tensors per shard fit *)
Definition sz (t : nat) : nat := t.
Definition three : list (string * nat) := [("a", 4); ("b", 5); ("c", 6)].
Definition dir_of (r : result (fs nat)) : fs nat := match r with Ok f => f | Err _ => [] end.
Definition ix_of (r : result index) : index := match r with Ok ix => ix | Err _ => {| ix_paths := [] |} end.
Definition three_dir := dir_of (apply_all (sync_ops sz true None 10 three) []).

Example three_files : dkeys three_dir = ["model-00001-of-00002.safetensors"; "model-00002-of-00002.safetensors"; "model.safetensors.index.json"].
Proof. reflexivity. Qed.

Example C15_round_trip_nonvacuous : loads_always three_dir three.
Proof.
  apply (C15_any_read_order sz true 10 three three_dir); [discriminate|now left| |].
  - repeat constructor; cbn; intuition discriminate.
  - destruct (sync_async sz true 10 three []) as (f' & E & Hr). unfold three_dir. rewrite E. exact Hr.
Qed.

(** a run in which the second writer overtakes the first *)
Example C19_nonvacuous : exists f', async_run sz true None 10 three [] (Ok (f', None)) /\ loads f' three.
Proof.
  pose (w := fst (save_all sz (new_writer true None 10) three)). pose (jobs := snd (save_all sz (new_writer true None 10) three)).
  pose (q := [OTouch "model-2.safetensors"; OTouch "model-1.safetensors";
              OWrite "model-2.safetensors" (FShard true [("c", 6)]); OWrite "model-1.safetensors" (FShard true [("a", 4); ("b", 5)])]).
  assert (Hr : async_run sz true None 10 three [] (let! f' := apply_all (q ++ finalize_ops w) [] in Ok (f', None))).
  { apply (ar_run sz true None 10 three [] w jobs [None; None] (map wf jobs) q); [reflexivity|repeat constructor|].
    change (map wf jobs) with [[OTouch "model-1.safetensors"; OWrite "model-1.safetensors" (FShard true [("a", 4); ("b", 5)])];
                               [OTouch "model-2.safetensors"; OWrite "model-2.safetensors" (FShard true [("c", 6)])]].
    apply (mg_step [_] _ _ []). apply (mg_step [] _ _ [_]). apply (mg_step [_] _ _ []). apply (mg_step [] _ _ [_]).
    constructor. repeat constructor. }
  eexists. split; [exact Hr|]. eapply (C15_round_trip sz true 10 three); [discriminate|now left|exact Hr].
Qed.

(** ** C15 counterexamples *)
(** a torch file with a tensor called "state_dict" cannot be opened again *)
Theorem C15_state_dict_refuted : exists f', apply_all (sync_ops sz false None 10 [("state_dict", 4)]) [] = Ok f' /\
  from_disk f' = Err TypeError.
Proof. exists (dir_of (apply_all (sync_ops sz false None 10 [("state_dict", 4)]) [])). split; vm_compute; reflexivity. Qed.
(** a name saved into two shards: what is read depends on what was read before *)
Definition twice : list (string * nat) := [("a", 4); ("b", 5); ("a", 6)].
Theorem C15_resaved_name_refuted : exists f' ix, apply_all (sync_ops sz true None 10 twice) [] = Ok f' /\ from_disk f' = Ok ix /\
  snd (get_tensor f' ix None "a" [] true) = Ok (Some 6) /\
  snd (get_tensor f' ix (after f' ix [CGet "b" [] true]) "a" [] true) = Ok (Some 4).
Proof.
  pose (f' := dir_of (apply_all (sync_ops sz true None 10 twice) [])). exists f', (ix_of (from_disk f')).
  split; [vm_compute; reflexivity|]. split; [vm_compute; reflexivity|]. split; vm_compute; reflexivity.
Qed.
(** saving nothing leaves a directory that is not a model *)
Theorem C15_nothing_saved_refuted : exists f', apply_all (sync_ops sz true None 10 []) [] = Ok f' /\ from_disk f' = Err RuntimeError.
Proof. eexists. split; reflexivity. Qed.
(** the recorded total counts a tensor that was saved over *)
Theorem C16_total_size_resaved_refuted : exists f' wm, apply_all (sync_ops sz true None 10 [("a", 4); ("a", 5); ("c", 6)]) [] = Ok f' /\
  dget f' "model.safetensors.index.json" = Some (FIndex 15 wm) /\
  dget f' "model-00001-of-00002.safetensors" = Some (FShard true [("a", 5)]) /\
  dget f' "model-00002-of-00002.safetensors" = Some (FShard true [("c", 6)]).
Proof.
  exists (dir_of (apply_all (sync_ops sz true None 10 [("a", 4); ("a", 5); ("c", 6)]) [])).
  eexists. split; [vm_compute; reflexivity|]. split; [vm_compute; reflexivity|]. split; vm_compute; reflexivity.
Qed.

Example C16_nonvacuous : exists wm, dget three_dir "model.safetensors.index.json" = Some (FIndex 15 wm) /\
  dget three_dir "model-00001-of-00002.safetensors" = Some (FShard true [("a", 4); ("b", 5)]).
Proof. eexists. split; vm_compute; reflexivity. Qed.

(** the crash between the two renames of [three] *)
Example C17_crash_nonvacuous : exists w jobs p r, save_all sz (new_writer true None 10) three = (w, jobs) /\ length jobs = 2 /\
  flat_map (fun j => write_file (fst j) (snd j)) jobs ++ finalize_ops w = p ++ r /\ length p = 5 /\ length r = 3 /\
  exists f1, apply_all p [] = Ok f1 /\ dkeys f1 = ["model-2.safetensors"; "model-00001-of-00002.safetensors"] /\ unreadable f1.
Proof.
  exists (fst (save_all sz (new_writer true None 10) three)), (snd (save_all sz (new_writer true None 10) three)).
  exists (firstn 5 (sync_ops sz true None 10 three)), (skipn 5 (sync_ops sz true None 10 three)).
  split; [vm_compute; reflexivity|]. split; [vm_compute; reflexivity|]. split; [vm_compute; reflexivity|].
  split; [vm_compute; reflexivity|]. split; [vm_compute; reflexivity|].
  exists (dir_of (apply_all (firstn 5 (sync_ops sz true None 10 three)) [])).
  split; [vm_compute; reflexivity|]. split; [vm_compute; reflexivity|]. exists RuntimeError. vm_compute. reflexivity.
Qed.
(** the same crash in a directory that held an older model with as many shards: it loads, with tensors of both *)
Definition older : list (string * nat) := [("a", 3); ("b", 2); ("c", 8)].
Theorem C17_reused_directory_refuted : exists f0 f1 ix p r,
  apply_all (sync_ops sz true None 10 older) [] = Ok f0 /\ sync_ops sz true None 10 three = p ++ r /\
  apply_all p f0 = Ok f1 /\ from_disk f1 = Ok ix /\
  snd (get_tensor f1 ix None "a" [] true) = Ok (Some 4) /\ snd (get_tensor f1 ix None "c" [] true) = Ok (Some 8).
Proof.
  pose (f0 := dir_of (apply_all (sync_ops sz true None 10 older) [])).
  pose (f1 := dir_of (apply_all (firstn 5 (sync_ops sz true None 10 three)) f0)).
  exists f0, f1, (ix_of (from_disk f1)), (firstn 5 (sync_ops sz true None 10 three)), (skipn 5 (sync_ops sz true None 10 three)).
  split; [vm_compute; reflexivity|]. split; [vm_compute; reflexivity|]. split; [vm_compute; reflexivity|].
  split; [vm_compute; reflexivity|]. split; vm_compute; reflexivity.
Qed.
Example C17_failed_write_nonvacuous : exists f', async_run sz true None 10 three [] (Ok (f', Some OSError_)) /\ dkeys f' = ["model-1.safetensors"; "model-2.safetensors"].
Proof.
  pose (w := fst (save_all sz (new_writer true None 10) three)). pose (jobs := snd (save_all sz (new_writer true None 10) three)).
  pose (opss := [[OTouch "model-1.safetensors"]; [OTouch "model-2.safetensors"; OWrite "model-2.safetensors" (FShard true [("c", 6)])]] : list (list (op nat))).
  assert (Hr : async_run sz true None 10 three [] (let! f' := apply_all (concat opss) [] in Ok (f', Some OSError_))).
  { apply (ar_run sz true None 10 three [] w jobs [Some OSError_; None] opss (concat opss)); [reflexivity| |apply merged_seq].
    constructor; [eexists; reflexivity|]. constructor; [reflexivity|constructor]. }
  exists (dir_of (apply_all (concat opss) [])). split; [exact Hr|vm_compute; reflexivity].
Qed.

(** replacing a two-shard model by a smaller one that fits in one file *)
Definition small : list (string * nat) := [("a", 1); ("z", 2)].
Example C18_stale_index_nonvacuous : exists f' ix, apply_all (sync_ops sz true None 10 small) three_dir = Ok f' /\
  from_disk f' = Ok ix /\ snd (get_tensor f' ix None "a" [] true) = Ok (Some 4) /\ snd (get_tensor f' ix None "z" [] true) = Err KeyError.
Proof.
  pose (f' := dir_of (apply_all (sync_ops sz true None 10 small) three_dir)). exists f', (ix_of (from_disk f')).
  split; [vm_compute; reflexivity|]. split; [vm_compute; reflexivity|]. split; vm_compute; reflexivity.
Qed.
(** the other way round is fine *)
Example C18_reused_directory_nonvacuous : exists f0 f', apply_all (sync_ops sz true None 10 small) [] = Ok f0 /\
  apply_all (sync_ops sz true None 10 three) f0 = Ok f' /\ loads f' three.
Proof.
  pose (f0 := dir_of (apply_all (sync_ops sz true None 10 small) [])).
  destruct (sync_async sz true 10 three f0) as (f' & E & Hr). exists f0, f'.
  split; [vm_compute; reflexivity|]. split; [exact E|].
  apply (C18_reused_directory_partial sz true 10 three (fst (save_all sz (new_writer true None 10) three))
           (snd (save_all sz (new_writer true None 10) three)) f0);
    [discriminate|now left|vm_compute; reflexivity|vm_compute; discriminate|discriminate|exact Hr].
Qed.
Example C18_stale_safetensors_nonvacuous : exists f', apply_all (sync_ops sz false None 10 three) [("model.safetensors", FShard true small)] = Ok f' /\
  from_disk f' = Ok {| ix_paths := [("a", "model.safetensors"); ("z", "model.safetensors")] |}.
Proof.
  exists (dir_of (apply_all (sync_ops sz false None 10 three) [("model.safetensors", FShard true small)])).
  split; vm_compute; reflexivity.
Qed.

Example C20_nonvacuous : exists ix, from_disk three_dir = Ok ix /\
  snd (get_tensor three_dir ix (after three_dir ix [CGet "c" [] true; CFlush; CGet "a" [] false]) "tied" ["no"; "b"; "c"] true) = Ok (Some 5).
Proof. exists (ix_of (from_disk three_dir)). split; vm_compute; reflexivity. Qed.
(** a shard holding a tensor the index does not list: found or not depending on the shard that is open *)
Theorem C20_unindexed_refuted : exists (f : fs nat) ix, 
  snd (get_tensor f ix None "x" [] false) = Ok None /\
  snd (get_tensor f ix (after f ix [CGet "a" [] true]) "x" [] false) = Ok (Some 9).
Proof.
  exists [("m.safetensors", FShard true [("a", 1); ("x", 9)])], {| ix_paths := [("a", "m.safetensors")] |}. split; reflexivity.
Qed.
End Examples.

Print Assumptions C15_round_trip.
Print Assumptions C15_any_read_order.
Print Assumptions C16_shards.
Print Assumptions C16_shard_size.
Print Assumptions C16_total_size.
Print Assumptions C17_crash.
Print Assumptions C17_failed_write.
Print Assumptions C18_reused_directory_partial.
Print Assumptions C18_stale_index_refuted.
Print Assumptions C18_stale_safetensors_refuted.
Print Assumptions C19_async_is_sync.
Print Assumptions C20_history.
Print Assumptions C20_missing.
Print Assumptions C48_second_finalize_raises.
