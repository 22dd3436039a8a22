(** Whole runs of the writer, from the first save to the end of [finalize]. *)
From Verif.Base Require Import Py PyFacts PyStr.
From Verif.IO Require Import Model Spec WriterProofs FsProofs DirProofs LoaderProofs.
Local Open Scope string_scope.
Local Open Scope list_scope.

Section R.
Context {T : Type} (nbytes : T -> nat).
Implicit Types (f : fs T) (saves : list (string * T)).

(** the packing behind a run *)
Record packed safe max saves (w : writer T) (jobs : list (string * content T)) (G : list (list (string * T))) : Prop := {
  pk_concat : concat G = saves;
  pk_nonempty : Forall (fun x => x <> []) G;
  pk_greedy : (max > 0)%Z -> greedy nbytes max G;
  pk_single : (max <= 0)%Z -> length G <= 1;
  pk_jobs : jobs = jobs_of w 0 G;
  pk_safe : w_safe w = safe;
  pk_base : w_basename w = None;
  pk_written : w_written w = length G;
  pk_map : w_map w = map_of w 0 G [];
  pk_total : w_total w = bytes nbytes saves
}.

Lemma pack safe max saves w jobs : save_all nbytes (new_writer safe None max) saves = (w, jobs) ->
  exists G, packed safe max saves w jobs G.
Proof.
  intros E. pose proof (new_save_all nbytes safe None max saves) as Hn. cbv zeta in Hn.
  destruct Hn as (G & E1 & E2 & E3 & E4 & E5). rewrite E in E5. destruct E5 as (J1 & J2 & J3 & J4 & J5).
  exists G. split; auto.
  - rewrite J1. symmetry. now apply jobs_of_names.
  - now destruct J2 as [-> _].
  - now destruct J2 as [_ ->].
  - rewrite J4. symmetry. now apply map_of_names.
Qed.

Lemma dest_file w n i : w_basename w = None -> dest (T:=T) w n i = shard_file (w_safe w) n i.
Proof.
  intros Hb. unfold dest, shard_file, single_name, final_name, prefix_of, ext_of. rewrite Hb.
  destruct (w_safe w), (Nat.eqb n 1); reflexivity.
Qed.
Lemma index_file_name w : w_basename w = None -> index_name (T:=T) w = index_file (w_safe w).
Proof. intros Hb. rewrite index_None by auto. destruct (w_safe w); reflexivity. Qed.

Lemma workers_done jobs outs opss : workers (T:=T) jobs outs opss -> first_error outs = None -> opss = map wf jobs.
Proof.
  induction 1 as [|job jobs o outs ops opss Hw Hws IH]; intros E; [reflexivity|]. destruct o; [discriminate|]. cbn in *.
  rewrite IH by auto. now rewrite Hw.
Qed.
Lemma workers_ops jobs outs opss l o : workers (T:=T) jobs outs opss -> In l opss -> In o l ->
  is_write o /\ In (target o) (map fst jobs).
Proof.
  induction 1 as [|job jobs o' outs ops opss Hw Hws IH]; intros Hl Ho; [destruct Hl|].
  destruct Hl as [<- | Hl]; [|destruct (IH Hl Ho); cbn; auto].
  assert (Hin : In o (write_file (fst job) (snd job))).
  { destruct o'; cbn in Hw; [|now subst]. destruct Hw as [rest ->]. apply in_or_app. auto. }
  destruct Hin as [<- | [<- | []]]; cbn; auto.
Qed.
Lemma workers_exist (jobs : list (string * content T)) : exists outs, workers jobs outs (map wf jobs) /\ first_error outs = None.
Proof.
  induction jobs as [|j jobs (outs & Hw & He)]; [exists []; split; constructor|].
  exists (None :: outs). split; [constructor; [reflexivity|exact Hw]|exact He].
Qed.

(** every successful run leaves the directory [written] describes *)
Lemma async_written_full safe max saves f f' : async_run nbytes safe None max saves f (Ok (f', None)) ->
  exists w jobs G, save_all nbytes (new_writer safe None max) saves = (w, jobs) /\ packed safe max saves w jobs G /\ written w G f f'.
Proof.
  intros Hr. inversion Hr as [w jobs outs opss q Es Hw Hm E]. destruct (pack _ _ _ _ _ Es) as [G Hp].
  exists w, jobs, G. split; [exact Es|]. split; [exact Hp|].
  destruct (first_error outs) as [e|] eqn:Ee.
  { destruct (apply_all q f); discriminate. }
  pose proof (workers_done _ _ _ Hw Ee) as ->. rewrite (pk_jobs _ _ _ _ _ _ Hp) in Hm.
  destruct (run_done w G q f Hm (pk_written _ _ _ _ _ _ Hp)) as (f1 & E1 & W). rewrite E1 in E. cbn in E. injection E as <-. exact W.
Qed.

Lemma async_written safe max saves f f' : async_run nbytes safe None max saves f (Ok (f', None)) ->
  exists w jobs G, packed safe max saves w jobs G /\ written w G f f'.
Proof. intros Hr. destruct (async_written_full _ _ _ _ _ Hr) as (w & jobs & G & _ & Hp & W). eauto. Qed.

Lemma sync_async safe max saves f : exists f', apply_all (sync_ops nbytes safe None max saves) f = Ok f' /\
  async_run nbytes safe None max saves f (Ok (f', None)).
Proof.
  unfold sync_ops. destruct (save_all nbytes (new_writer safe None max) saves) as [w jobs] eqn:Es.
  destruct (pack _ _ _ _ _ Es) as [G Hp].
  assert (Hm : merged (map wf jobs) (flat_map (fun j => write_file (fst j) (snd j)) jobs)).
  { rewrite flat_map_concat_map. apply merged_seq. }
  pose proof Hm as Hm'. rewrite (pk_jobs _ _ _ _ _ _ Hp) in Hm' at 1.
  destruct (run_done w G _ f Hm' (pk_written _ _ _ _ _ _ Hp)) as (f1 & E1 & W). exists f1. split; [exact E1|].
  destruct (workers_exist jobs) as (outs & Hw & He).
  pose proof (ar_run nbytes safe None max saves f w jobs outs _ _ Es Hw Hm) as Ha. rewrite He, E1 in Ha. exact Ha.
Qed.

Lemma packed_nonempty safe max saves w jobs G : packed safe max saves w jobs G -> saves <> [] -> G <> [].
Proof. intros Hp Hs ->. apply Hs. rewrite <- (pk_concat _ _ _ _ _ _ Hp). reflexivity. Qed.

Lemma async_loads safe max saves f f' : saves <> [] -> fine safe saves ->
  async_run nbytes safe None max saves f (Ok (f', None)) ->
  dget f (index_file safe) = None ->
  (safe = false -> dget f st_name = None /\ dget f (st_name ++ ".index.json")%string = None) ->
  loads f' saves.
Proof.
  intros Hs Hfine Hr O1 O2. destruct (async_written _ _ _ _ _ Hr) as (w & jobs & G & Hp & W).
  rewrite <- (pk_concat _ _ _ _ _ _ Hp). apply (written_loads w G f f'); try apply Hp; auto.
  - now apply (packed_nonempty _ _ _ _ _ _ Hp).
  - rewrite (pk_safe _ _ _ _ _ _ Hp), (pk_concat _ _ _ _ _ _ Hp). exact Hfine.
  - split; rewrite ?(pk_safe _ _ _ _ _ _ Hp); auto. rewrite (index_file_name w) by apply Hp. rewrite (pk_safe _ _ _ _ _ _ Hp). auto.
Qed.

(** ** crashes *)
Definition kind (safe : bool) := if safe then st_name else bin_name.
Lemma foreign_names (w : writer T) n x : w_basename w = None ->
  x = kind (negb (w_safe w)) \/ x = (kind (negb (w_safe w)) ++ ".index.json")%string ->
  ~ In x (map (tmp_name w) (seq 0 n)) /\ ~ In x (map (dest w n) (seq 0 n)) /\ x <> index_name w.
Proof.
  intros Hb Hx. destruct (w_safe w) eqn:Hs; [|now apply other_names]. cbn in Hx. split; [|split].
  - intros Hin. apply in_map_iff in Hin as (i & E & _). destruct (tmp_None w i Hb) as [s Es]. rewrite Es, Hs in E.
    destruct Hx as [-> | ->]; discriminate.
  - intros Hin. apply in_map_iff in Hin as (i & E & _). unfold dest in E. destruct (Nat.eqb n 1).
    + rewrite (single_None w Hb), Hs in E. destruct Hx as [-> | ->]; discriminate.
    + destruct (final_None w n i Hb) as [s Es]. rewrite Es, Hs in E. destruct Hx as [-> | ->]; discriminate.
  - rewrite (index_None w Hb), Hs. destruct Hx as [-> | ->]; discriminate.
Qed.

(** no model file of either kind, except possibly an incomplete index *)
Lemma no_model_unreadable f safe :
  dget f (kind safe) = None -> dget f (kind (negb safe)) = None -> dget f (kind (negb safe) ++ ".index.json")%string = None ->
  (dget f (kind safe ++ ".index.json")%string = None \/ dget f (kind safe ++ ".index.json")%string = Some FPartial) ->
  unreadable f.
Proof.
  intros N1 N2 N3 N4. unfold unreadable, from_disk, find_model. rewrite !exists_get.
  change "model.safetensors.index.json" with (st_name ++ ".index.json")%string.
  change "pytorch_model.bin.index.json" with (bin_name ++ ".index.json")%string.
  fold st_name. fold bin_name. destruct safe; cbn [kind negb] in *; rewrite N1, N2, N3.
  - destruct N4 as [E|E]; rewrite E; cbn [orb]; [eauto|]. rewrite E. eauto.
  - destruct N4 as [E|E]; rewrite E; cbn [orb]; [eauto|]. rewrite E. eauto.
Qed.

Lemma cut_unreadable safe max saves w jobs q p r :
  save_all nbytes (new_writer safe None max) saves = (w, jobs) -> merged (map wf jobs) q ->
  q ++ finalize_ops w = p ++ r -> r <> [] ->
  exists f1, apply_all p [] = Ok f1 /\ unreadable f1.
Proof.
  intros Es Hm E Hr. destruct (pack _ _ _ _ _ Es) as [G Hp]. rewrite (pk_jobs _ _ _ _ _ _ Hp) in Hm.
  pose proof (pk_base _ _ _ _ _ _ Hp) as Hb.
  destruct (run_cut w G q [] p r Hm (pk_written _ _ _ _ _ _ Hp) E Hr) as (f1 & E1 & F1 & F2 & F3 & F4).
  exists f1. split; [exact E1|]. apply (no_model_unreadable f1 (w_safe w)).
  - unfold kind. rewrite <- (single_None w Hb). destruct (Nat.eq_dec (length G) 1) as [El|El]; [now rewrite F1|].
    rewrite F3; [reflexivity| | |].
    + intros Hin. apply in_map_iff in Hin as (i & Ei & _). now apply tmp_single in Ei.
    + intros Hin. apply in_map_iff in Hin as (i & Ei & _). unfold dest in Ei. destruct (Nat.eqb_spec (length G) 1); [contradiction|].
      now apply final_single in Ei.
    + intros Ei. unfold single_name, index_name in Ei. apply app_str_inj_l in Ei. apply app_str_inj_l in Ei. revert Ei.
      unfold ext_of. destruct (w_safe w); discriminate.
  - destruct (foreign_names w (length G) _ Hb (or_introl eq_refl)) as (A1 & A2 & A3). now rewrite F3.
  - destruct (foreign_names w (length G) _ Hb (or_intror eq_refl)) as (A1 & A2 & A3). now rewrite F3.
  - unfold kind. rewrite <- (index_None w Hb). destruct (Nat.lt_trichotomy (length G) 1) as [El|[El|El]].
    + left. destruct G; [|cbn in El; lia]. pose proof (pk_written _ _ _ _ _ _ Hp) as Hn. cbn in Hm.
      exfalso. inversion Hm as [? ? Hq|l1 ? ? ? ? ? Hq]; [|destruct l1; discriminate]. subst q.
      rewrite finalize_eq, Hn in E. unfold index_ops in E. rewrite Hn in E. cbn in E. symmetry in E. apply app_eq_nil in E as [_ E]. auto.
    + left. now rewrite F4.
    + destruct (F2 El) as [E2|E2]; rewrite E2; auto.
Qed.

(** a run in which a worker failed *)
Lemma failed_touches safe max saves f f' e : async_run nbytes safe None max saves f (Ok (f', Some e)) ->
  exists w jobs G, packed safe max saves w jobs G /\
    forall x, ~ In x (map (tmp_name w) (seq 0 (length G))) -> dget f' x = dget f x.
Proof.
  intros Hr. inversion Hr as [w jobs outs opss q Es Hw Hm E]. destruct (pack _ _ _ _ _ Es) as [G Hp].
  exists w, jobs, G. split; [exact Hp|].
  destruct (first_error outs) as [e'|] eqn:Ee; [|destruct (apply_all (q ++ finalize_ops w) f); discriminate].
  assert (Hops : forall o, In o q -> is_write o /\ In (target o) (map fst jobs)).
  { intros o Ho. destruct (merged_In _ _ _ Hm Ho) as (l & Hl & Ho'). eapply workers_ops; eauto. }
  destruct (writes_effect q f) as (f1 & E1 & F1).
  { apply Forall_forall. intros o Ho. now apply Hops. }
  rewrite E1 in E. cbn in E. injection E as <- _. intros x Hx. rewrite F1. apply eff_other.
  intros o Ho <-. apply Hx. destruct (Hops o Ho) as [_ Hin]. rewrite (pk_jobs _ _ _ _ _ _ Hp), jobs_names in Hin. exact Hin.
Qed.

Lemma failed_unreadable safe max saves f' e : async_run nbytes safe None max saves [] (Ok (f', Some e)) -> unreadable f'.
Proof.
  intros Hr. destruct (failed_touches _ _ _ _ _ _ Hr) as (w & jobs & G & Hp & F).
  pose proof (pk_base _ _ _ _ _ _ Hp) as Hb. apply (no_model_unreadable f' (w_safe w)).
  - unfold kind. rewrite <- (single_None w Hb). apply F. intros Hin. apply in_map_iff in Hin as (i & Ei & _). now apply tmp_single in Ei.
  - destruct (foreign_names w (length G) _ Hb (or_introl eq_refl)) as (A1 & A2 & A3). now rewrite F.
  - destruct (foreign_names w (length G) _ Hb (or_intror eq_refl)) as (A1 & A2 & A3). now rewrite F.
  - left. unfold kind. rewrite <- (index_None w Hb). apply F. intros Hin. apply in_map_iff in Hin as (i & Ei & _). now apply tmp_index in Ei.
Qed.

(** ** sizes *)
Lemma dset_bytes (d : dict string T) n t : bytes nbytes (dset d n t) <= bytes nbytes d + nbytes t /\ length (dset d n t) <= S (length d).
Proof.
  unfold bytes. induction d as [|[k v] d IH]; cbn; [lia|]. destruct (eqb n k); cbn; lia.
Qed.
Lemma dict_of_bytes (g : list (string * T)) : bytes nbytes (dict_of g) <= bytes nbytes g /\ length (dict_of g) <= length g.
Proof.
  induction g as [|[n t] g IH] using rev_ind; [cbn; lia|]. rewrite dict_of_snoc, bytes_app, app_length.
  pose proof (dset_bytes (dict_of g) n t). cbn. lia.
Qed.
End R.
