(** C38-C40: mergekit-multi. *)
From Coq Require Import Relations.
From Verif.Base Require Import Py PyFacts PyStr.
From Verif.Common Require Import Model Spec.
From Verif.Graph Require Import Model Spec UniverseProofs ExecProofs Proofs.
From Verif.IO Require Model Spec.
From Verif.Multimerge Require Import Model Spec DfsProofs PatchProofs LazyProofs.
Local Open Scope string_scope.
Local Open Scope list_scope.

(** ** C38 *)
(** loading: one configuration and one set of used merges per document; the used merges are documents.  Two documents
    with the same name (or two without) are rejected before anything else. *)
Lemma load_names_spec docs : forall seen, match load_names docs seen with
  | Ok configs => NoDup (dkeys seen) -> NoDup (dkeys configs) /\ dkeys configs = dkeys seen ++ map fst docs
  | Err e => e = ValueError /\ (NoDup (dkeys seen) -> ~ NoDup (dkeys seen ++ map fst docs))
  end.
Proof.
  induction docs as [|[n c] docs IH]; intros seen; cbn [load_names map fst].
  - intros H. rewrite app_nil_r. auto.
  - destruct (dmem seen n) eqn:E.
    + split; [reflexivity|]. intros _ H. apply dmem_In in E. apply NoDup_remove_2 in H. apply H, in_or_app. auto.
    + apply dmem_nIn in E. specialize (IH (dset seen n c)).
      assert (Ek : dkeys (dset seen n c) = dkeys seen ++ [n]) by (rewrite dset_fresh by exact E; unfold dkeys; rewrite map_app; reflexivity).
      assert (Hn : NoDup (dkeys seen) -> NoDup (dkeys (dset seen n c))) by apply dkeys_dset_NoDup.
      destruct (load_names docs (dset seen n c)) as [configs|e].
      * intros H. destruct (IH (Hn H)) as [H1 H2]. split; [exact H1|]. rewrite H2, Ek, <- app_assoc. reflexivity.
      * destruct IH as [-> IH]. split; [reflexivity|]. intros H. specialize (IH (Hn H)). rewrite Ek, <- app_assoc in IH. exact IH.
Qed.

Theorem C38_load docs dir :
  (~ NoDup (map fst docs) -> load_config docs dir = Err ValueError) /\
  (forall configs deps, load_config docs dir = Ok (configs, deps) ->
     NoDup (dkeys configs) /\ dkeys configs = map fst docs /\ dkeys deps = map fst docs /\
     forall n, In n (map fst docs) -> exists ds, dget deps n = Some ds /\ NoDup ds /\ forall d, In d ds -> In (Some d) (map fst docs)).
Proof.
  unfold load_config. pose proof (load_names_spec docs []) as Hl. split.
  - intros Hd. destruct (load_names docs []) as [cs|e]; cbn [rbind].
    + destruct Hl as [H1 H2]; [constructor|]. change (dkeys cs = map fst docs) in H2. rewrite <- H2 in Hd. contradiction.
    + destruct Hl as [-> _]. reflexivity.
  - intros configs deps. destruct (load_names docs []) as [cs|e]; cbn [rbind]; [|discriminate].
    destruct Hl as [H1 H2]; [constructor|]. change (dkeys cs = map fst docs) in H2.
    assert (Hns : forall s, In s (somes (dkeys cs)) -> In (Some s) (map fst docs)).
    { intros s Hs. apply in_flat_map in Hs as ([s'|] & Hs & Hs'); [|destruct Hs']. destruct Hs' as [<-|[]]. rewrite <- H2. exact Hs. }
    revert Hns. generalize (somes (dkeys cs)) as names. intros names Hns.
    match goal with |- context[rmapM ?g cs] => destruct (rmapM g cs) as [pd|e] eqn:Er end; cbn [rbind]; [|discriminate].
    apply rmapM_Ok_Forall2 in Er. intros [= <- <-].
    assert (Hk : map fst pd = map fst cs).
    { clear -Er. induction Er as [|x y l l' Hxy _ IH]; [reflexivity|]. cbn. f_equal; [|exact IH].
      destruct (patch names dir (snd x)); cbn in Hxy; [|discriminate]. injection Hxy as <-. reflexivity. }
    assert (Ek : forall V (h : mname * (val * list string) -> V), dkeys (map (fun nr => (fst nr, h nr)) pd) = map fst cs).
    { intros V h. unfold dkeys. rewrite map_map. cbn [fst]. exact Hk. }
    rewrite !Ek. split; [exact H1|]. split; [exact H2|]. split; [exact H2|].
    intros n Hn. rewrite <- H2 in Hn.
    assert (Hpn : In n (map fst pd)) by (rewrite Hk; exact Hn). apply in_map_iff in Hpn as ([n' [c u]] & En & Hin). cbn in En. subst n'.
    exists u. split.
    + apply dget_In_NoDup; [rewrite Ek; exact H1|]. apply in_map_iff. exists (n, (c, u)). auto.
    + clear -Er Hin Hns. induction Er as [|x y l l' Hxy _ IH]; [destruct Hin|]. destruct Hin as [->|Hin]; [|apply IH, Hin]. clear IH.
      destruct (patch names dir (snd x)) as [[c' u']|] eqn:Ep; cbn [rbind fst snd] in Hxy; [|discriminate].
      assert (Eu : dedup u' = u) by congruence. rewrite <- Eu.
      split; [apply dedup_NoDup|]. intros d Hd. apply (proj1 (dedup_In _ _)) in Hd. apply Hns, (patch_used _ _ _ _ _ Ep), Hd.
Qed.

(** building the tasks: rejected with ValueError exactly when a requested merge has a circular dependency; otherwise one
    task per requested merge, whose arguments are the tasks of the merges it uses. *)
Definition requested (configs : list mname) (out_path : bool) : list mname :=
  filter (fun n => match n with Some _ => true | None => out_path end) configs.
Definition well_formed (configs : list mname) (deps : dict mname (list string)) : Prop :=
  forall n, In n configs -> exists ds, dget deps n = Some ds /\ NoDup ds /\ forall d, In d ds -> In (Some d) configs.

Theorem C38_rejects_cycles configs deps out_path : well_formed configs deps ->
  (make_tasks configs deps out_path = Err ValueError /\ circular deps (requested configs out_path)) \/
  (exists ts, make_tasks configs deps out_path = Ok ts /\ ~ circular deps (requested configs out_path) /\
              Forall2 (tree_of deps) (requested configs out_path) ts).
Proof.
  intros Hw. pose proof (make_all_spec configs deps Hw (requested configs out_path) ([], [])) as H.
  unfold make_tasks. fold (requested configs out_path).
  destruct (make_all configs deps (requested configs out_path) ([], [])) as [ts|e].
  - right. exists ts. assert (HF : Forall2 (tree_of deps) (requested configs out_path) ts).
    { apply H; [|intros n Hn; apply filter_In in Hn; apply Hn]. constructor; cbn; try congruence; try constructor; tauto. }
    split; [reflexivity|]. split; [exact (tree_not_circular deps _ _ HF) | exact HF].
  - left. destruct H as [-> Hc]; [constructor; cbn; try congruence; try constructor; tauto | intros n Hn; apply filter_In in Hn; apply Hn|]. auto.
Qed.

(** the names of the merges in the order in which they run *)
Definition ran {V} (u : universe mname) (evs : list (event V)) : list mname :=
  map (fun h => match nth_error (u_tasks u) h with Some t => label t | None => None end) (executed evs).

(** running: no merge runs twice, only requested merges run, every merge runs after the merges it uses, and all
    requested merges run unless one raises.  For any tie-breaking [choose] and any behaviour [S] of the merges. *)
Theorem C38_order {V} configs deps out_path ts (A : attrs mname) (S : semantics mname V) choose :
  well_formed configs deps -> make_tasks configs deps out_path = Ok ts ->
  let r := executor_run_tasks A S choose ts in
  let order := ran (fst r) (fst (snd r)) in
  NoDup order /\
  (forall n, In n order -> In n (requested configs out_path)) /\
  (snd (snd r) = None -> forall n, In n (requested configs out_path) -> In n order) /\
  (forall l1 n l2 ds d, order = l1 ++ n :: l2 -> dget deps n = Some ds -> In d ds -> In (Some d) l1).
Proof.
  intros Hw Hm. destruct (C38_rejects_cycles configs deps out_path Hw) as [[H _]|(ts' & H & _ & HF)]; [congruence|].
  rewrite Hm in H. injection H as <-. set (req := requested configs out_path) in *.
  assert (Hreq : forall n, In n req -> In n configs) by (intros n Hn; apply filter_In in Hn; apply Hn).
  assert (Hwf : Forall wf_task ts).
  { assert (Hr : forall n, In n req -> In n configs) by exact Hreq. clear -HF Hr Hw. induction HF as [|n t l l' Ht _ IH]; constructor.
    - exact (tree_wf configs deps Hw n t (Hr n (or_introl eq_refl)) Ht).
    - apply IH. intros; apply Hr; right; assumption. }
  destruct (run_tasks_good (V := V) ts Hwf) as (hs & E & HF2 & HG). unfold executor_run_tasks. rewrite E. cbn [fst snd].
  set (u := add_tasks ts empty_universe) in *. set (res := executor_run A S choose u hs []).
  assert (Htree : forall h, In h (executed (fst res)) -> exists t n, names u h t /\ tree_of deps n t /\ In n configs /\ In n req).
  { intros h Hh. pose proof (executed_lt A S choose u hs [] no_env HG h Hh) as Hlt. destruct (lt_names u h Hlt) as [t Ht].
    destruct (run_executed_needed A S choose u hs [] no_env HG h t Ht Hh) as (ht & tt & Hht & Hntt & Hneed).
    assert (exists n0, In n0 req /\ tree_of deps n0 tt) as (n0 & Hn0 & Ht0).
    { clearbody u. clear -HF HF2 Hht Hntt. revert hs HF2 Hht. induction HF as [|n t l l' Hnt _ IH]; intros hs HF2 Hht; inversion HF2; subst; [destruct Hht|].
      destruct Hht as [<-|Hht].
      - assert (t = tt) by (unfold names in *; congruence). subst. exists n. split; [left; reflexivity | exact Hnt].
      - destruct (IH _ H3 Hht) as (n0 & ? & ?). exists n0. split; [right; assumption | assumption]. }
    destruct (tree_needs configs deps Hw _ n0 tt t (Hreq n0 Hn0) Ht0 Hneed) as (m & Hr & Hmc & Hmt).
    exists t, m. split; [exact Ht|]. split; [exact Hmt|]. split; [exact Hmc|].
    assert (Hstep : forall x y, reaches deps x y -> In x req -> In x configs -> In y req).
    { intros x y Hxy. induction Hxy as [x y (ds & d & Hd & Hind & ->)|x|x y z H1 IH1 H2 IH2]; intros Hx Hxc; [|exact Hx|].
      - destruct (Hw x Hxc) as (ds' & Hd' & _ & Hsub). rewrite Hd in Hd'. injection Hd' as <-. apply filter_In. split; [apply Hsub, Hind | reflexivity].
      - apply IH2; [|apply Hreq]; apply IH1; assumption. }
    exact (Hstep n0 m Hr Hn0 (Hreq n0 Hn0)). }
  assert (Hlab : forall h t n, names u h t -> tree_of deps n t ->
     match nth_error (u_tasks u) h with Some t => label t | None => None end = n).
  { intros h t n Hn Ht. unfold names in Hn. rewrite Hn. exact (tree_label deps n t Ht). }
  split; [|split; [|split]].
  - unfold ran. assert (HN : NoDup (executed (fst res))) by (exact (run_executed_once A S choose u hs [] no_env HG)).
    assert (Hinj : forall h h', In h (executed (fst res)) -> In h' (executed (fst res)) ->
      match nth_error (u_tasks u) h with Some t => label t | None => None end =
      match nth_error (u_tasks u) h' with Some t => label t | None => None end -> h = h').
    { intros h h' Hh Hh' El. destruct (Htree h Hh) as (t & n & Hn & Ht & _). destruct (Htree h' Hh') as (t' & n' & Hn' & Ht' & _).
      rewrite (Hlab h t n Hn Ht), (Hlab h' t' n' Hn' Ht') in El. subst n'. pose proof (tree_fun deps n t Ht t' Ht') as <-.
      eapply names_inj; [|eassumption|eassumption]. exact (inv_nodup _ _ (g_wf _ _ _ _ HG)). }
    revert HN Hinj. generalize (executed (fst res)). intros l. induction l as [|h l IH]; intros HN Hinj; [constructor|].
    inversion HN as [|? ? Hh HN']; subst. cbn. constructor.
    + intros Hin. apply in_map_iff in Hin as (h' & E' & Hh'). apply Hh. rewrite (Hinj h h'); [exact Hh' | left; reflexivity | right; exact Hh' | symmetry; exact E'].
    + apply IH; [exact HN'|]. intros a b Ha Hb. apply Hinj; right; assumption.
  - intros n Hn. unfold ran in Hn. apply in_map_iff in Hn as (h & <- & Hh). destruct (Htree h Hh) as (t & n & Hn & Ht & _ & Hr).
    rewrite (Hlab h t n Hn Ht). exact Hr.
  - intros Hok n Hn. assert (exists t h, tree_of deps n t /\ names u h t /\ In h hs) as (t & h & Ht & Hh & Hin).
    { clearbody u. clear -HF HF2 Hn. revert hs HF2. induction HF as [|n0 t l l' Hnt _ IH]; intros hs HF2; inversion HF2; subst; [destruct Hn|].
      destruct Hn as [->|Hn]; [exists t, y; split; [exact Hnt|]; split; [assumption | left; reflexivity]|].
      destruct (IH Hn _ H3) as (t1 & h1 & ? & ? & ?). exists t1, h1. split; [assumption|]. split; [assumption | right; assumption]. }
    unfold ran. apply in_map_iff. exists h. split; [exact (Hlab h t n Hh Ht)|].
    apply (run_needed_executed A S choose u hs [] no_env HG h t Hok Hh). exists h, t. split; [exact Hin|]. split; [exact Hh|].
    apply needs_self. intros Hc. apply Hc. reflexivity.
  - intros l1 n l2 ds d El Hd Hin. unfold ran in El. apply map_eq_app in El as (h1 & hr & Eh & <- & Er).
    apply map_eq_cons in Er as (h & h2 & -> & En & _). cbn in En.
    destruct (Htree h) as (t & n' & Hnh & Ht & _); [fold res in Eh; rewrite Eh; apply in_elt|].
    rewrite (Hlab h t n' Hnh Ht) in En. subst n'.
    destruct (tree_edge deps n t (Some d) Ht) as (t' & d' & [= <-] & Hargs & Ht'); [exists ds, d; auto|].
    destruct (names_closed u h t d t' (g_wf _ _ _ _ HG) Hnh Hargs) as [j Hj].
    destruct (run_executed_order A S choose u hs [] no_env HG h1 h h2 j Eh) as [[]|Hjin].
    { exists t, d, t'. auto. }
    apply in_map_iff. exists j. split; [exact (Hlab j t' (Some d) Hj Ht') | exact Hjin].
Qed.

(** ** C39 *)
(** In a configuration whose other strings cannot be taken for a merge, patching the dump is the same as replacing the
    references that name a merge and dumping; the names reported are exactly the merges referred to.  Reading the result
    gives the configuration with the replaced references, if the working directory contains no '@' and no '+'.
    Missing: configurations where another string is taken for a reference (refuted below). *)
Theorem C39_patch_partial names wd c : distinct_from names c ->
  exists used, patch names wd (dump c) = Ok (dump (subst names wd c), used) /\
    (forall n, In n used <-> exists r, occurs r c /\ mp_path (mr_model r) = n /\ In n names) /\
    (free "@" wd -> free "+" wd -> reads (dump (subst names wd c)) (subst names wd c)).
Proof.
  intros H. destruct (patch_dump names wd c H) as (used & E & Hu). exists used. split; [exact E|]. split; [exact Hu|].
  intros H1 H2. apply reads_subst; assumption.
Qed.
(** in particular a configuration that refers to no merge is unchanged *)
Theorem C39_untouched names wd c : distinct_from names c ->
  (forall r, occurs r c -> ~ In (mp_path (mr_model r)) names) -> patch names wd (dump c) = Ok (dump c, []).
Proof.
  intros H Hn. destruct (patch_dump names wd c H) as (used & E & Hu). rewrite E.
  assert (used = []) as ->.
  { destruct used as [|n l]; [reflexivity|]. destruct (proj1 (Hu n) (or_introl eq_refl)) as (r & Ho & <- & Hin). destruct (Hn r Ho Hin). }
  f_equal. f_equal. f_equal. clear -Hn. induction c as [r|s|z|l IH|d IH] using cfg_ind'; cbn; try reflexivity.
  - rewrite (proj2 (mem_nIn _ _)); [reflexivity|]. apply Hn. constructor.
  - f_equal. rewrite <- (map_id l) at 2. apply map_ext_in. intros c Hc. apply IH; [exact Hc|]. intros r Hr. apply Hn. econstructor; eassumption.
  - f_equal. rewrite <- (map_id d) at 2. apply map_ext_in. intros [k c] Hc. cbn. f_equal. eapply IH; [exact Hc|]. intros r Hr. apply Hn. econstructor; eassumption.
Qed.

Definition mref (p : string) : model_ref := {| mr_model := {| mp_path := p; mp_revision := None |}; mr_lora := None; mr_arch := None |}.
(** a merge named like an ordinary string of the configuration: the string is rewritten *)
Theorem C39_other_strings_refuted : exists names wd c used,
  patch names wd (dump c) = Ok (VDict [("merge_method", VStr "linear"); ("tokenizer_source", VStr "out/union")], used) /\
  c = CDict [("merge_method", CStr "linear"); ("tokenizer_source", CStr "union")] /\ used = ["union"].
Proof. exists ["union"], "out", (CDict [("merge_method", CStr "linear"); ("tokenizer_source", CStr "union")]), ["union"]. vm_compute. auto. Qed.
(** a chat template with two '+' makes the command fail *)
Theorem C39_plus_in_string_refuted : exists names wd,
  patch names wd (dump (CDict [("chat_template", CStr "a + b + c")])) = Err RuntimeError.
Proof. exists [], "out". vm_compute. reflexivity. Qed.
(** a working directory with '+' in its name: the reference is read back as another one *)
Theorem C39_directory_refuted : exists r, patch ["a"] "x+y" (dump (CRef (mref "a"))) = Ok (VStr "x+y/a", ["a"]) /\
  parse_ref "x+y/a" = Ok r /\ mp_path (mr_model r) = "x" /\ mr_lora r = Some {| mp_path := "y/a"; mp_revision := None |}.
Proof. exists {| mr_model := {| mp_path := "x"; mp_revision := None |}; mr_lora := Some {| mp_path := "y/a"; mp_revision := None |}; mr_arch := None |}. vm_compute. auto. Qed.

(** ** C40 *)
Section C40.
Context {T : Type} (nbytes : T -> nat).
(** Over any number of attempts, each dying at any point: if the check passes, the weights are complete.
    Missing: configuration and tokenizer files (refuted below). *)
Theorem C40_weights_partial safe max saves w jobs card extra f :
  saves <> [] -> (safe = true \/ ~ In "state_dict" (map fst saves)) ->
  IO.Model.save_all nbytes (IO.Model.new_writer safe None max) saves = (w, jobs) ->
  (forall n, In n extra -> model_like n = false) ->
  left_behind w jobs card extra f -> already_there f = true -> IO.Spec.loads f saves.
Proof. intros H1 H2 H3 H4. apply (lazy_skip_loads nbytes safe max saves w jobs card extra H1 H2 H3 H4). Qed.
(** an attempt that runs to the end is recognised as finished, and everything is there *)
Theorem C40_finished safe max saves w jobs card extra f q f' :
  saves <> [] -> (safe = true \/ ~ In "state_dict" (map fst saves)) ->
  IO.Model.save_all nbytes (IO.Model.new_writer safe None max) saves = (w, jobs) ->
  (forall n, In n extra -> model_like n = false) ->
  left_behind w jobs card extra f -> already_there f = false ->
  IO.Model.merged (map (fun j => IO.Model.write_file (fst j) (snd j)) jobs) q ->
  IO.Model.apply_all ((q ++ IO.Model.finalize_ops w) ++ after_ops card extra) f = Ok f' ->
  already_there f' = true /\ IO.Spec.loads f' saves /\
  dget f' "config.json" = Some IO.Model.FOther /\ (forall n, In n extra -> dget f' n = Some IO.Model.FOther).
Proof.
  intros H1 H2 H3 H4 Hl Ha Hm E. destruct (lazy_done nbytes safe max saves w jobs card extra H1 H2 H3 H4 f q f' Hl Ha Hm E) as (A & B & C).
  split; [exact A|]. split; [exact C|]. split; [apply B; left; reflexivity|].
  intros n Hn. apply B. right. apply in_or_app. auto.
Qed.
End C40.

(** an attempt that dies while config.json is being written, or before the tokenizer is: the next one skips the merge *)
Definition one_save : list (string * nat) := [("w", 3)].
Definition sz1 (n : nat) : nat := n.
Definition w1 := fst (IO.Model.save_all sz1 (IO.Model.new_writer true None 10%Z) one_save).
Definition j1 := snd (IO.Model.save_all sz1 (IO.Model.new_writer true None 10%Z) one_save).
Definition all1 : list (IO.Model.op nat) := (flat_map (fun j => IO.Model.write_file (fst j) (snd j)) j1 ++ IO.Model.finalize_ops w1) ++ after_ops false ["tokenizer.json"].
Definition dir1 k : IO.Model.fs nat := match IO.Model.apply_all (firstn k all1) [] with Ok f => f | Err _ => [] end.
Lemma dir1_left k : k <= 7 -> left_behind w1 j1 false ["tokenizer.json"] (dir1 k).
Proof.
  intros Hk. apply (lb_run w1 j1 false ["tokenizer.json"] [] (flat_map (fun j => IO.Model.write_file (fst j) (snd j)) j1) (firstn k all1) (skipn k all1) _ (lb_empty _ _ _ _)); [reflexivity| | |].
  - rewrite flat_map_concat_map. apply IO.FsProofs.merged_seq.
  - symmetry. apply firstn_skipn.
  - unfold dir1. do 8 (destruct k as [|k]; [reflexivity|]). lia.
Qed.
Theorem C40_config_refuted : exists w jobs extra f, left_behind (T := nat) w jobs false extra f /\ already_there f = true /\
  dget f "config.json" = Some IO.Model.FPartial.
Proof. exists w1, j1, ["tokenizer.json"], (dir1 4). split; [apply dir1_left; lia|]. split; reflexivity. Qed.
Theorem C40_tokenizer_refuted : exists w jobs extra f, left_behind (T := nat) w jobs false extra f /\ already_there f = true /\
  In "tokenizer.json" extra /\ dget f "tokenizer.json" = None.
Proof. exists w1, j1, ["tokenizer.json"], (dir1 5). split; [apply dir1_left; lia|]. split; [reflexivity|]. split; [left|]; reflexivity. Qed.

(** ** Examples *)
Definition cref (p : string) : cfg := CDict [("model", CRef (mref p)); ("parameters", CDict [("weight", CAtom 1)])].
Definition doc (name : mname) (ps : list string) : mname * val :=
  (name, dump (CDict [("merge_method", CStr "linear"); ("models", CList (map cref ps))])).
Definition two_step := [doc (Some "final") ["mix"; "org/c"; "other"]; doc (Some "mix") ["org/a"; "other"]; doc (Some "other") ["org/a"; "org/b"]].
Example C38_nonvacuous :
  (exists configs deps ts, load_config two_step "/w" = Ok (configs, deps) /\ make_tasks (dkeys configs) deps false = Ok ts /\
     length ts = 3 /\ deps = [(Some "final", ["mix"; "other"]); (Some "mix", ["other"]); (Some "other", [])]) /\
  (exists configs deps, load_config [doc (Some "a") ["b"]; doc (Some "b") ["a"]] "/w" = Ok (configs, deps) /\
     make_tasks (dkeys configs) deps true = Err ValueError) /\
  load_config [doc None ["b"]; doc None ["a"]] "/w" = Err ValueError.
Proof.
  split; [|split].
  - exists (match load_config two_step "/w" with Ok (c, _) => c | _ => [] end), (match load_config two_step "/w" with Ok (_, d) => d | _ => [] end).
    exists (match make_tasks (map fst two_step) (match load_config two_step "/w" with Ok (_, d) => d | _ => [] end) false with Ok ts => ts | _ => [] end).
    split; [vm_compute; reflexivity|]. split; [vm_compute; reflexivity|]. split; vm_compute; reflexivity.
  - exists (match load_config [doc (Some "a") ["b"]; doc (Some "b") ["a"]] "/w" with Ok (c, _) => c | _ => [] end).
    exists (match load_config [doc (Some "a") ["b"]; doc (Some "b") ["a"]] "/w" with Ok (_, d) => d | _ => [] end).
    split; vm_compute; reflexivity.
  - vm_compute. reflexivity.
Qed.
Local Ltac nolora := intros HK; pose proof (proj2 (HK "lora") (or_intror (or_introl eq_refl))) as Hl; cbn in Hl; intuition discriminate.
Example C39_nonvacuous : exists v, distinct_from ["mix"; "other"] (CDict [("merge_method", CStr "linear"); ("models", CList (map cref ["mix"; "org/c"; "my model"]))]) /\
  patch ["mix"; "other"] "/w" (dump (CDict [("merge_method", CStr "linear"); ("models", CList (map cref ["mix"; "org/c"]))])) = Ok (v, ["mix"]) /\
  v = dump (CDict [("merge_method", CStr "linear"); ("models", CList (map cref ["/w/mix"; "org/c"]))]).
Proof.
  exists (dump (CDict [("merge_method", CStr "linear"); ("models", CList (map cref ["/w/mix"; "org/c"]))])). split; [|split; [vm_compute; reflexivity | reflexivity]].
  assert (Hs : forall s r, parse_ref s = Ok r -> mem (mp_path (mr_model r)) ["mix"; "other"] = false -> distinct_from ["mix"; "other"] (CStr s)).
  { intros s r E Hm. econstructor; [exact E | apply mem_nIn, Hm]. }
  assert (Hc : forall r, plain_ref r \/ (exists r', serialize r = DFields r') -> distinct_from ["mix"; "other"] (CDict [("model", CRef r); ("parameters", CDict [("weight", CAtom 1)])])).
  { intros r Hr. constructor; [nolora|]. intros k c [[= <- <-]|[[= <- <-]|[]]]; [constructor; exact Hr|].
    constructor; [nolora|]. intros k c [[= <- <-]|[]]. constructor. }
  constructor; [nolora|]. intros k c [[= <- <-]|[[= <- <-]|[]]]; [eapply Hs; [reflexivity|reflexivity]|].
  constructor. cbn [map]. intros c [<-|[<-|[<-|[]]]]; apply Hc.
  - left. repeat split.
  - left. unfold mref, plain_ref, plain_path. cbn. repeat split.
  - right. eexists. reflexivity.
Qed.
Example C40_nonvacuous : left_behind w1 j1 false ["tokenizer.json"] (dir1 7) /\ already_there (dir1 7) = true /\
  left_behind w1 j1 false ["tokenizer.json"] (dir1 3) /\ already_there (dir1 3) = false /\ dkeys (dir1 3) = ["model.safetensors"].
Proof. split; [apply dir1_left; lia|]. split; [reflexivity|]. split; [apply dir1_left; lia|]. split; reflexivity. Qed.

Print Assumptions C38_load.
Print Assumptions C38_rejects_cycles.
Print Assumptions C38_order.
Print Assumptions C39_patch_partial.
Print Assumptions C39_untouched.
Print Assumptions C40_weights_partial.
Print Assumptions C40_finished.
