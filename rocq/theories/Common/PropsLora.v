(** C68: the cache of merged adapters. *)
From Coq Require Import NArith.
From Verif.Base Require Import Py PyFacts PyStr.
From Verif.Common Require Import Model Lora LoraProofs.
Local Open Scope string_scope.
Local Open Scope list_scope.

Section C68.
Context {C : Type}.
Variable produced : model_ref -> option string -> files C.
Notation history := (history produced).
Notation merged := (merged produced).

(** ** Specification *)
(** the directory a call uses, if it has an adapter to merge and a place for it *)
Definition uses (c : call) (path : string) : Prop :=
  exists lora dir, mr_lora (c_ref c) = Some lora /\ c_cache c = Some dir /\ dir <> "" /\ path = cache_path dir (mr_model (c_ref c)) lora.
Definition wanted (c : call) : files C := produced (c_ref c) (c_dtype c).
(** the first call that uses the directory, and how it went *)
Definition first_use (cs : list call) (path : string) (c : call) : Prop :=
  exists before after, cs = before ++ c :: after /\ uses c path /\ forall c', In c' before -> ~ uses c' path.

Definition used_path (c : call) : option string :=
  match mr_lora (c_ref c), c_cache c with Some l, Some dir => if eqb dir "" then None else Some (cache_path dir (mr_model (c_ref c)) l) | _, _ => None end.
Lemma used_path_iff c path : used_path c = Some path <-> uses c path.
Proof.
  unfold used_path, uses. destruct (mr_lora (c_ref c)) as [l|]; [|split; [discriminate|intros (? & ? & ? & _); discriminate]].
  destruct (c_cache c) as [dir|]; [|split; [discriminate|intros (? & ? & _ & ? & _); discriminate]].
  destruct (eqb_spec dir "") as [->|Hd].
  - split; [discriminate|]. intros (? & ? & _ & [= <-] & H & _). congruence.
  - split; [intros [= <-]; eauto 10|]. intros (? & ? & [= <-] & [= <-] & _ & ->). reflexivity.
Qed.
Lemma merged_eq st c : merged st c =
  match used_path c with
  | None => (st, match mr_lora (c_ref c) with None => Returned (c_ref c) | Some _ => Raised RuntimeError end)
  | Some out => if dmem st out then (st, Returned (plain_ref_to out))
                else (dset st out (left_by (c_attempt c) (wanted c)),
                      match c_attempt c with Completes => Returned (plain_ref_to out) | Raises _ e => Raised e | Dies _ => Dead end)
  end.
Proof.
  unfold Lora.merged, used_path. destruct (mr_lora (c_ref c)) as [l|]; [|reflexivity]. destruct (c_cache c) as [[|x dir]|]; reflexivity.
Qed.
Lemma merged_keeps st c path fs : dget st path = Some fs -> dget (fst (merged st c)) path = Some fs.
Proof.
  intros H. rewrite merged_eq. destruct (used_path c) as [out|]; [|exact H]. destruct (dmem st out) eqn:D; [exact H|]. cbn [fst].
  rewrite dget_dset_neq; [exact H|]. intros <-. apply dmem_nIn in D. apply D. apply dget_Some_key. eauto.
Qed.
Lemma history_keeps cs : forall st path fs, dget st path = Some fs -> dget (fst (history st cs)) path = Some fs.
Proof.
  induction cs as [|c cs IH]; intros st path fs H; [exact H|]. cbn [Lora.history]. apply (merged_keeps _ c) in H.
  destruct (merged st c) as [st1 o]. cbn [fst] in H. specialize (IH _ _ _ H). destruct (history st1 cs). exact IH.
Qed.

(** The first call that needs a directory decides what it holds; nothing changes it afterwards. *)
Theorem C68_first_use cs path :
  match dget (fst (history [] cs)) path with
  | Some fs => exists c, first_use cs path c /\ fs = left_by (c_attempt c) (wanted c)
  | None => forall c, In c cs -> ~ uses c path
  end.
Proof.
  assert (H : forall st, dget st path = None -> match dget (fst (history st cs)) path with
     | Some fs => exists c, first_use cs path c /\ fs = left_by (c_attempt c) (wanted c) | None => forall c, In c cs -> ~ uses c path end).
  { induction cs as [|c cs IH]; intros st Hst; cbn [Lora.history fst]; [rewrite Hst; easy|]. pose proof (merged_eq st c) as Em.
    destruct (merged st c) as [st1 o] eqn:E. destruct (dget st1 path) as [fs1|] eqn:G.
    - pose proof (history_keeps cs _ _ _ G) as Hk. destruct (history st1 cs) as [st2 os]. cbn [fst] in *. rewrite Hk. exists c.
      destruct (used_path c) as [out|] eqn:U; [|assert (st1 = st) by congruence; congruence].
      destruct (dmem st out) eqn:D; [assert (st1 = st) by congruence; congruence|]. assert (Es : st1 = dset st out (left_by (c_attempt c) (wanted c))) by congruence.
      rewrite Es, dget_dset in G. destruct (eqb_spec path out) as [->|Hn]; [|congruence]. apply used_path_iff in U.
      split; [|congruence]. exists [], cs. split; [reflexivity|]. split; [exact U|easy].
    - assert (Hu : ~ uses c path).
      { rewrite <- used_path_iff. intros U. rewrite U in Em. assert (D : dmem st path = false) by (apply dmem_nIn; now apply dget_None). rewrite D in Em.
        assert (Es : st1 = dset st path (left_by (c_attempt c) (wanted c))) by congruence. rewrite Es, dget_dset_eq in G. discriminate. }
      specialize (IH st1 G). destruct (history st1 cs) as [st2 os]. cbn [fst] in *. destruct (dget st2 path) as [fs|].
      + destruct IH as (c' & (b & a & -> & Hc' & Hb) & ->). exists c'. split; [|reflexivity]. exists (c :: b), a. split; [reflexivity|]. split; [exact Hc'|].
        intros x [<-|Hx]; auto.
      + intros x [<-|Hx]; auto. }
  now apply H.
Qed.

(** Every call gets the merge of its own model and adapter in its own dtype, provided no attempt failed and no two calls with
    different results use the same directory. *)
Theorem C68_own_merge cs c path :
  (forall c', In c' cs -> c_attempt c' = Completes) ->
  (forall c1 c2 p, In c1 cs -> In c2 cs -> uses c1 p -> uses c2 p -> wanted c1 = wanted c2) ->
  In c cs -> uses c path -> dget (fst (history [] cs)) path = Some (wanted c).
Proof.
  intros Ha Hw Hc Hu. pose proof (C68_first_use cs path) as H. destruct (dget (fst (history [] cs)) path) as [fs|].
  - destruct H as (c0 & (b & a & E & Hu0 & _) & ->). assert (H0 : In c0 cs) by (rewrite E; apply in_app_iff; right; now left).
    rewrite (Ha c0 H0). cbn [left_by]. f_equal. eauto.
  - exfalso. eapply H; eauto.
Qed.
(** and what a call returns is that directory, or the reference itself without an adapter. *)
Theorem C68_returns st c :
  (mr_lora (c_ref c) = None /\ merged st c = (st, Returned (c_ref c))) \/
  (mr_lora (c_ref c) <> None /\ (c_cache c = None \/ c_cache c = Some "") /\ merged st c = (st, Raised RuntimeError)) \/
  (exists path, uses c path /\ dget (fst (merged st c)) path <> None /\
     (snd (merged st c) = Returned (plain_ref_to path) <-> dget st path <> None \/ c_attempt c = Completes)).
Proof.
  rewrite merged_eq. destruct (used_path c) as [out|] eqn:U.
  - right; right. exists out. split; [now apply used_path_iff|]. destruct (dmem st out) eqn:D.
    + apply dmem_In, dget_Some_key in D as (fs & D). cbn [fst snd]. rewrite D. split; [easy|]. split; [intros _; now left|reflexivity].
    + cbn [fst snd]. rewrite dget_dset_eq. split; [easy|]. apply dmem_nIn in D. apply dget_None in D. rewrite D. destruct (c_attempt c); split; intros H; try easy; try (now right); now destruct H.
  - unfold used_path in U. destruct (mr_lora (c_ref c)) as [l|]; [|left; auto]. right; left. split; [easy|]. split; [|reflexivity].
    destruct (c_cache c) as [[|x d]|]; auto. discriminate.
Qed.

(** ** What is wrong *)
(** An attempt that fails leaves its directory behind, and every later call takes it for the finished merge. *)
Theorem C68_failure_kept_refuted cs c path later n e :
  (forall c', In c' cs -> ~ uses c' path) -> uses c path -> c_attempt c = Raises n e \/ c_attempt c = Dies n ->
  forall c', In c' later -> uses c' path ->
  merged (fst (history [] (cs ++ c :: later))) c' = (fst (history [] (cs ++ c :: later)), Returned (plain_ref_to path)) /\
  dget (fst (history [] (cs ++ c :: later))) path = Some (firstn n (wanted c)).
Proof.
  intros Hcs Hc Ha c' _ Hu'. pose proof (C68_first_use (cs ++ c :: later) path) as H. destruct (dget (fst (history [] (cs ++ c :: later))) path) as [fs|] eqn:G.
  - destruct H as (c0 & (b & a & E & Hu0 & Hb) & ->). assert (c0 = c).
    { clear -E Hcs Hc Hu0 Hb. revert b E Hb. induction cs as [|x cs IH]; intros [|y b] E Hb; cbn in E.
      - congruence.
      - injection E as <- _. exfalso. apply (Hb c); [now left|exact Hc].
      - injection E as <- _. exfalso. apply (Hcs x); [now left|exact Hu0].
      - injection E as -> E. apply (IH (fun c' Hc' => Hcs c' (or_intror Hc')) b E). intros z Hz. apply Hb. now right. }
    subst c0. split.
    + rewrite merged_eq. apply used_path_iff in Hu'. rewrite Hu'. assert (D : dmem (fst (history [] (cs ++ c :: later))) path = true) by (apply dmem_In, dget_Some_key; eauto).
      now rewrite D.
    + destruct Ha as [-> | ->]; reflexivity.
  - exfalso. apply (H c); [apply in_app_iff; right; now left|exact Hc].
Qed.

(** The directory depends neither on the dtype nor on the architecture override: whoever asks first decides for all. *)
Theorem C68_dtype_refuted c c' path : uses c path -> c_attempt c = Completes ->
  mr_model (c_ref c') = mr_model (c_ref c) -> mr_lora (c_ref c') = mr_lora (c_ref c) -> c_cache c' = c_cache c ->
  snd (history [] [c; c']) = [Returned (plain_ref_to path); Returned (plain_ref_to path)] /\
  dget (fst (history [] [c; c'])) path = Some (wanted c).
Proof.
  intros Hu Ha Hm Hl Hc. assert (Hu' : uses c' path) by (destruct Hu as (l & d & H); exists l, d; now rewrite Hm, Hl, Hc).
  apply used_path_iff in Hu, Hu'. cbn [Lora.history].
  assert (E1 : merged [] c = (dset [] path (wanted c), Returned (plain_ref_to path))) by (rewrite merged_eq, Hu, Ha; reflexivity). rewrite E1.
  assert (E2 : merged (dset [] path (wanted c)) c' = (dset [] path (wanted c), Returned (plain_ref_to path))).
  { rewrite merged_eq, Hu'. assert (D : dmem (dset [] path (wanted c)) path = true) by (apply dmem_In, dget_Some_key; rewrite dget_dset_eq; eauto). now rewrite D. }
  rewrite E2. cbn [fst snd]. split; [reflexivity|]. now rewrite dget_dset_eq.
Qed.
End C68.

(** ** The names of the directories *)
(** Names that differ only in a stretch of at most four characters (two checkpoints of a run, two revisions, ...) never share a
    directory, whether it is the model or the adapter that differs. *)
Theorem C68_close_names dir m m' l l' pre x y post : String.length x = String.length y -> (String.length x <= 4)%nat -> x <> y ->
  (l = l' /\ str_path m = (pre ++ x ++ post)%string /\ str_path m' = (pre ++ y ++ post)%string) \/
  (m = m' /\ str_path l = (pre ++ x ++ post)%string /\ str_path l' = (pre ++ y ++ post)%string) ->
  cache_path dir m l <> cache_path dir m' l'.
Proof.
  intros Hl H4 Hne Hcase H. unfold cache_path in H. apply join_inj in H. apply (crc32_burst pre x y post Hl H4 Hne).
  destruct Hcase as [(-> & <- & <-)|(-> & <- & <-)].
  - apply app_str_inj_r in H. now apply unique_id_inj.
  - apply app_str_inj_l in H. apply unique_id_inj. cbn in H. now injection H.
Qed.
Example C68_close_names_nonvacuous : let m r := {| mp_path := "org/model"; mp_revision := Some r |} in
  str_path (m "step-1000") = ("org/model@step-" ++ "1000" ++ "")%string /\ str_path (m "step-2500") = ("org/model@step-" ++ "2500" ++ "")%string.
Proof. split; reflexivity. Qed.

(** Two models can share an identifier: same last component, same checksum. *)
Definition twin1 : model_path := {| mp_path := "nidmovh/model"; mp_revision := None |}.
Definition twin2 : model_path := {| mp_path := "bubanxn/model"; mp_revision := None |}.
Definition adapter : model_path := {| mp_path := "me/adapter"; mp_revision := Some "v1" |}.
Definition twin_call (m : model_path) : call :=
  {| c_ref := {| mr_model := m; mr_lora := Some adapter; mr_arch := None |}; c_cache := Some "/cache"; c_dtype := None; c_attempt := Completes |}.
Theorem C68_collision_refuted : twin1 <> twin2 /\ unique_id twin1 = unique_id twin2 /\
  let produced := fun r (_ : option string) => [("model.safetensors", mp_path (mr_model r))] in
  exists path, snd (history produced [] [twin_call twin1; twin_call twin2]) = [Returned (plain_ref_to path); Returned (plain_ref_to path)] /\
    dget (fst (history produced [] [twin_call twin1; twin_call twin2])) path = Some [("model.safetensors", "nidmovh/model")].
Proof.
  split; [discriminate|]. split; [vm_compute; reflexivity|]. cbv zeta. eexists. split; [vm_compute; reflexivity|]. vm_compute. reflexivity.
Qed.

Example C68_crc_check : crc32 "123456789" = 3421780262%Z /\ unique_id {| mp_path := "org/my-model"; mp_revision := Some "main" |} = "my-model_1223741432".
Proof. split; vm_compute; reflexivity. Qed.
Example C68_nonvacuous :
  let produced := fun r (d : option string) => [("config.json", "c"); ("model.safetensors", mp_path (mr_model r))] in
  let c m := {| c_ref := {| mr_model := m; mr_lora := Some adapter; mr_arch := None |}; c_cache := Some "/cache"; c_dtype := None; c_attempt := Completes |} in
  let a := {| mp_path := "org/a"; mp_revision := None |} in let b := {| mp_path := "org/b"; mp_revision := None |} in
  uses (c a) "/cache/a_2034748304_adapter_1959518004" /\
  snd (history produced [] [c a; c b; c a]) =
  [Returned (plain_ref_to "/cache/a_2034748304_adapter_1959518004"); Returned (plain_ref_to "/cache/b_3763247658_adapter_1959518004");
   Returned (plain_ref_to "/cache/a_2034748304_adapter_1959518004")].
Proof. cbv zeta. split; [exists adapter, "/cache"; repeat split; vm_compute; congruence|vm_compute; reflexivity]. Qed.

Print Assumptions C68_first_use.
Print Assumptions C68_own_merge.
Print Assumptions C68_returns.
Print Assumptions C68_close_names.
Print Assumptions C68_failure_kept_refuted.
Print Assumptions C68_dtype_refuted.
Print Assumptions C68_collision_refuted.
