(** C94: what a run of mergekit-pytorch writes. *)
From Coq Require Import QArith Permutation.
From Verif.Base Require Import Py PyFacts.
From Verif.Config Require Import Model.
From Verif.IO Require Import Model Spec.
From Verif.IO Require Props.
From Verif.Run Require Stages PropsStages.
From Verif.RawPytorch Require Import Model Spec Proofs Props Whole.
Local Open Scope string_scope.
Local Open Scope list_scope.

Section C94.
Context {T : Type}.
Variables (disk : string -> fs T) (file_of : string -> string).
Variable cast : T -> result T.
Variable merge : string -> list (string * T) -> option string -> dict string (option pval) -> tparams -> result (option T).
Variables (c : raw_config) (me : method).

(** * Vocabulary *)
(** the file [m] holds [v] under the name [x] *)
Definition in_file (m x : string) (v : T) : Prop :=
  exists safe d, dget (disk m) (file_of m) = Some (FShard safe d) /\ dget d x = Some v.
(** the file [m] is there, is of the kind its name says and, if it was written by torch, has no entry "state_dict" *)
Definition readable (m : string) : Prop :=
  exists safe d, dget (disk m) (file_of m) = Some (FShard safe d) /\ safe = ends_with ".safetensors" (file_of m) /\
    (safe = true \/ ~ In "state_dict" (dkeys d)).
(** [m] is one of the models, or the base model *)
Definition listed (m : string) : Prop := exists d, In d (rc_models c) /\ md_model d = m.
Definition input (m : string) : Prop := listed m \/ rc_base c = Some m.
(** some order of the names of all listed models *)
Definition names (order : list string) : Prop :=
  NoDup order /\ forall x, In x order <-> exists m v, listed m /\ in_file m x v.
(** [t] is the merge of what all inputs, each once and in the order of the configuration with the base model last, hold under [x] *)
Definition merged (x : string) (t : T) : Prop :=
  exists ts g tp r, map fst ts = inputs c /\ NoDup (map fst ts) /\ (forall m, In m (map fst ts) <-> input m) /\
    (forall m y, In (m, y) ts -> exists v, in_file m x v /\ cast v = Ok y) /\
    construct_param_dicts c me x = Ok (g, tp) /\
    merge x ts (rc_base c) g tp = Ok (Some r) /\ cast r = Ok t.

Notation opened := (opened disk file_of).
Notation the_index := (the_index disk file_of).
Notation saved := (saved disk file_of cast merge c).
Notation raw_run := (raw_run disk file_of cast merge c me).

(** * The files *)
Lemma dmem_key {V} (d : dict string V) k : dmem d k = true <-> In k (dkeys d).
Proof. split; intros H; [|now apply dmem_In]. apply dmem_In. exact H. Qed.
Lemma paths_get (d : dict string T) (n x : string) : dget (map (fun kv => (fst kv, n)) d) x = match dget d x with Some _ => Some n | None => None end.
Proof. induction d as [|[k v] d IH]; [reflexivity|]. cbn [map dget fst]. destruct (eqb x k); [reflexivity|exact IH]. Qed.

Lemma opened_inv m ix : opened m = Ok ix -> exists d, dget (disk m) (file_of m) = Some (FShard (ends_with ".safetensors" (file_of m)) d) /\
  ix = {| ix_paths := map (fun kv => (fst kv, file_of m)) d |}.
Proof.
  unfold Whole.opened, from_file. destruct (dget (disk m) (file_of m)) as [[safe d| | |]|] eqn:E; try discriminate.
  destruct (ends_with ".safetensors" (file_of m)), safe; try discriminate.
  - intros [= <-]. exists d. auto.
  - destruct (dmem d "state_dict"); [discriminate|]. intros [= <-]. exists d. auto.
Qed.
Lemma readable_opened m : readable m <-> exists ix, opened m = Ok ix.
Proof.
  split.
  - intros (safe & d & E & -> & H). unfold Whole.opened, from_file. rewrite E. destruct (ends_with ".safetensors" (file_of m)); [eauto|].
    destruct H as [H|H]; [discriminate|]. destruct (dmem d "state_dict") eqn:Ed; [|eauto]. apply dmem_key in Ed. contradiction.
  - intros (ix & H). destruct (opened_inv _ _ H) as (d & E & _). exists (ends_with ".safetensors" (file_of m)), d. split; [exact E|]. split; [reflexivity|].
    unfold Whole.opened, from_file in H. rewrite E in H. destruct (ends_with ".safetensors" (file_of m)); [now left|right].
    destruct (dmem d "state_dict") eqn:Ed; [discriminate|]. intros Hin. apply dmem_key in Hin. congruence.
Qed.
Lemma index_consistent m : consistent (disk m) (the_index m).
Proof.
  unfold Whole.the_index. destruct (opened m) as [ix|] eqn:E; [|split; [intros k f [=]|intros k f d x [=]]].
  destruct (opened_inv _ _ E) as (d & Ed & ->). unfold consistent, open_shard. cbn [ix_paths]. split.
  - intros k f. rewrite paths_get. destruct (dget d k) eqn:Ek; [|discriminate]. intros [= <-]. exists d. rewrite Ed, Bool.eqb_reflx.
    split; [reflexivity|]. apply dget_Some_key. eauto.
  - intros k f d' x. rewrite !paths_get. destruct (dget d k); [|discriminate]. intros [= <-]. rewrite Ed, Bool.eqb_reflx. intros [= <-] Hx.
    apply dget_Some_key in Hx as [v ->]. reflexivity.
Qed.
Lemma index_keys m x : readable m -> In x (dkeys (ix_paths (the_index m))) <-> exists v, in_file m x v.
Proof.
  intros H. apply readable_opened in H as (ix & E). unfold Whole.the_index. rewrite E. destruct (opened_inv _ _ E) as (d & Ed & ->). cbn [ix_paths].
  unfold dkeys. rewrite map_map. cbn [fst]. change (In x (dkeys d) <-> exists v, in_file m x v). rewrite dget_Some_key. unfold in_file. rewrite Ed. split.
  - intros [v Hv]. exists v. eauto.
  - intros (v & safe & d' & [= <- <-] & Hv). eauto.
Qed.
Lemma load_ok m x h r : readable m -> load disk the_index h m x = Ok r <-> exists v, r = Some v /\ in_file m x v.
Proof.
  intros Hr. pose proof (index_keys m x Hr) as Hk. unfold load. rewrite (proj1 (Props.C20_history _ _ h x [] true (index_consistent m))).
  unfold expected. cbn [find]. destruct (dmem (ix_paths (the_index m)) x) eqn:Em.
  - apply dmem_key in Em. apply Hk in Em as (v & Hv). assert (stored (disk m) (the_index m) x = Some v) as ->.
    { apply readable_opened in Hr as (ix & E). destruct (opened_inv _ _ E) as (d & Ed & ->). destruct Hv as (s & d' & Ed' & Hv).
      assert (d' = d) by congruence. subst d'. unfold stored, Whole.the_index. rewrite E. cbn [ix_paths]. rewrite paths_get, Hv. unfold open_shard. now rewrite Ed, Bool.eqb_reflx. }
    split; [intros [= <-]; eauto|]. intros (v' & -> & s & d & E1 & E2). destruct Hv as (s' & d' & E1' & E2'). congruence.
  - split; [discriminate|]. intros (v & -> & Hv). assert (In x (dkeys (ix_paths (the_index m)))) as Hin by (apply Hk; eauto). apply dmem_key in Hin. congruence.
Qed.
Lemma in_file_fun m x v v' : in_file m x v -> in_file m x v' -> v = v'.
Proof. intros (s & d & E & F) (s' & d' & E' & F'). congruence. Qed.

(** * Opening *)
Lemma prepare_ok order : prepare disk file_of c order = Ok tt <->
  (forall m, listed m -> readable m) /\ (order <> [] -> forall m, input m -> readable m).
Proof.
  unfold prepare. split.
  - intros H. apply rbind_Ok in H as (l & Hl & H). assert (HL : forall m, listed m -> readable m).
    { intros m (d & Hd & <-). apply rmapM_Ok_Forall2 in Hl. apply readable_opened. revert Hd. induction Hl as [|d' ix ds l Ho Hl IH]; [intros []|].
      intros [<-|Hd]; [eauto|]. apply IH, Hd. }
    split; [exact HL|]. intros Hne m [Hm|Hm]; [auto|]. rewrite Hm in H. destruct order; [congruence|]. apply rbind_Ok in H as (ix & Ho & _).
    apply readable_opened. eauto.
  - intros [HL HI]. destruct (rmapM (fun d => opened (md_model d)) (rc_models c)) as [l|e] eqn:E; cbn [rbind].
    + destruct (rc_base c) as [b|] eqn:Eb; [|reflexivity]. destruct order; [reflexivity|].
      assert (readable b) as Hb by (apply HI; [discriminate|now right]). apply readable_opened in Hb as (ix & ->). reflexivity.
    + exfalso. apply rmapM_Err in E as (d & Hd & Hx). destruct (proj1 (readable_opened (md_model d))) as (ix & E); [apply HL; exists d; auto|]. congruence.
Qed.

Lemma listed_names order : names order -> (forall m, listed m -> readable m) -> tensor_order c the_index order.
Proof.
  intros [Hn H] HL. split; [exact Hn|]. intros x. rewrite H. split.
  - intros (m & v & (d & Hd & <-) & Hv). exists d. split; [exact Hd|]. apply index_keys; [apply HL; exists d; auto|eauto].
  - intros (d & Hd & Hx). assert (listed (md_model d)) as Hm by (exists d; auto). apply index_keys in Hx as (v & Hv); [|auto]. eauto.
Qed.
Lemma inputs_input m : In m (inputs c) <-> input m.
Proof. rewrite inputs_In, in_map_iff. unfold input, listed. split; (intros [(d & H)|H]; [left; exists d; tauto|now right]). Qed.

(** * One tensor *)
Lemma load_cast_ok h x m l : readable m -> load_cast disk file_of cast h x m = Ok l <-> exists v y, in_file m x v /\ cast v = Ok y /\ l = [(m, y)].
Proof.
  intros Hr. unfold load_cast. split.
  - intros H. apply rbind_Ok in H as (r & Hl & H). apply load_ok in Hl as (v & -> & Hv); [|exact Hr].
    apply rbind_Ok in H as (y & Hy & H). injection H as <-. eauto.
  - intros (v & y & Hv & Hy & ->). rewrite (proj2 (load_ok m x (h m x) (Some v) Hr)) by eauto. cbn [rbind]. rewrite Hy. reflexivity.
Qed.
Lemma loads_ok h x : forall ms ls, (forall m, In m ms -> readable m) -> rmapM (load_cast disk file_of cast h x) ms = Ok ls ->
  map fst (concat ls) = ms /\ forall m y, In (m, y) (concat ls) -> exists v, in_file m x v /\ cast v = Ok y.
Proof.
  intros ms ls Hr H. apply rmapM_Ok_Forall2 in H. induction H as [|m l ms ls Hm H IH]; [split; [reflexivity|intros ? ? []]|].
  apply load_cast_ok in Hm as (v & y & Hv & Hy & ->); [|apply Hr; now left]. destruct IH as [I1 I2]; [intros; apply Hr; now right|].
  cbn [concat app map fst]. split; [now rewrite I1|]. intros m' y' [[= <- <-]|Hin]; eauto.
Qed.
Lemma saved_ok h p x t : (forall m, input m -> readable m) -> pl_inputs p = inputs c ->
  construct_param_dicts c me (pl_tensor p) = Ok (pl_global p, pl_tparams p) -> saved h p = Ok (x, t) -> x = pl_tensor p /\ merged x t.
Proof.
  intros Hr Hi Hc H. unfold Whole.saved in H. apply rbind_Ok in H as (ls & Hl & H). apply rbind_Ok in H as (r & Hm & H).
  destruct r as [r|]; [|discriminate]. apply rbind_Ok in H as (t' & Ht & H). injection H as <- <-. split; [reflexivity|].
  rewrite Hi in Hl. destruct (loads_ok h (pl_tensor p) _ _ (fun m Hin => Hr m (proj1 (inputs_input m) Hin)) Hl) as [L1 L2].
  exists (concat ls), (pl_global p), (pl_tparams p), r. rewrite L1. split; [reflexivity|]. split; [apply inputs_NoDup|]. split; [intros m; apply inputs_input|]. auto.
Qed.
(** the list of inputs the merge sees does not depend on the history, the order or the options *)
Lemma saved_any h h' p : (forall m, input m -> readable m) -> pl_inputs p = inputs c -> saved h p = saved h' p.
Proof.
  intros Hr Hi. unfold Whole.saved. rewrite Hi. f_equal. apply rmapM_ext. intros m Hm. apply inputs_input in Hm. unfold load_cast, load.
  now rewrite !(proj1 (Props.C20_history _ _ _ (pl_tensor p) [] true (index_consistent m))).
Qed.

(** * The run *)
Lemma run_inv union inter h order saves : names order -> raw_run union inter h order saves -> exists plan perm,
  (forall m, listed m -> readable m) /\ (order <> [] -> forall m, input m -> readable m) /\
  tensor_order c the_index order /\ plan_flat_merge c me the_index union inter order = Ok plan /\ Permutation perm plan /\
  rmapM (saved h) perm = Ok saves.
Proof.
  intros Hn (plan & perm & Hp & Hl & HP & Hs). apply prepare_ok in Hp as [H1 H2]. exists plan, perm. repeat split; auto; now apply (listed_names order).
Qed.
Lemma plan_nil union inter order p plan : plan_flat_merge c me the_index union inter order = Ok plan -> In p plan -> order <> [].
Proof. intros H Hp ->. cbn in H. injection H as <-. destruct Hp. Qed.

Lemma saves_names h : forall perm saves, rmapM (saved h) perm = Ok saves -> map fst saves = map pl_tensor perm.
Proof.
  intros perm saves H. apply rmapM_Ok_Forall2 in H. induction H as [|p [x t] perm saves Hp H IH]; [reflexivity|]. cbn [map fst]. rewrite IH. f_equal.
  unfold Whole.saved in Hp. apply rbind_Ok in Hp as (ls & _ & Hp). apply rbind_Ok in Hp as ([r|] & _ & Hp); [|discriminate]. apply rbind_Ok in Hp as (t' & _ & Hp). congruence.
Qed.

Section Run.
Variables (union inter : bool) (h : string -> string -> list call) (order : list string) (saves : list (string * T)).
Hypothesis Hn : names order.
Hypothesis Hrun : raw_run union inter h order saves.

(** What is written are exactly the tensors that every input has, the base model included, and some listed model; no name
    twice. Unless [--tensor-intersection] is given these are all the tensors of all listed models: a run on models
    that differ in their names does not finish. *)
Theorem C94_names :
  NoDup (map fst saves) /\
  (forall x, In x (map fst saves) <-> (exists m v, listed m /\ in_file m x v) /\ forall m, input m -> exists v, in_file m x v) /\
  (inter = false -> forall x m v, listed m -> in_file m x v -> In x (map fst saves)).
Proof.
  destruct (run_inv _ _ _ _ _ Hn Hrun) as (plan & perm & HL & HI & HO & HP & Hperm & Hs).
  destruct (C49_planned c me the_index union inter order plan HO HP) as (P1 & P2 & P3 & P4).
  assert (Hall : forall x, In x (map fst saves) -> forall m, input m -> exists v, in_file m x v).
  { intros x Hx m Hm. rewrite (saves_names _ _ _ Hs) in Hx. apply in_map_iff in Hx as (p & <- & Hp). apply rmapM_Ok_Forall2 in Hs.
    assert (In p plan) as Hp' by (eapply Permutation_in; eauto). pose proof (plan_nil _ _ _ _ _ HP Hp') as Hne.
    assert (exists y, saved h p = Ok y) as ([x t] & Hy). { clear - Hs Hp. induction Hs; [destruct Hp|]. destruct Hp as [<-|Hp]; eauto. }
    destruct (plan_loop_Ok c me the_index union inter order plan HP) as (_ & _ & Q3 & _). destruct (Q3 p Hp') as [Q Qc].
    destruct (saved_ok h p x t (HI Hne) Q Qc Hy) as (-> & ts & g & tp & r & _ & _ & Hin & Hv & _). apply Hin in Hm. apply in_map_iff in Hm as ([m' y] & <- & Hy').
    destruct (Hv _ _ Hy') as (v & Hv' & _). eauto. }
  assert (Hx : forall x, In x (map fst saves) <-> In x (map pl_tensor plan)).
  { intros x. rewrite (saves_names _ _ _ Hs). split; apply Permutation_in; [|apply Permutation_sym]; now apply Permutation_map. }
  assert (Hhold : forall x, (exists d, In d (rc_models c) /\ In x (dkeys (ix_paths (the_index (md_model d))))) <-> exists m v, listed m /\ in_file m x v).
  { intros x. destruct HO as [_ HO], Hn as [_ Hn']. rewrite <- HO. apply Hn'. }
  assert (Hne : forall x, (exists m v, listed m /\ in_file m x v) -> order <> []).
  { intros x Hex Eo. destruct Hn as [_ Hn']. apply Hn' in Hex. rewrite Eo in Hex. destruct Hex. }
  split; [|split].
  - rewrite (saves_names _ _ _ Hs). eapply Permutation_NoDup; [apply Permutation_sym, Permutation_map, Hperm|exact P1].
  - intros x. split; [intros H; split; [|now apply Hall]|]; [apply Hx in H; apply P2 in H as [H _]; now apply Hhold|].
    intros [Hex Hev]. apply Hx, P2. split; [now apply Hhold|]. intros _ m Hm. change (input m) in Hm. apply (index_keys m x); [apply (HI (Hne x Hex)), Hm|now apply Hev].
  - intros Hi x m v Hm Hv. apply Hx, P2. split; [apply Hhold; eauto|congruence].
Qed.

(** Every tensor written is the merge of what the inputs hold under its name, with the parameters of C44. *)
Theorem C94_values x t : In (x, t) saves -> merged x t.
Proof.
  intros Hin. destruct (run_inv _ _ _ _ _ Hn Hrun) as (plan & perm & HL & HI & HO & HP & Hperm & Hs).
  destruct (plan_loop_Ok c me the_index union inter order plan HP) as (_ & _ & Q3 & _).
  apply rmapM_Ok_Forall2 in Hs. assert (exists p, In p perm /\ saved h p = Ok (x, t)) as (p & Hp & Hy).
  { clear - Hs Hin. induction Hs; [destruct Hin|]. destruct Hin as [->|Hin]; [eexists; split; [now left|eassumption]|].
    destruct (IHHs Hin) as (p & Hp & Hy). exists p. split; [now right|exact Hy]. }
  assert (In p plan) as Hp' by (eapply Permutation_in; eauto). destruct (Q3 p Hp') as [Q Qc].
  exact (proj2 (saved_ok h p x t (HI (plan_nil _ _ _ _ _ HP Hp')) Q Qc Hy)).
Qed.

(** Written to a new directory with shards of any size and any writer, a fresh loader finds exactly these tensors. *)
Theorem C94_directory nbytes safe max f' : saves <> [] -> (safe = true \/ ~ In "state_dict" (map fst saves)) ->
  async_run nbytes safe None max saves [] (Ok (f', None)) -> Stages.holds f' saves.
Proof. intros Hne Hs Hr. apply (PropsStages.written_holds nbytes safe max saves f'); auto. exact (proj1 C94_names). Qed.
End Run.

(** ** Two runs, whatever the order of the names and of the tasks, what the loaders were used for and the two options, write
    the same tensors if they finish. *)
Lemma saved_plan union inter h order saves x t : names order -> raw_run union inter h order saves -> In (x, t) saves ->
  (forall m, input m -> readable m) /\ exists g tp, construct_param_dicts c me x = Ok (g, tp) /\ saved h {| pl_tensor := x; pl_inputs := inputs c; pl_global := g; pl_tparams := tp |} = Ok (x, t).
Proof.
  intros Hn Hrun Hin. destruct (run_inv _ _ _ _ _ Hn Hrun) as (plan & perm & HL & HI & HO & HP & Hperm & Hs).
  destruct (plan_loop_Ok c me the_index union inter order plan HP) as (_ & _ & Q3 & _).
  apply rmapM_Ok_Forall2 in Hs. assert (exists p, In p perm /\ saved h p = Ok (x, t)) as (p & Hp & Hy).
  { clear - Hs Hin. induction Hs; [destruct Hin|]. destruct Hin as [->|Hin]; [eexists; split; [now left|eassumption]|].
    destruct (IHHs Hin) as (p & Hp & Hy). exists p. split; [now right|exact Hy]. }
  assert (In p plan) as Hp' by (eapply Permutation_in; eauto). destruct (Q3 p Hp') as [Q Qc]. pose proof (HI (plan_nil _ _ _ _ _ HP Hp')) as Hr.
  split; [exact Hr|]. destruct (saved_ok h p x t Hr Q Qc Hy) as [-> _]. exists (pl_global p), (pl_tparams p). split; [exact Qc|].
  rewrite <- Q. destruct p; exact Hy.
Qed.
Theorem C94_same union inter h order saves union' inter' h' order' saves' : names order -> names order' ->
  raw_run union inter h order saves -> raw_run union' inter' h' order' saves' -> Permutation saves saves'.
Proof.
  intros Hn Hn' H H'. destruct (C94_names _ _ _ _ _ Hn H) as (N1 & N2 & _). destruct (C94_names _ _ _ _ _ Hn' H') as (N1' & N2' & _).
  assert (Hsub : forall u i h o s u' i' h' o' s', names o -> names o' -> raw_run u i h o s -> raw_run u' i' h' o' s' ->
    (forall x, In x (map fst s) -> In x (map fst s')) -> forall kv, In kv s -> In kv s').
  { clear. intros u i h o s u' i' h' o' s' Hn Hn' H H' Hs [x t] Hin. pose proof (Hs x (in_map fst _ _ Hin)) as Hx. apply in_map_iff in Hx as ([x' t'] & Ex & Hin'). cbn in Ex. subst x'.
    destruct (saved_plan _ _ _ _ _ _ _ Hn H Hin) as (Hr & g & tp & Ec & Es). destruct (saved_plan _ _ _ _ _ _ _ Hn' H' Hin') as (_ & g' & tp' & Ec' & Es').
    rewrite Ec in Ec'. injection Ec' as <- <-. rewrite (saved_any h' h) in Es' by auto. assert (t' = t) by congruence. now subst. }
  apply NoDup_Permutation; [now apply NoDup_map_inv in N1|now apply NoDup_map_inv in N1'|]. intros kv. split.
  - apply (Hsub _ _ _ _ _ _ _ _ _ _ Hn Hn' H H'). intros x Hx. apply N2', N2, Hx.
  - apply (Hsub _ _ _ _ _ _ _ _ _ _ Hn' Hn H' H). intros x Hx. apply N2, N2', Hx.
Qed.

(** ** When a run finishes: every listed file can be read and, as soon as there is a tensor, the base model's; with
    [--tensor-intersection] or if all inputs have all tensors of the listed models; and if each tensor that all have can be
    merged. [--tensor-union] makes no difference. *)
Theorem C94_finishes union inter h order : names order ->
  (exists saves, raw_run union inter h order saves) <->
  (forall m, listed m -> readable m) /\
  (forall x m v, listed m -> in_file m x v ->
     (forall m', input m' -> readable m') /\ (inter = true \/ forall m', input m' -> exists v', in_file m' x v')) /\
  (forall x m v, listed m -> in_file m x v -> (forall m', input m' -> exists v', in_file m' x v') -> exists t, merged x t).
Proof.
  intros Hn. split.
  - intros (saves & Hrun). destruct (run_inv _ _ _ _ _ Hn Hrun) as (plan & perm & HL & HI & _). destruct (C94_names _ _ _ _ _ Hn Hrun) as (_ & N2 & N3).
    split; [exact HL|]. split.
    + intros x m v Hm Hv. split; [apply HI; intros E; destruct Hn as [_ Hn']; assert (In x order) as Hx by (apply Hn'; eauto); rewrite E in Hx; destruct Hx|].
      destruct inter; [now left|right]. apply N2, (N3 eq_refl x m v Hm Hv).
    + intros x m v Hm Hv Hall. assert (In x (map fst saves)) as Hx by (apply N2; split; eauto).
      apply in_map_iff in Hx as ([x' t] & Ex & Hin). cbn in Ex. subst x'. exists t. exact (C94_values _ _ _ _ _ Hn Hrun x t Hin).
  - intros (HL & HI & HM). pose proof (listed_names order Hn HL) as HO. destruct Hn as [Hnd Hn'].
    assert (HR : order <> [] -> forall m, input m -> readable m).
    { intros Hne. destruct order as [|x order]; [congruence|]. destruct (proj1 (Hn' x) (or_introl eq_refl)) as (m & v & Hm & Hv). exact (proj1 (HI x m v Hm Hv)). }
    assert (HA : forall x, In x order -> all_hold c the_index x <-> forall m, input m -> exists v, in_file m x v).
    { intros x Hx. assert (order <> []) as Hne by (intros E; rewrite E in Hx; destruct Hx). unfold all_hold, holds. split; intros H m Hm; specialize (H m Hm); apply (index_keys m x); auto. }
    assert (HP : exists plan, plan_flat_merge c me the_index union inter order = Ok plan /\ forall p, In p plan -> In (pl_tensor p) order /\ all_hold c the_index (pl_tensor p)).
    { unfold plan_flat_merge. cut (forall l, (forall x, In x l -> In x order) -> exists plan, plan_loop c me the_index union inter l = Ok plan /\
        forall p, In p plan -> In (pl_tensor p) l /\ all_hold c the_index (pl_tensor p)); [intros Hc; apply Hc; auto|]. clear Hnd HO HR.
      induction l as [|x l IH]; intros Hsub; [exists []; split; [reflexivity|intros p []]|]. destruct IH as (plan & EP & HPl); [intros y Hy; apply Hsub; now right|].
      destruct (proj1 (Hn' x) (Hsub x (or_introl eq_refl))) as (m & v & Hm & Hv). destruct (HI x m v Hm Hv) as [_ Hi].
      cbn [plan_loop]. unfold plan_one. pose proof (all_hold_len c the_index x) as Hlen. destruct (_ <? _)%nat eqn:El.
      - assert (inter = true) as Ei. { destruct Hi as [Hi|Hi]; [exact Hi|]. apply (HA x (Hsub x (or_introl eq_refl))) in Hi. apply Hlen in Hi. discriminate. }
        rewrite Ei. cbn [rbind]. rewrite Ei in EP. rewrite EP. cbn [rbind]. exists plan. split; [reflexivity|]. intros p Hp. destruct (HPl p Hp). split; [now right|assumption].
      - assert (all_hold c the_index x) as Ha by now apply Hlen. destruct (HM x m v Hm Hv) as (t & ts & g & tp & r & _ & _ & _ & _ & Ec & _).
        { apply HA; [now apply Hsub; left|exact Ha]. }
        rewrite Ec. cbn [rbind]. rewrite EP. cbn [rbind]. eexists. split; [reflexivity|]. intros p [<-|Hp]; cbn [pl_tensor]; [split; [now left|exact Ha]|].
        destruct (HPl p Hp). split; [now right|assumption]. }
    destruct HP as (plan & EP & HPl). destruct (plan_loop_Ok c me the_index union inter order plan EP) as (_ & _ & Q3 & _).
    assert (HS : exists saves, rmapM (saved h) plan = Ok saves).
    { destruct (rmapM (saved h) plan) as [saves|e] eqn:E; [eauto|exfalso]. apply rmapM_Err in E as (p & Hp & E).
      destruct (Q3 p Hp) as [Qi Qc]. destruct (HPl p Hp) as [Ho Ha]. destruct (proj1 (Hn' (pl_tensor p)) Ho) as (m & v & Hm & Hv).
      pose proof (proj1 (HA _ Ho) Ha) as Ha2. destruct (HM _ m v Hm Hv Ha2) as (t & ts & g & tp & r & Hts & Hnd' & Hin & Hval & Ec & Em & Et).
      rewrite Qc in Ec. injection Ec as <- <-. assert (Hr : forall m, input m -> readable m) by (apply HR; intros Eo; rewrite Eo in Ho; destruct Ho).
      assert (El : rmapM (load_cast disk file_of cast h (pl_tensor p)) (pl_inputs p) = Ok (map (fun kv => [kv]) ts)).
      { rewrite Qi, <- Hts. apply rmapM_Ok_Forall2. assert (forall kv, In kv ts -> readable (fst kv)) as Hr' by (intros kv Hkv; apply Hr, Hin, in_map, Hkv).
        clear - Hval Hr'. induction ts as [|[m y] ts IH]; [constructor|]. cbn [map fst]. constructor.
        - apply load_cast_ok; [apply (Hr' (m, y)); now left|]. destruct (Hval m y (or_introl eq_refl)) as (v & Hv & Hy). eauto.
        - apply IH; [intros m' y' H; apply Hval; now right|intros kv Hkv; apply Hr'; now right]. }
      unfold Whole.saved in E. rewrite El in E. cbn [rbind] in E.
      assert (Econ : concat (map (fun kv : string * T => [kv]) ts) = ts). { clear. induction ts; [reflexivity|]. cbn. now f_equal. }
      rewrite Econ, Em in E. cbn [rbind] in E. rewrite Et in E. discriminate. }
    destruct HS as (saves & ES). exists saves, plan, plan. split; [apply prepare_ok; auto|]. auto.
Qed.
End C94.

(** * A concrete case: files of both kinds, a base model that lacks "y" and has a tensor of its own *)
Definition ex_disk (m : string) : fs nat :=
  if eqb m "a" then [("a.safetensors", FShard true [("x", 1%nat); ("y", 2%nat)])]
  else if eqb m "b" then [("b.bin", FShard false [("y", 5%nat); ("x", 3%nat)])]
  else if eqb m "base" then [("base.bin", FShard false [("x", 10%nat); ("only", 4%nat)])] else [].
Definition ex_file (m : string) : string := if eqb m "a" then "a.safetensors" else (m ++ ".bin")%string.
Definition ex_cast (v : nat) : result nat := Ok (S v).
Definition ex_merge (x : string) (ts : list (string * nat)) (b : option string) (g : dict string (option pval)) (tp : tparams) : result (option nat) :=
  Ok (match b with Some b => match dget ts b with Some v => Some (v * 100 + list_sum (map snd ts))%nat | None => None end | None => None end).
Definition ex_cfg := {|
  rc_models := [{| md_model := "a"; md_params := Some [("weight", PNum 1)] |}; {| md_model := "b"; md_params := Some [("weight", PNum 1)] |}];
  rc_params := None; rc_base := Some "base" |}.
Lemma ex_listed m : listed ex_cfg m <-> m = "a" \/ m = "b".
Proof.
  unfold listed. cbn [rc_models ex_cfg]. split; [intros (d & [<-|[<-|[]]] & <-); auto|].
  intros [->| ->]; eexists; split; [left; reflexivity|reflexivity|right; left; reflexivity|reflexivity].
Qed.
Lemma ex_in m x v : m = "a" \/ m = "b" -> in_file ex_disk ex_file m x v -> x = "x" \/ x = "y".
Proof.
  intros [->| ->] (s & d & E & Hv); injection E as <- <-; cbn [dget] in Hv; destruct (eqb_spec x "x"); auto; destruct (eqb_spec x "y"); auto; discriminate.
Qed.
Example C94_nonvacuous :
  names ex_disk ex_file ex_cfg ["y"; "x"] /\
  raw_run ex_disk ex_file ex_cast ex_merge ex_cfg linear false true (fun _ _ => []) ["y"; "x"] [("x", 1118%nat)] /\
  ~ (exists saves, raw_run ex_disk ex_file ex_cast ex_merge ex_cfg linear true false (fun _ _ => []) ["y"; "x"] saves).
Proof.
  assert (Hn : names ex_disk ex_file ex_cfg ["y"; "x"]).
  { split; [repeat constructor; cbn; intuition discriminate|]. intros x. split.
    - intros [<-|[<-|[]]]; exists "a"; eexists; (split; [apply ex_listed; now left|]); eexists _, _; split; reflexivity.
    - intros (m & v & Hm & Hv). apply ex_listed in Hm. destruct (ex_in m x v Hm Hv) as [->| ->]; cbn; auto. }
  split; [exact Hn|]. split.
  - eexists _, _. split; [vm_compute; reflexivity|]. split; [vm_compute; reflexivity|]. split; [apply Permutation_refl|vm_compute; reflexivity].
  - intros H. apply C94_finishes in H as (_ & H & _); [|exact Hn].
    destruct (H "y" "a" 2%nat) as [_ [H'|H']]; [apply ex_listed; now left|eexists _, _; split; reflexivity|discriminate|].
    destruct (H' "base") as (v & s & d & E & Hv); [now right|]. injection E as <- <-. discriminate Hv.
Qed.

Print Assumptions C94_names.
Print Assumptions C94_values.
Print Assumptions C94_directory.
Print Assumptions C94_same.
Print Assumptions C94_finishes.
