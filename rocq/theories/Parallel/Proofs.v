(** The stages of a multi-GPU merge, and what its workers do to the writer. *)
From Coq Require Import QArith Lia Permutation.
From Verif.Base Require Import Py PyStr PyFacts.
From Verif.Config Require Import Model.
From Verif.Arch Require Import Model.
From Verif.Plan Require Import Model.
From Verif.Graph Require Import Model Spec UniverseProofs ScheduleProofs ExecProofs Proofs.
From Verif.IO Require Import Model Spec.
From Verif.MultiGPU Require Import Model Spec Proofs RunProofs.
From Verif.MultiGPU Require Props.
From Verif.Run Require Import Model Spec Proofs PlanProofs ActProofs.
From Verif.Parallel Require Import Model.
Local Open Scope string_scope.
Local Open Scope list_scope.

(** ** interleavings *)
Section Interleaved.
Context {X Y : Type}.
Lemma interleaved_Permutation (ls : list (list X)) q : interleaved ls q -> Permutation q (concat ls).
Proof.
  induction 1 as [ls HF|l1 x xs l2 q _ IH].
  - induction HF as [|l ls -> _ IH]; cbn; auto.
  - rewrite IH, !concat_app. cbn. apply Permutation_middle.
Qed.
Lemma interleaved_map (f : X -> Y) (ls : list (list X)) q : interleaved (map (map f) ls) q ->
  exists q', q = map f q' /\ interleaved ls q'.
Proof.
  intros Hi. remember (map (map f) ls) as ls' eqn:El. revert ls El. induction Hi as [ls' HF|l1 y ys l2 q _ IH]; intros ls El.
  - exists []. split; auto. constructor. subst ls'. clear -HF. induction ls as [|l ls IHl]; cbn in HF; [constructor|].
    inversion HF as [|? ? Hn HF']; subst. constructor; auto. now destruct l.
  - symmetry in El. apply map_eq_app in El as (k1 & k2 & -> & <- & E2). destruct k2 as [|k k2]; [discriminate|]. cbn in E2. injection E2 as Ek <-.
    destruct k as [|x xs]; [discriminate|]. cbn in Ek. injection Ek as <- <-.
    destruct (IH (k1 ++ xs :: k2)) as (q' & -> & Hq); [now rewrite map_app|]. exists (x :: q'). split; auto. now constructor.
Qed.
End Interleaved.
Lemma NoDup_concat {X D : Type} (f : nat * D -> list X) (l : list (nat * D)) : NoDup (map fst l) -> (forall x, In x l -> NoDup (f x)) ->
  (forall x y h, In x l -> In y l -> In h (f x) -> In h (f y) -> fst x = fst y) -> NoDup (concat (map f l)).
Proof.
  induction l as [|a l IH]; cbn; intros HN HF HD; [constructor|]. inversion HN as [|? ? Hn HN']; subst. apply NoDup_app_intro; auto.
  - apply IH; auto. intros; eapply HD; eauto.
  - intros h H1 H2. apply in_concat in H2 as (k & Hk & H2). apply in_map_iff in Hk as (b & <- & Hb). apply Hn.
    rewrite (HD a b h); auto. now apply in_map.
Qed.

Section Parallel.
Context {M : Type} `{Eqb M} {T K : Type}.
Variable (E : env M T K) (A : attrs (lbl M)) (tok : bool) (saves : list (save_task M)).
Notation val := (value M T K).
Notation tsk := (task (lbl M)).
Notation ts := (disk_targets E tok saves).
Notation G := (gpu_attrs A).
Notation final_task := (finalize_node (map (save_node E) saves)).
Hypothesis good_saves : forall s, In s saves -> good_task E (sv_task s).
Hypothesis names_distinct : NoDup (map sv_name saves).
Hypothesis some_saves : saves <> [].

(** ** the tasks of the graph *)
Definition plain_label (l : lbl M) : Prop := match l with LWriter | LFinalize | LSave _ _ _ => False | _ => True end.
Inductive plain_task : tsk -> Prop :=
| plain_node l args : plain_label l -> (forall k a, In (k, a) args -> plain_task a) -> plain_task (Node l args).
Lemma plain_gather g dtype : plain_task (gather_task E g dtype).
Proof.
  constructor; [exact I|]. intros k a Hi. apply dict_of_In in Hi. apply in_map_iff in Hi as ([m w] & [= _ <-] & _).
  constructor; [exact I|intros ? ? []].
Qed.
Lemma plain_tokenizer : plain_task tokenizer_task.
Proof. constructor; [exact I|intros ? ? []]. Qed.
Lemma plain_merge t : plain_task (merge_node E t).
Proof.
  constructor; [exact I|]. intros k a [[= _ <-]|[]]. unfold input_task. destruct (mt_permuted t); [|apply plain_gather].
  constructor; [exact I|]. intros k' a' [[= _ <-]|[[= _ <-]|[]]]; [apply plain_tokenizer|apply plain_gather].
Qed.
Definition in_graph (t : tsk) : Prop := plain_task t \/ t = writer_task \/ (exists s, In s saves /\ t = save_node E s) \/ t = final_task.
Lemma unused_args k a : In (k, a) (map (fun it => (unused (fst it), snd it)) (enumerate_from 0 (map (save_node E) saves))) -> exists s, In s saves /\ a = save_node E s.
Proof.
  intros Hi. apply in_map_iff in Hi as ([i x] & [= _ <-] & Hi). apply (in_map snd) in Hi. rewrite enum_snd in Hi. cbn in Hi. apply in_map_iff in Hi as (s & <- & Hs). eauto.
Qed.
Lemma in_graph_arg t k a : in_graph t -> In (k, a) (targs t) -> in_graph a /\ a <> final_task.
Proof.
  assert (Hp : forall x, plain_task x -> x <> final_task) by (intros x Hx ->; inversion Hx; subst; auto).
  intros [Ht|[->|[(s & Hs & ->)| ->]]] Hi.
  - inversion Ht as [l args _ Ha]; subst. cbn in Hi. split; [left; eauto|apply Hp; eauto].
  - destruct Hi.
  - cbn in Hi. destruct Hi as [[= _ <-]|[[= _ <-]|[]]]; [split; [right; now left|discriminate]|].
    split; [left; apply plain_merge|apply Hp, plain_merge].
  - cbn in Hi. destruct Hi as [[= _ <-]|Hi]; [split; [right; now left|discriminate]|].
    destruct (unused_args k a Hi) as (s & Hs & ->). split; [right; right; left; eauto|discriminate].
Qed.
Lemma in_graph_needs t t' : needs (fun _ => False) t t' -> in_graph t -> in_graph t'.
Proof. induction 1 as [|t k a t' _ Hi _ IH]; auto. intros Ht. apply IH. exact (proj1 (in_graph_arg t k a Ht Hi)). Qed.
Lemma in_graph_target t : In t ts -> in_graph t.
Proof.
  unfold disk_targets. rewrite !in_app_iff. intros [Ht|[[<-|[]]|Ht]].
  - apply in_map_iff in Ht as (s & <- & Hs). right. right. left. eauto.
  - right. right. now right.
  - destruct tok; [|destruct Ht]. destruct Ht as [<-|[]]. left. apply plain_tokenizer.
Qed.
Lemma plain_not_main t : plain_task t -> main_thread_only G (label t) = false.
Proof. intros Hp. inversion Hp as [l args Hl _]; subst. now destruct l. Qed.

Variables (u : universe (lbl M)) (targets : list nat).
Hypothesis Hasked : Props.asked ts u targets.

Lemma graph_names h t : names u h t -> in_graph t.
Proof.
  intros Hn. destruct (Props.asked_ok _ _ _ Hasked) as [_ [_ Hc]]. destruct (Hc h t Hn) as (ht & tt & Hin & Hnt & Hneed).
  apply (in_graph_needs _ _ Hneed). apply in_graph_target. destruct Hasked as (_ & Eu & Ht). apply Ht in Hin as (t' & Hin & Hn').
  unfold names in *. congruence.
Qed.
Lemma target_names t : In t ts -> exists h, In h targets /\ names u h t.
Proof.
  intros Ht. destruct Hasked as (HF & Eu & Hts). destruct (run_tasks_good (V:=val) ts HF) as (hs & Eh & HF2 & _). rewrite <- Eu in HF2.
  assert (exists h, names u h t) as (h & Hn).
  { clear -HF2 Ht. induction HF2 as [|t' h' l l' Hn' HF IH]; [destruct Ht|]. destruct Ht as [->|Ht]; eauto. }
  exists h. split; auto. apply Hts. eauto.
Qed.
Lemma same_name h h' t : names u h t -> names u h' t -> h = h'.
Proof. destruct (Props.asked_ok _ _ _ Hasked) as [HU _]. intros H1 H2. exact (names_inj _ _ _ _ (inv_nodup _ _ HU) H1 H2). Qed.
Lemma final_in : In final_task ts.
Proof. unfold disk_targets. rewrite !in_app_iff. right. left. now left. Qed.
Lemma save_in s : In s saves -> In (save_node E s) ts.
Proof. intros Hs. unfold disk_targets. rewrite !in_app_iff. left. now apply in_map. Qed.
Lemma writer_names : exists h, names u h writer_task.
Proof.
  destruct (target_names final_task final_in) as (hf & _ & Hn). destruct (Props.asked_ok _ _ _ Hasked) as [HU _].
  destruct (names_closed u hf final_task "writer" writer_task HU Hn) as [j Hj]; [now left|eauto].
Qed.

(** ** the stages *)
Lemma main_iff h : main_only G u h <-> names u h writer_task \/ names u h final_task.
Proof.
  split.
  - intros (t & Hn & Hm). destruct (graph_names h t Hn) as [Hp|[->|[(s & _ & ->)| ->]]]; auto; [|discriminate].
    rewrite (plain_not_main t Hp) in Hm. discriminate.
  - intros [Hn|Hn]; eexists; (split; [exact Hn|reflexivity]).
Qed.
Lemma save_not_main h s : names u h (save_node E s) -> ~ main_only G u h.
Proof. intros Hn (t & Hn' & Hm). unfold names in *. assert (t = save_node E s) by congruence. subst t. discriminate. Qed.
Lemma a_save : exists s h, In s saves /\ names u h (save_node E s).
Proof.
  assert (Hs : exists s, In s saves).
  { clear -some_saves. destruct saves as [|s l]; [destruct (some_saves eq_refl)|]. exists s. now left. }
  destruct Hs as (s & Hs). destruct (target_names (save_node E s) (save_in s Hs)) as (h & _ & Hn). eauto.
Qed.
Lemma final_depends hf h s : names u hf final_task -> In s saves -> names u h (save_node E s) -> depends u hf h.
Proof.
  intros Hf Hs Hn. assert (Ht : In (save_node E s) (map (save_node E) saves)) by now apply in_map.
  rewrite <- (enum_snd _ 0) in Ht. apply in_map_iff in Ht as ([i t'] & Et & Hi). cbn in Et. subst t'.
  exists final_task, (unused i), (save_node E s). split; auto. split; auto. cbn. right. apply in_map_iff. exists (i, save_node E s). auto.
Qed.
Lemma leading_iff h : leading G u h <-> names u h writer_task.
Proof.
  split.
  - intros Hl. inversion Hl as [? Hm Hall]; subst. apply main_iff in Hm as [?|Hf]; auto. exfalso.
    destruct a_save as (s & h' & Hs & Hn). specialize (Hall h' (final_depends h h' s Hf Hs Hn)). inversion Hall; subst. eapply save_not_main; eauto.
  - intros Hn. constructor; [apply main_iff; auto|]. intros d (t & k & a & Hn' & Hi & _). unfold names in *. assert (t = writer_task) by congruence. subst t. destruct Hi.
Qed.
Lemma trailing_iff h : trailing G u h <-> names u h final_task.
Proof.
  split.
  - intros Hl. inversion Hl as [? Hm Hall]; subst. apply main_iff in Hm as [Hw|?]; auto. exfalso.
    destruct a_save as (s & h' & Hs & Hn). assert (Hd : depends u h' h).
    { exists (save_node E s), "writer", writer_task. split; auto. split; auto. now left. }
    specialize (Hall h' Hd). inversion Hall; subst. eapply save_not_main; eauto.
  - intros Hn. constructor; [apply main_iff; auto|]. intros x (t & k & a & Hn' & Hi & Ha). exfalso.
    destruct (in_graph_arg t k a (graph_names x t Hn') Hi) as [_ Hne]. apply Hne. unfold names in *. congruence.
Qed.
Lemma none_duplicated h : ~ duplicated G u h.
Proof. intros (t & _ & Hd). discriminate. Qed.
Lemma not_interleaved : ~ exists h, (exists t, names u h t) /\ main_only G u h /\ (duplicated G u h \/ (~ leading G u h /\ ~ trailing G u h)).
Proof.
  intros (h & _ & Hm & [Hd|[Hl Ht]]); [exact (none_duplicated h Hd)|]. apply main_iff in Hm as [Hm|Hm]; [apply Hl, leading_iff, Hm|apply Ht, trailing_iff, Hm].
Qed.

(** ** values *)
Lemma exec_saved l args n x : exec E l args = Ok (VSaved n x) -> exists o d, l = LSave n o d.
Proof.
  destruct l; cbn [exec]; try discriminate.
  - unfold exec_load. destruct (from_disk _); cbn [rbind]; [|discriminate]. destruct (match find _ _ with Some _ => _ | None => _ end) as [[y|]|]; cbn [rbind]; try discriminate; [destruct (cast _ _ _)|destruct optional]; discriminate.
  - unfold exec_gather. destruct (rmapM _ _); discriminate.
  - destruct (e_tokenizer E); discriminate.
  - destruct (dget args "tokenizer_info") as [[]|]; try discriminate. destruct (dget args "tensors") as [[]|]; try discriminate. destruct (e_permute _ _ _ _); discriminate.
  - destruct (dget args "tensors") as [[]|]; try discriminate. destruct (e_method _ _ _); discriminate.
  - destruct (dget args "writer") as [[]|]; try discriminate. destruct (dget args "tensor") as [[y| | | | |]|]; try discriminate. unfold exec_save.
    destruct y as [y|]; [destruct (cast _ _ _); cbn; [|discriminate]|destruct optional; [|discriminate]]; intros [= <- _]; eauto.
  - destruct (dget args "writer") as [[]|]; discriminate.
  - destruct (dget args "tensor") as [[y| | | | |]|]; try discriminate. unfold exec_return. destruct y as [y|]; [destruct (cast _ _ _); discriminate|].
    destruct dtype as [d|]; [destruct (eqb d ""); discriminate|discriminate].
Qed.
Lemma exec_finalized l args : exec E l args = Ok VFinalized -> l = LFinalize.
Proof.
  destruct l; cbn [exec]; try discriminate; auto.
  - unfold exec_load. destruct (from_disk _); cbn [rbind]; [|discriminate]. destruct (match find _ _ with Some _ => _ | None => _ end) as [[y|]|]; cbn [rbind]; try discriminate; [destruct (cast _ _ _)|destruct optional]; discriminate.
  - unfold exec_gather. destruct (rmapM _ _); discriminate.
  - destruct (e_tokenizer E); discriminate.
  - destruct (dget args "tokenizer_info") as [[]|]; try discriminate. destruct (dget args "tensors") as [[]|]; try discriminate. destruct (e_permute _ _ _ _); discriminate.
  - destruct (dget args "tensors") as [[]|]; try discriminate. destruct (e_method _ _ _); discriminate.
  - destruct (dget args "writer") as [[]|]; try discriminate. destruct (dget args "tensor") as [[y| | | | |]|]; try discriminate. unfold exec_save.
    destruct y as [y|]; [destruct (cast _ _ _); discriminate|destruct optional; discriminate].
  - destruct (dget args "tensor") as [[y| | | | |]|]; try discriminate. unfold exec_return. destruct y as [y|]; [destruct (cast _ _ _); discriminate|].
    destruct dtype as [d|]; [destruct (eqb d ""); discriminate|discriminate].
Qed.
Lemma exec_tok l args k : exec E l args = Ok (VTok k) -> l = LTokenizer.
Proof.
  destruct l; cbn [exec]; try discriminate; auto.
  - unfold exec_load. destruct (from_disk _); cbn [rbind]; [|discriminate]. destruct (match find _ _ with Some _ => _ | None => _ end) as [[y|]|]; cbn [rbind]; try discriminate; [destruct (cast _ _ _)|destruct optional]; discriminate.
  - unfold exec_gather. destruct (rmapM _ _); discriminate.
  - destruct (dget args "tokenizer_info") as [[]|]; try discriminate. destruct (dget args "tensors") as [[]|]; try discriminate. destruct (e_permute _ _ _ _); discriminate.
  - destruct (dget args "tensors") as [[]|]; try discriminate. destruct (e_method _ _ _); discriminate.
  - destruct (dget args "writer") as [[]|]; try discriminate. destruct (dget args "tensor") as [[y| | | | |]|]; try discriminate. unfold exec_save.
    destruct y as [y|]; [destruct (cast _ _ _); discriminate|destruct optional; discriminate].
  - destruct (dget args "writer") as [[]|]; discriminate.
  - destruct (dget args "tensor") as [[y| | | | |]|]; try discriminate. unfold exec_return. destruct y as [y|]; [destruct (cast _ _ _); discriminate|].
    destruct dtype as [d|]; [destruct (eqb d ""); discriminate|discriminate].
Qed.
Lemma node_eta (t : tsk) : t = Node (label t) (targs t).
Proof. now destruct t. Qed.
Lemma value_saved h t n x : names u h t -> eval G (sem E) no_env t = Ok (VSaved n x) -> exists s, In s saves /\ t = save_node E s /\ n = sv_name s /\ output E s = Ok x.
Proof.
  intros Hn Ev. pose proof Ev as Ev'. rewrite (node_eta t), eval_node in Ev'. destruct (rmapM _ _); cbn [rbind] in Ev'; [|discriminate].
  apply exec_saved in Ev' as (o & d & El). destruct (graph_names h t Hn) as [Hp|[->|[(s & Hs & ->)| ->]]]; try discriminate.
  - inversion Hp as [l args Hl _]; subst. cbn in El. subst l. destruct Hl.
  - exists s. rewrite eval_save in Ev by auto. destruct (output E s) as [y|]; cbn in Ev; [|discriminate]. injection Ev as -> ->. auto.
Qed.
Lemma value_finalized h t : names u h t -> eval G (sem E) no_env t = Ok VFinalized -> t = final_task.
Proof.
  intros Hn Ev. rewrite (node_eta t), eval_node in Ev. destruct (rmapM _ _); cbn [rbind] in Ev; [|discriminate]. apply exec_finalized in Ev as El.
  destruct (graph_names h t Hn) as [Hp|[->|[(s & Hs & ->)| ->]]]; try discriminate; auto.
  inversion Hp as [l args Hl _]; subst. cbn in El. subst l. destruct Hl.
Qed.
Lemma all_ok : (forall t, In t ts -> exists v, eval G (sem E) no_env t = Ok v) <-> computable E tok saves.
Proof.
  rewrite <- (run_ok E G tok saves good_saves (fun _ _ => 0%nat)).
  destruct (run_tasks_spec G (sem E) (fun _ _ => 0%nat) ts (wf_targets E tok saves)) as (Hy & _ & Hall & _ & Hok). cbv zeta in *. split; [exact Hok|].
  intros Est t Ht. destruct (Hall Est t Ht) as (h & v & Hn & Hin). destruct (Hy _ _ Hin) as (t' & Hn' & _ & Ev). unfold names in *. assert (t' = t) by congruence. subst t'. eauto.
Qed.
End Parallel.
