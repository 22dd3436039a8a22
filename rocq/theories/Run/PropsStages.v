(** C91: merges of merges. *)
From Coq Require Import QArith Lia Permutation.
From Verif.Base Require Import Py PyStr PyFacts.
From Verif.Config Require Import Model.
From Verif.Arch Require Import Model.
From Verif.Plan Require Import Model.
From Verif.Graph Require Import Model.
From Verif.IO Require Import Model Spec FsProofs WriterProofs LoaderProofs RunProofs.
From Verif.IO Require Props.
From Verif.Plan Require Props.
From Verif.Run Require Import Model Spec Proofs PlanProofs ActProofs Props Stages.
Local Open Scope string_scope.
Local Open Scope list_scope.

Section Stages.
Context {M : Type} `{Eqb M} {T K : Type}.
Variable nbytes : T -> nat.
Notation stage := (stage M T K).
Notation step := (step (K:=K) nbytes).
Notation stages := (stages (K:=K) nbytes).

Lemma same_model_refl (f : fs T) : same_model f f.
Proof. unfold same_model. destruct (from_disk f); auto. Qed.
Lemma same_model_sym (f g : fs T) : same_model f g -> same_model g f.
Proof.
  unfold same_model. destruct (from_disk f), (from_disk g); auto. intros Hs n. destruct (Hs n). split; congruence.
Qed.
Lemma same_model_trans (f g h : fs T) : same_model f g -> same_model g h -> same_model f h.
Proof.
  unfold same_model. destruct (from_disk f), (from_disk g), (from_disk h); try tauto; try congruence.
  intros A B n. destruct (A n), (B n). split; congruence.
Qed.

Lemma stored_None (f : fs T) ix n : dmem (ix_paths ix) n = false -> stored f ix n = None.
Proof. unfold stored, dmem. destruct (dget (ix_paths ix) n); [discriminate|reflexivity]. Qed.
Lemma dmem_In (d : dict string string) n : dmem d n = true <-> In n (dkeys d).
Proof.
  unfold dmem. rewrite dget_Some_key. destruct (dget d n) as [v|].
  - split; [eauto|reflexivity].
  - split; [discriminate|]. intros (v & [=]).
Qed.
Lemma holds_same (f g : fs T) outs : holds f outs -> holds g outs -> same_model f g.
Proof.
  intros (ix & E1 & _ & K1 & S1) (jx & E2 & _ & K2 & S2). unfold same_model. rewrite E1, E2. intros n.
  assert (Ed : dmem (ix_paths ix) n = dmem (ix_paths jx) n).
  { destruct (dmem (ix_paths ix) n) eqn:D1, (dmem (ix_paths jx) n) eqn:D2; auto.
    - apply dmem_In, K1, K2, dmem_In in D1. congruence.
    - apply dmem_In, K2, K1, dmem_In in D2. congruence. }
  split; [exact Ed|]. destruct (dmem (ix_paths ix) n) eqn:D1; [|now rewrite !stored_None by congruence].
  apply dmem_In, K1, in_map_iff in D1 as ([n' t] & <- & Hin). cbn [fst]. now rewrite (S1 _ _ Hin), (S2 _ _ Hin).
Qed.

(** ** What a stage computes depends on the tensors of the directories only *)
Lemma source_ext (st : stage) D D' dt mw : proper st -> same_model (D (fst mw)) (D' (fst mw)) ->
  source (at_dirs st D) dt mw = source (at_dirs st D') dt mw.
Proof.
  intros [_ Hc] Hs. destruct mw as [m w]. cbn [fst] in Hs. unfold source.
  assert (Econv : forall l, converted (at_dirs st D) m l = converted (at_dirs st D') m l).
  { induction l as [|n l IH]; [reflexivity|]. cbn [converted at_dirs e_convert]. rewrite (Hc m _ _ n Hs). destruct (st_convert st m (D' m) n) as [[x|]|]; cbn; auto. }
  assert (Es : stored_for (at_dirs st D) (m, w) = stored_for (at_dirs st D') (m, w)).
  { unfold stored_for. cbn [at_dirs e_dir]. unfold same_model in Hs. destruct (from_disk (D m)) as [ix|e], (from_disk (D' m)) as [jx|e']; try tauto; [|cbn; congruence].
    cbn [rbind].
    assert (Ef : forall l, find (fun n => dmem (ix_paths ix) n) l = find (fun n => dmem (ix_paths jx) n) l).
    { induction l as [|n l IH]; [reflexivity|]. cbn. destruct (Hs n) as [-> _]. now rewrite IH. }
    rewrite Ef. destruct (find _ _) as [n|]; [|apply Econv]. destruct (eqb n ""); [apply Econv|]. destruct (Hs n) as [_ ->]. reflexivity. }
  rewrite Es. reflexivity.
Qed.
Lemma rmapM_ext {A B} (f g : A -> result B) l : (forall x, In x l -> f x = g x) -> rmapM f l = rmapM g l.
Proof. induction l as [|x l IH]; intros Hx; [reflexivity|]. cbn. rewrite Hx by now left. rewrite IH; [reflexivity|]. intros; apply Hx; now right. Qed.
Lemma output_ext (st : stage) D D' s : proper st -> (forall m w, In (m, w) (mt_gather (sv_task s)) -> same_model (D m) (D' m)) ->
  output (at_dirs st D) s = output (at_dirs st D') s.
Proof.
  intros Hp Hs. unfold output, merged_tensor. cbn [at_dirs e_tokenizer e_permute e_method].
  rewrite (rmapM_ext (fun mw => let! x := source (at_dirs st D) (mt_dtype (sv_task s)) mw in Ok (fst mw, x))
                     (fun mw => let! x := source (at_dirs st D') (mt_dtype (sv_task s)) mw in Ok (fst mw, x))); [reflexivity|].
  intros [m w] Hin. rewrite (source_ext st D D'); auto. exact (Hs m w Hin).
Qed.
Lemma outputs_ext (st : stage) D D' saves : proper st -> st_plan st = Ok saves -> (forall m, reads st m -> same_model (D m) (D' m)) ->
  outputs (at_dirs st D) saves = outputs (at_dirs st D') saves.
Proof.
  intros Hp Hpl Hs. assert (Hin : forall s, In s saves -> output (at_dirs st D) s = output (at_dirs st D') s).
  { intros s Hin. apply output_ext; auto. intros m w Hw. apply Hs. exists saves, s, w. auto. }
  unfold outputs. clear Hpl. induction saves as [|s l IH]; [reflexivity|]. cbn. rewrite Hin by now left. rewrite IH; [reflexivity|]. intros; apply Hin; now right.
Qed.

(** ** One stage *)
Lemma written_holds safe max saves f' :
  saves <> [] -> (safe = true \/ ~ In "state_dict" (map fst saves)) -> NoDup (map fst saves) ->
  async_run nbytes safe None max saves [] (Ok (f', None)) -> holds f' saves.
Proof.
  intros Hs Hf Hnd Hr. destruct (Props.C15_any_read_order nbytes safe max saves f' Hs Hf Hnd Hr) as (ix & Ei & Hk & Hg).
  destruct (async_written nbytes _ _ _ _ _ Hr) as (w & jobs & G & Hp & W).
  pose proof (pk_concat _ _ _ _ _ _ _ Hp) as Ec.
  assert (Hne : G <> []) by (intros ->; cbn in Ec; congruence).
  assert (Ei' : from_disk f' = Ok (the_index w G)).
  { apply (written_index w G [] f'); try apply Hp; auto; [rewrite (pk_safe _ _ _ _ _ _ _ Hp), Ec; exact Hf|split; auto]. }
  assert (Hc : consistent f' (the_index w G)) by (apply (written_consistent w G [] f'); try apply Hp; auto; now rewrite Ec).
  assert (ix = the_index w G) by congruence. subst ix.
  exists (the_index w G). split; [exact Ei|]. split; [exact Hc|]. split; [exact Hk|]. intros n t Hin.
  assert (Hl : last_saved saves n t) by now apply last_saved_In. specialize (Hg [] n t Hl).
  destruct (get_tensor_consistent f' (the_index w G) (after f' (the_index w G) []) n [] true Hc (after_opened f' _ [] Hc)) as [_ Hx].
  rewrite Hx in Hg. unfold expected in Hg. cbn [find] in Hg.
  destruct (dmem (ix_paths (the_index w G)) n); [|discriminate]. destruct (stored f' (the_index w G) n) as [u|]; congruence.
Qed.

(** A finished merge of sound directories leaves a sound directory that holds exactly the specified tensors. *)
Theorem C91_left (st : stage) D D' saves : proper st -> (forall m, reads st m -> sound_dir (D m)) -> step D st D' -> st_plan st = Ok saves ->
  holds (D' (st_out st)) (outputs (at_dirs st D) saves) /\ (forall s, In s saves -> exists x, output (at_dirs st D) s = Ok x) /\
  forall m, m <> st_out st -> D' m = D m.
Proof.
  intros Hp Hd (saves' & A & choose & f' & Hpl & (Hr & Ha) & Hf & Hoth) Hpl'. assert (saves' = saves) by congruence. subst saves'.
  destruct (proj1 Hp saves Hpl) as (HN & Ht & (s0 & Hs0 & Ho0) & Hsafe).
  assert (Ht' : told_apart (at_dirs st D) saves) by exact Ht.
  assert (Hc : inputs_consistent (at_dirs st D) saves).
  { intros s m w ix Hs Hw Hfd. exact (Hd m (ex_intro _ saves (ex_intro _ s (ex_intro _ w (conj Hpl (conj Hs Hw))))) ix Hfd). }
  pose proof (C63_run (st_world st) (at_dirs st D) (st_cfg st) (st_out_cfg st) saves A choose Hpl HN Ht' Hc) as HR.
  cbv zeta in *. destruct (run _ A choose _) as [evs status]. cbn [fst snd] in *. subst status.
  destruct HR as [[Hcomp _] (sv & [(Hacts & HP & Hall)|(Hst & _)])]; [|now destruct Hst].
  split; [|split; [exact Hall|exact Hoth]]. rewrite Hf.
  assert (HNo : NoDup (map fst (outputs (at_dirs st D) saves))) by (apply outputs_NoDup; auto).
  assert (HNs : NoDup (map fst sv)) by (eapply Permutation_NoDup; [apply Permutation_map, Permutation_sym; exact HP|auto]).
  assert (Hne : sv <> []).
  { intros ->. apply Permutation_nil in HP. destruct (Hall s0 Hs0) as (x & Hx).
    assert (Hin : exists y, In (sv_name s0, y) (outputs (at_dirs st D) saves)).
    { destruct x as [y|]. { exists y. unfold outputs. apply in_flat_map. exists s0. split; [exact Hs0|]. rewrite Hx. now left. }
      exfalso. unfold output in Hx. destruct (merged_tensor _ _) as [[u|]|]; cbn in Hx; try discriminate.
      - destruct (cast _ _ u); discriminate.
      - rewrite Ho0 in Hx. discriminate. }
    rewrite HP in Hin. destruct Hin as (y & []). }
  assert (Hsafe' : st_safe st = true \/ ~ In "state_dict" (map fst sv)).
  { destruct Hsafe as [?|Hn]; [now left|]. right. intros Hi. apply Hn. apply (Permutation_in _ (Permutation_map fst HP)) in Hi.
    apply in_map_iff in Hi as ([n t] & En & Hi). cbn in En. subst n. unfold outputs in Hi. apply in_flat_map in Hi as (s & Hs & Hi).
    destruct (output _ s) as [[y|]|]; [|destruct Hi|destruct Hi]. destruct Hi as [[= En _]|[]]. rewrite <- En. now apply in_map. }
  destruct (sync_async nbytes (st_safe st) (st_max st) sv []) as (f1 & E1 & E2).
  assert (f1 = f').
  { rewrite Hacts in Ha. unfold saves_of in Ha. rewrite ops_complete in Ha. unfold sync_ops in E1.
    destruct (save_all nbytes (new_writer (st_safe st) None (st_max st)) sv). rewrite Ha in E1. congruence. }
  subst f1. destruct (written_holds (st_safe st) (st_max st) sv f' Hne Hsafe' HNs E2) as (ix & H1 & H2 & H3 & H4).
  exists ix. split; [exact H1|]. split; [exact H2|]. split.
  - intros n. rewrite H3. split; apply Permutation_in; apply Permutation_map; [exact HP|now apply Permutation_sym].
  - intros n t Hin. apply H4. eapply Permutation_in; [apply Permutation_sym; exact HP|exact Hin].
Qed.

(** ... in which the next merge finds, under the name of a weight, the tensor that was computed for that name. *)
Theorem C91_next (st2 : stage) D outs m w t : holds (D m) outs -> In (wi_name w, t) outs -> wi_name w <> "" ->
  stored_for (at_dirs st2 D) (m, w) = Ok (Some t).
Proof.
  intros (ix & E1 & _ & Hk & Hs) Hin Hn. unfold stored_for. cbn [at_dirs e_dir]. rewrite E1. cbn [rbind find].
  assert (Hm : dmem (ix_paths ix) (wi_name w) = true). { apply dmem_In, Hk. apply in_map_iff. exists (wi_name w, t). auto. }
  rewrite Hm. destruct (eqb_spec (wi_name w) "") as [Ee|_]; [now destruct Hn|]. now rewrite (Hs _ _ Hin).
Qed.

(** ** Any number of stages *)
Lemma holds_sound (f : fs T) outs : holds f outs -> sound_dir f.
Proof. intros (ix & E1 & Hc & _) jx E2. congruence. Qed.
Lemma stages_others l : forall D D', stages D l D' -> forall m, ~ In m (map st_out l) -> D' m = D m.
Proof.
  induction l as [|st l IH]; intros D D' Hst m Hm; [exact (Hst m)|]. destruct Hst as (D1 & (sv & A & ch & f' & _ & _ & _ & Ho) & Hl).
  cbn in Hm. rewrite (IH _ _ Hl m) by tauto. apply Ho. intros ->. tauto.
Qed.

(** When all stages have run, each in its turn, every output directory holds the tensors that its configuration specifies of
    the directories as they are then - merged directories included - and nothing else has changed. *)
Theorem C91_pipeline l : forall D D', stages D l D' -> in_order l -> (forall st, In st l -> proper st) -> (forall m, ~ In m (map st_out l) -> sound_dir (D m)) ->
  (forall st saves, In st l -> st_plan st = Ok saves -> holds (D' (st_out st)) (outputs (at_dirs st D') saves)) /\
  (forall m, ~ In m (map st_out l) -> D' m = D m) /\ (forall m, sound_dir (D' m)).
Proof.
  assert (Hgen : forall l done D D', stages D l D' -> in_order l -> (forall st, In st l -> proper st) ->
    (forall m, ~ In m (map st_out l) -> sound_dir (D m)) -> (forall m, In m done -> ~ In m (map st_out l)) ->
    (forall st saves, In st l -> st_plan st = Ok saves -> holds (D' (st_out st)) (outputs (at_dirs st D') saves)) /\ (forall m, sound_dir (D' m))).
  { clear l. induction l as [|st l IH]; intros done D D' Hst Ho Hp Hd Hdone.
    { split; [intros ? ? []|]. intros m. cbn in Hst. rewrite Hst. apply Hd. intros []. }
    destruct Hst as (D1 & Hs & Hl). destruct Ho as (Hr & Hn & Ho).
    pose proof Hs as (saves & _ & _ & _ & Hpl & _).
    assert (Hd1 : forall m, reads st m -> sound_dir (D m)) by (intros m Hm; apply Hd, Hr, Hm).
    destruct (C91_left st D D1 saves (Hp st (or_introl eq_refl)) Hd1 Hs Hpl) as (Hh & _ & Hoth).
    destruct (IH (st_out st :: done) D1 D' Hl Ho) as (IH1 & IH2).
    { intros; apply Hp; now right. }
    { intros m Hm. destruct (eqb m (st_out st)) eqn:Em. { apply eqb_iff in Em. subst m. exact (holds_sound _ _ Hh). }
      assert (m <> st_out st) by (intros ->; rewrite eqb_refl in Em; discriminate). rewrite Hoth by assumption. apply Hd. cbn. intuition. }
    { intros m [<-|Hm]; [exact Hn|]. intros Hi. apply (Hdone m Hm). now right. }
    split; [|exact IH2]. intros st' saves' [<-|Hin] Hpl'; [|now apply IH1].
    assert (saves' = saves) by congruence. subst saves'.
    rewrite (stages_others l D1 D' Hl _ Hn). rewrite (outputs_ext st D' D saves); auto.
    - apply Hp. now left.
    - intros m Hm. specialize (Hr m Hm). cbn in Hr. rewrite (stages_others l D1 D' Hl m) by tauto. rewrite Hoth by (intros ->; tauto). apply same_model_refl. }
  intros D D' Hst Ho Hp Hd. destruct (Hgen l [] D D' Hst Ho Hp Hd) as (H1 & H2); [intros ? []|]. split; [exact H1|]. split; [|exact H2].
  intros m Hm. exact (stages_others l D D' Hst m Hm).
Qed.

(** The order does not matter, nor do the schedules: two executions of the same merges, each running a merge after those it
    reads, leave the same tensors in every directory. *)
Theorem C91_order l l' D D1 D2 : Permutation l l' -> stages D l D1 -> stages D l' D2 -> in_order l -> in_order l' ->
  (forall st, In st l -> proper st) -> (forall m, ~ In m (map st_out l) -> sound_dir (D m)) ->
  forall m, same_model (D1 m) (D2 m).
Proof.
  intros HP H1 H2 O1 O2 Hp Hd.
  destruct (C91_pipeline l D D1 H1 O1 Hp Hd) as (A1 & A2 & _).
  assert (Hp' : forall st, In st l' -> proper st) by (intros st Hst; apply Hp; eapply Permutation_in; [apply Permutation_sym; exact HP|exact Hst]).
  assert (Hm' : forall m, In m (map st_out l') <-> In m (map st_out l)).
  { intros m. split; apply Permutation_in, Permutation_map; [now apply Permutation_sym|exact HP]. }
  destruct (C91_pipeline l' D D2 H2 O2 Hp') as (B1 & B2 & _). { intros m Hm. apply Hd. now rewrite <- Hm'. }
  (* every prefix of [l] *)
  assert (Hgen : forall done rest, l = done ++ rest -> forall m, ~ In m (map st_out rest) -> same_model (D1 m) (D2 m)).
  { induction done as [|st done IH] using rev_ind; intros rest El m Hm.
    - cbn in El. subst rest. rewrite A2 by exact Hm. rewrite B2 by (rewrite Hm'; exact Hm). apply same_model_refl.
    - rewrite <- app_assoc in El. cbn in El. destruct (eqb m (st_out st)) eqn:Em.
      + apply eqb_iff in Em. subst m.
        assert (Hst : In st l) by (rewrite El, in_app_iff; right; now left).
        assert (Hplan : exists saves, st_plan st = Ok saves).
        { clear -H1 Hst. revert D H1. induction l as [|x l0 IHl]; intros D H1; [destruct Hst|]. destruct H1 as (Dx & Hs & Hl). destruct Hst as [->|Hst]; [|now apply (IHl Hst Dx)].
          destruct Hs as (saves & _ & _ & _ & Hpl & _). eauto. }
        destruct Hplan as (saves & Hpl).
        pose proof (A1 st saves Hst Hpl) as Ha. pose proof (B1 st saves (Permutation_in _ HP Hst) Hpl) as Hb.
        rewrite (outputs_ext st D2 D1 saves (Hp st Hst) Hpl) in Hb; [exact (holds_same _ _ _ Ha Hb)|].
        intros x Hx. apply same_model_sym. apply (IH (st :: rest) El).
        clear -O1 El Hx. revert l O1 El. induction done as [|y done IHd]; intros l O1 El; subst l.
        * destruct O1 as (Hr & _). exact (Hr x Hx).
        * destruct O1 as (_ & _ & O1). exact (IHd _ O1 eq_refl).
      + apply (IH (st :: rest) El). cbn. intros [E|Hi]; [|tauto]. subst m. rewrite eqb_refl in Em. discriminate. }
  intros m. apply (Hgen l []); [now rewrite app_nil_r|intros []].
Qed.
End Stages.

(** * An example *)
(** Three merges of a model with one weight: of models 1 and 2 into 3, of 3 and 1 into 4, of 2 and 1 into 5; tensors are
    represented by where they come from. The last may also run first. *)
Definition s_world : world nat :=
  {| w_arch := [("default", {| md_arch := json_module {| ja_pre := []; ja_layer := [Plan.Props.wi "layers.${layer_index}.w" false None];
       ja_post := []; ja_key := Some "num_hidden_layers"; ja_override := None |}; md_prefix := None |})];
     w_cfg := fun _ => CVObj [("num_hidden_layers", CVInt 1)]; w_tensors := fun _ => ["layers.0.w"]; w_params := []; w_tparams := []; w_tokenizer := false |}.
Definition s_slice (ms : list nat) : output_slice nat :=
  {| os_sources := map (fun m => {| is_model := m; is_start := 0; is_end := 1; is_params := None |}) ms; os_base := None; os_params := None |}.
Definition s_join (t : merge_task nat) (d : dict nat string) : result (option string) := Ok (Some ("(" ++ String.concat " " (dvals d) ++ ")")%string).
Definition s_stage (out : nat) (ms : list nat) : stage nat string unit :=
  {| st_out := out; st_world := s_world; st_env := ex_env plain s_join; st_convert := fun _ _ _ => Ok None;
     st_cfg := {| mc_modules := None; mc_slices := Some [s_slice ms]; mc_models := None; mc_base := None; mc_params := None; mc_dtype := None; mc_out_dtype := None |};
     st_out_cfg := CVObj [("num_hidden_layers", CVInt 1)]; st_safe := true; st_max := 100 |}.
Definition s_dir (x : string) : fs string := [("model.safetensors", FShard true [("layers.0.w", x)])].
Definition s_start (m : nat) : fs string := match m with 1 => s_dir "a" | 2 => s_dir "b" | _ => [] end%nat.
Definition s_set (D : nat -> fs string) (m : nat) (f : fs string) (x : nat) : fs string := if Nat.eqb x m then f else D x.
Definition s_size (x : string) : nat := String.length x.
Definition s_plan (out : nat) (ms : list nat) := match st_plan (s_stage out ms) with Ok l => l | Err _ => [] end.

Ltac s_step out ms f :=
  exists (s_plan out ms), ex_attrs, first_ready, f;
  split; [vm_compute; reflexivity|]; split; [vm_compute; split; reflexivity|]; split; [reflexivity|];
  intros m Hm; change (m <> out) in Hm; apply Nat.eqb_neq in Hm; match goal with |- _ = ?r => change ((if Nat.eqb m out then f else r) = r) end; now rewrite Hm.
Lemma s_dir_sound x : sound_dir (s_dir x).
Proof.
  intros ix [= <-]. split.
  - intros k file Hk. cbn [ix_paths] in Hk. apply dget_In in Hk. destruct Hk as [[= <- <-]|[]]. eexists. split; [reflexivity|now left].
  - intros k file d n Hk Ho Hx. cbn [ix_paths] in *. apply dget_In in Hk. destruct Hk as [[= <- <-]|[]]. cbn in Ho. injection Ho as <-. destruct Hx as [<-|[]]. reflexivity.
Qed.
Lemma s_proper out m1 m2 : (out, m1, m2) = (3, 1, 2)%nat \/ (out, m1, m2) = (4, 3, 1)%nat \/ (out, m1, m2) = (5, 2, 1)%nat -> proper (s_stage out [m1; m2]).
Proof.
  intros Hc. split; [|reflexivity]. intros saves Hp. assert (Es : saves = s_plan out [m1; m2]) by (unfold s_plan; now rewrite Hp). clear Hp.
  destruct Hc as [[= -> -> ->]|[[= -> -> ->]|[= -> -> ->]]]; vm_compute in Es; subst saves;
    (split; [nodup|]; split; [intros s [<-|[]]; vm_compute; nodup|]; split; [eexists; split; [now left|reflexivity]|now left]).
Qed.
Lemma s_reads out m1 m2 m : (out, m1, m2) = (3, 1, 2)%nat \/ (out, m1, m2) = (4, 3, 1)%nat \/ (out, m1, m2) = (5, 2, 1)%nat -> reads (s_stage out [m1; m2]) m -> m = m1 \/ m = m2.
Proof.
  intros Hc (saves & s & w & Hp & Hs & Hw). assert (Es : saves = s_plan out [m1; m2]) by (unfold s_plan; now rewrite Hp). clear Hp.
  destruct Hc as [[= -> -> ->]|[[= -> -> ->]|[= -> -> ->]]]; vm_compute in Es; subst saves; destruct Hs as [<-|[]]; cbn in Hw; intuition congruence.
Qed.
Definition s_one := s_stage 3 [1; 2]%nat. Definition s_two := s_stage 4 [3; 1]%nat. Definition s_three := s_stage 5 [2; 1]%nat.
Example C91_nonvacuous :
  exists D1 D2,
    stages s_size s_start [s_one; s_two; s_three] D1 /\ stages s_size s_start [s_three; s_one; s_two] D2 /\
    Permutation [s_one; s_two; s_three] [s_three; s_one; s_two] /\
    in_order [s_one; s_two; s_three] /\ in_order [s_three; s_one; s_two] /\ ~ in_order [s_two; s_one; s_three] /\
    (forall st, In st [s_one; s_two; s_three] -> proper st) /\ (forall m, sound_dir (s_start m)) /\
    D1 4%nat = s_dir "((a b) a)".
Proof.
  set (d1 := s_set s_start 3 (s_dir "(a b)")). set (d2 := s_set d1 4 (s_dir "((a b) a)")). set (d3 := s_set d2 5 (s_dir "(b a)")).
  set (e1 := s_set s_start 5 (s_dir "(b a)")). set (e2 := s_set e1 3 (s_dir "(a b)")). set (e3 := s_set e2 4 (s_dir "((a b) a)")).
  exists d3, e3.
  split. { exists d1. split; [s_step 3%nat [1; 2]%nat (s_dir "(a b)")|]. exists d2. split; [s_step 4%nat [3; 1]%nat (s_dir "((a b) a)")|].
           exists d3. split; [s_step 5%nat [2; 1]%nat (s_dir "(b a)")|]. intros m. reflexivity. }
  split. { exists e1. split; [s_step 5%nat [2; 1]%nat (s_dir "(b a)")|]. exists e2. split; [s_step 3%nat [1; 2]%nat (s_dir "(a b)")|].
           exists e3. split; [s_step 4%nat [3; 1]%nat (s_dir "((a b) a)")|]. intros m. reflexivity. }
  split. { apply Permutation_sym. exact (Permutation_cons_append [s_one; s_two] s_three). }
  assert (R1 : forall m, reads s_one m -> m = 1%nat \/ m = 2%nat) by (intros m; apply s_reads; auto).
  assert (R2 : forall m, reads s_two m -> m = 3%nat \/ m = 1%nat) by (intros m; apply s_reads; auto).
  assert (R3 : forall m, reads s_three m -> m = 2%nat \/ m = 1%nat) by (intros m; apply s_reads; auto).
  split. { cbn. repeat split; try (intros m Hm; first [apply R1 in Hm|apply R2 in Hm|apply R3 in Hm]); lia. }
  split. { cbn. repeat split; try (intros m Hm; first [apply R1 in Hm|apply R2 in Hm|apply R3 in Hm]); lia. }
  split. { intros (Hr & _). apply (Hr 3%nat); [|cbn; auto]. exists (s_plan 4 [3; 1]%nat). eexists _, _. split; [vm_compute; reflexivity|]. split; [vm_compute; now left|vm_compute; now left]. }
  split. { intros st [<-|[<-|[<-|[]]]]; apply s_proper; auto. }
  split; [|reflexivity]. intros m. unfold s_start. destruct m as [|[|[|m]]]; try apply s_dir_sound; intros ix [=].
Qed.

Print Assumptions C91_left.
Print Assumptions C91_next.
Print Assumptions C91_pipeline.
Print Assumptions C91_order.
