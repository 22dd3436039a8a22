From Coq Require Import QArith Lia Permutation.
From Verif.Base Require Import Py PyStr PyFacts.
From Verif.Config Require Import Model.
From Verif.Arch Require Import Model.
From Verif.Plan Require Import Model Proofs.
From Verif.Graph Require Import Model Spec UniverseProofs ScheduleProofs ExecProofs Proofs.
From Verif.IO Require Import Model Spec LoaderProofs DirProofs FsProofs WriterProofs RunProofs.
From Verif.IO Require Props.
From Verif.Run Require Import Model Spec.
Local Open Scope string_scope.
Local Open Scope list_scope.

(** ** A reported target comes after the targets it depends on *)
Lemma filter_split {X} (f : X -> bool) : forall l y1 x y2, filter f l = y1 ++ x :: y2 ->
  exists l1 l2, l = l1 ++ x :: l2 /\ filter f l1 = y1 /\ filter f l2 = y2 /\ f x = true.
Proof.
  induction l as [|a l IH]; intros y1 x y2 E; cbn in E; [destruct y1; discriminate|].
  destruct (f a) eqn:Fa.
  - destruct y1 as [|b y1]; cbn in E; injection E as -> E.
    + exists [], l. auto.
    + destruct (IH _ _ _ E) as (l1 & l2 & -> & <- & <- & Fx). exists (b :: l1), l2. cbn. rewrite Fa. auto.
  - destruct (IH _ _ _ E) as (l1 & l2 & -> & <- & <- & Fx). exists (a :: l1), l2. cbn. rewrite Fa. auto.
Qed.

Section Order.
Context {L V : Type} `{Eqb L} (A : attrs L) (S : semantics L V).
Lemma yield_order choose u targets cached env (G : good u targets cached env) y1 h v y2 d :
  yields (fst (executor_run A S choose u targets cached)) = y1 ++ (h, v) :: y2 ->
  depends u h d -> In d targets -> ~ In d (dkeys cached) -> In d (map fst y1).
Proof.
  intros E Hd Ht Hc. destruct (executor_run_ok A S choose u targets cached env G) as (sched & HS & HR).
  destruct HR as (p & q & Er & Hy & Hyv & Hpv & Hlen & Hks & Hst).
  rewrite E, map_app in Hy. cbn in Hy.
  destruct (filter_split _ p _ _ _ (eq_sym Hy)) as (p1 & p2 & -> & E1 & _ & _).
  assert (Hx : exists l2, executed (fst (executor_run A S choose u targets cached)) = p1 ++ h :: l2).
  { destruct (snd (executor_run A S choose u targets cached)).
    - destruct Hst as (h' & q' & t & _ & -> & _). exists (p2 ++ [h']). now rewrite <- app_assoc.
    - destruct Hst as [-> ->]. rewrite app_nil_r in Er. subst. eauto. }
  destruct Hx as (l2 & Ex).
  destruct (run_executed_order A S choose u targets cached env G _ _ _ _ Ex Hd) as [|Hin]; [contradiction|].
  rewrite <- E1. apply filter_In. split; auto. now apply mem_In.
Qed.
End Order.

Ltac lit := cbn; repeat (match goal with |- context [@eqb string ?i ?a ?b] =>
    let r := eval vm_compute in (@eqb string i a b) in
    match r with true => change (@eqb string i a b) with true | false => change (@eqb string i a b) with false end
  end; cbn).

Section Run.
Context {M : Type} `{Eqb M} {T K : Type}.
Variable E : env M T K.
Variable A : attrs (lbl M).
Notation tsk := (task (lbl M)).

(** ** values of tasks *)
Lemma rbind_id {X} (r : result X) : rmap (fun v => v) r = r.
Proof. now destruct r. Qed.
Lemma eval_node l args : eval A (sem E) no_env (Node l args) =
  (let! vs := rmapM (fun kt => let! v := eval A (sem E) no_env (snd kt) in Ok (fst kt, v)) args in exec E l vs).
Proof.
  rewrite eval_unfold by reflexivity. cbn [label targs execute to_store to_math sem].
  rewrite (rmapM_ext _ (fun kt => let! v := eval A (sem E) no_env (snd kt) in Ok (fst kt, v))).
  2:{ intros kt _. now destruct (uses_accelerator A l). }
  destruct (rmapM _ args) as [vs|e]; cbn; auto. apply rbind_id.
Qed.

Definition consistent_input (mw : M * weight_info) : Prop :=
  forall ix, from_disk (e_dir E (fst mw)) = Ok ix -> consistent (e_dir E (fst mw)) ix.

Lemma eval_load dtype mw : consistent_input mw ->
  eval A (sem E) no_env (load_task dtype mw) = rmap VTensor (source E dtype mw).
Proof.
  intros HC. destruct mw as [m w]. unfold load_task. rewrite eval_node. cbn [rmapM rbind exec fst snd].
  unfold exec_load, source, stored_for. cbn [fst snd]. unfold consistent_input in HC. cbn [fst] in HC.
  destruct (from_disk (e_dir E m)) as [ix|e]; cbn [rbind rmap]; [|reflexivity].
  specialize (HC ix eq_refl).
  match goal with |- (let! _ := ?a in _) = rmap _ (let! _ := ?b in _) => assert (Hab : a = b) end.
  { destruct (find _ _) as [n|] eqn:F; auto. destruct (eqb n ""); auto.
    rewrite (proj1 (Props.C20_history _ ix _ n [] true HC)). unfold expected. cbn [find].
    apply find_some in F as [_ F]. rewrite F. now destruct (stored (e_dir E m) ix n). }
  rewrite Hab. clear Hab.
  match goal with |- (let! _ := ?b in _) = _ => destruct b as [[x|]|e] end; cbn [rbind rmap]; auto.
  - destruct (cast E (or_str (wi_dtype w) dtype) x); auto.
  - now destruct (wi_optional w).
Qed.


Lemma rmapM_tag {X Y Z'} (f : X -> result Y) (h : X -> Y -> Z') l :
  rmapM (fun x => let! y := f x in Ok (h x y)) l =
  rmap (map (fun p => h (fst p) (snd p))) (rmapM (fun x => let! y := f x in Ok (x, y)) l).
Proof.
  induction l as [|x l IH]; cbn; auto. destruct (f x) as [y|e]; cbn; auto. rewrite IH.
  match goal with |- context [rmapM ?g l] => destruct (rmapM g l) end; reflexivity.
Qed.
Lemma rmapM_tag_fst {X Y} (f : X -> result Y) l ps :
  rmapM (fun x => let! y := f x in Ok (x, y)) l = Ok ps -> map fst ps = l.
Proof.
  intros F. apply rmapM_Ok_Forall2 in F. induction F as [|x p l ps Hx _ IH]; cbn; auto.
  destruct (f x); cbn in Hx; [|discriminate]. injection Hx as <-. cbn. now rewrite IH.
Qed.
Lemma rmapM_map' {X Y Z'} (f : Y -> result Z') (g : X -> Y) l : rmapM f (map g l) = rmapM (fun x => f (g x)) l.
Proof. induction l as [|x l IH]; cbn; auto. now rewrite IH. Qed.

Lemma present_NoDup (xs : list (M * option T)) : NoDup (map fst xs) -> NoDup (dkeys (present xs)).
Proof.
  unfold present. induction xs as [|[m [x|]] xs IH]; cbn; intros HN; [constructor| |]; inversion HN; subst; auto.
  unfold dkeys. cbn. constructor; [|now apply IH]. intros Hin. apply in_map_iff in Hin as ([m' y] & Em & Hin). cbn in Em. subst.
  apply in_flat_map in Hin as ([m2 [z|]] & Hi & Hy); cbn in Hy; [|easy]. destruct Hy as [[= -> ->]|[]].
  apply H2. apply in_map_iff. exists (m, Some y). auto.
Qed.

Lemma eval_gather g dtype : NoDup (map (arg_key E) g) -> NoDup (dkeys g) -> (forall mw, In mw g -> consistent_input mw) ->
  eval A (sem E) no_env (gather_task E g dtype) =
  rmap (fun xs => VTensors (present xs)) (rmapM (fun mw => let! x := source E dtype mw in Ok (fst mw, x)) g).
Proof.
  intros HK HN HC. unfold gather_task. rewrite eval_node.
  assert (HK' : NoDup (dkeys (map (fun mw => (arg_key E mw, load_task dtype mw)) g))).
  { unfold dkeys. rewrite map_map. cbn. exact HK. }
  rewrite (dict_of_id _ HK'). rewrite rmapM_map'. cbn [fst snd].
  rewrite (rmapM_ext _ (fun mw => let! x := source E dtype mw in Ok (arg_key E mw, VTensor x))).
  2:{ intros mw Hin. rewrite eval_load by auto. now destruct (source E dtype mw). }
  rewrite (rmapM_tag (source E dtype) (fun mw x => (arg_key E mw, VTensor x))).
  rewrite (rmapM_tag (source E dtype) (fun mw x => (fst mw, x))).
  destruct (rmapM _ g) as [ps|e] eqn:EP; cbn [rmap rbind]; auto.
  apply rmapM_tag_fst in EP. subst g. cbn [exec]. unfold exec_gather.
  rewrite dict_of_id. 2:{ unfold dkeys. rewrite !map_map. cbn. rewrite map_map in HK. exact HK. }
  rewrite map_map, rmapM_map'.
  assert (HR : rmapM (fun p => match dget (map (fun p : M * weight_info * option T => (arg_key E (fst p), VTensor (M:=M) (K:=K) (snd p))) ps) (arg_key E (fst p)) with
                          | Some (VTensor x) => Ok (fst (fst p), x)
                          | Some _ => Err TypeError
                          | None => Err KeyError
                          end) ps = Ok (map (fun p => (fst (fst p), snd p)) ps)).
  { apply rmapM_Ok_Forall2.
    assert (HD : forall p, In p ps -> dget (map (fun p : M * weight_info * option T => (arg_key E (fst p), VTensor (M:=M) (K:=K) (snd p))) ps) (arg_key E (fst p)) = Some (VTensor (M:=M) (K:=K) (snd p))).
    { intros p Hp. apply dget_In_NoDup.
      - unfold dkeys. rewrite map_map. cbn. rewrite map_map in HK. exact HK.
      - apply in_map_iff. exists p. auto. }
    generalize dependent (map (fun p : M * weight_info * option T => (arg_key E (fst p), VTensor (M:=M) (K:=K) (snd p))) ps).
    intros d HD. clear -HD. induction ps as [|p ps IH]; cbn; constructor.
    - rewrite (HD p) by now left. reflexivity.
    - apply IH. intros q Hq. apply HD. now right. }
  cbn [fst snd] in *. rewrite HR. cbn [rbind]. unfold present at 1. f_equal. f_equal.
  apply dict_of_nodup. apply present_NoDup. rewrite map_map. cbn. unfold dkeys in HN. rewrite map_map in HN. exact HN.
Qed.

Definition good_task (t : merge_task M) : Prop :=
  NoDup (map (arg_key E) (mt_gather t)) /\ NoDup (dkeys (mt_gather t)) /\
  (forall mw, In mw (mt_gather t) -> consistent_input mw).

Lemma eval_merge t : good_task t ->
  eval A (sem E) no_env (merge_node E t) = rmap VTensor (merged_tensor E t).
Proof.
  intros (HK & HN & HC). unfold merge_node. rewrite eval_node. cbn [rmapM fst snd]. unfold merged_tensor, input_task.
  destruct (mt_permuted t).
  - rewrite eval_node. cbn [rmapM fst snd]. unfold tokenizer_task. rewrite eval_node. cbn [rmapM rbind exec].
    destruct (e_tokenizer E) as [k|e]; cbn [rbind rmap]; auto.
    rewrite (eval_gather _ _ HK HN HC).
    destruct (rmapM _ (mt_gather t)) as [xs|e]; cbn [rbind rmap exec]; auto.
    lit. destruct (e_permute E (mt_base t) k (present xs)) as [d|e]; lit; auto.
  - rewrite (eval_gather _ _ HK HN HC).
    destruct (rmapM _ (mt_gather t)) as [xs|e]; cbn [rbind rmap exec]; auto.
Qed.

Lemma eval_save s : good_task (sv_task s) ->
  eval A (sem E) no_env (save_node E s) = rmap (VSaved (sv_name s)) (output E s).
Proof.
  intros HG. unfold save_node. rewrite eval_node. cbn [rmapM fst snd]. unfold writer_task. rewrite eval_node. cbn [rmapM rbind exec].
  rewrite (eval_merge _ HG). unfold output. destruct (merged_tensor E (sv_task s)) as [[x|]|e]; cbn [rbind rmap exec]; auto; lit.
  - now destruct (cast E (sv_dtype s) x).
  - now destruct (sv_optional s).
Qed.
Lemma eval_return s : good_task (sv_task s) ->
  eval A (sem E) no_env (return_node E s) =
  (let! x := merged_tensor E (sv_task s) in exec_return E (sv_dtype s) x).
Proof.
  intros HG. unfold return_node. rewrite eval_node. cbn [rmapM fst snd].
  rewrite (eval_merge _ HG). destruct (merged_tensor E (sv_task s)) as [x|e]; cbn [rbind rmap exec]; auto.
Qed.
(** ** the targets are well-formed *)
Lemma dict_of_In {X Y} `{Eqb X} (l : list (X * Y)) kv : In kv (dict_of l) -> In kv l.
Proof.
  unfold dict_of. rewrite <- (rev_involutive l). induction (rev l) as [|a r IH]; cbn; [auto|].
  rewrite fold_left_app. cbn. intros Hin. apply in_app_iff.
  assert (Hd : forall (d : dict X Y) k v, In kv (dset d k v) -> In kv d \/ kv = (k, v)).
  { clear. induction d as [|[k' v'] d IH]; cbn; intros k v Hin; [destruct Hin as [<-|[]]; auto|].
    destruct (eqb k k') eqn:Ek; destruct Hin as [<-|Hin]; auto.
    - apply eqb_iff in Ek. subst. auto.
    - destruct (IH _ _ Hin); auto. }
  destruct (Hd _ _ _ Hin) as [Hi | ->]; [left; auto|right; left; now destruct a].
Qed.
Lemma wf_leaf l : wf_task (Node (L:=lbl M) l []).
Proof. constructor; [constructor|intros k t []]. Qed.
Lemma wf_merge t : wf_task (merge_node E t).
Proof.
  assert (HG : wf_task (gather_task E (mt_gather t) (mt_dtype t))).
  { constructor.
    - apply dict_of_NoDup.
    - intros k x Hin. apply dict_of_In in Hin. apply in_map_iff in Hin as (mw & [= <- <-] & _). apply wf_leaf. }
  constructor; [cbn; repeat constructor; easy|].
  intros k x [[= <- <-]|[]]. unfold input_task. destruct (mt_permuted t); auto.
  constructor; [cbn; repeat constructor; cbn; intuition congruence|].
  intros k x [[= <- <-]|[[= <- <-]|[]]]; auto. apply wf_leaf.
Qed.
Lemma wf_save s : wf_task (save_node E s).
Proof.
  constructor; [cbn; repeat constructor; cbn; intuition congruence|].
  intros k x [[= <- <-]|[[= <- <-]|[]]]; [apply wf_leaf|apply wf_merge].
Qed.
Lemma wf_return s : wf_task (return_node E s).
Proof. constructor; [cbn; repeat constructor; easy|]. intros k x [[= <- <-]|[]]. apply wf_merge. Qed.
Lemma unused_inj i j : unused i = unused j -> i = j.
Proof. unfold unused. intros Hu. cbn in Hu. injection Hu as Hu. apply str_of_Z_inj in Hu. lia. Qed.
Lemma enum_fst {X} (l : list X) : forall i, map fst (enumerate_from i l) = seq i (length l).
Proof. induction l; cbn; intros; auto. now rewrite IHl. Qed.
Lemma enum_snd {X} (l : list X) : forall i, map snd (enumerate_from i l) = l.
Proof. induction l; cbn; intros; auto. now rewrite IHl. Qed.
Lemma wf_finalize saves : wf_task (finalize_node (map (save_node E) saves)).
Proof.
  constructor.
  - cbn [map fst]. rewrite map_map. cbn [fst]. rewrite <- (map_map fst unused). rewrite enum_fst. constructor.
    + intros Hin. apply in_map_iff in Hin as (it & Hu & _). unfold unused in Hu. discriminate.
    + apply FinFun.Injective_map_NoDup; [|apply seq_NoDup]. intros i j. apply unused_inj.
  - intros k x [[= <- <-]|Hin]; [apply wf_leaf|]. apply in_map_iff in Hin as ([i t] & [= <- <-] & Hin).
    assert (Ht : In t (map (save_node E) saves)).
    { rewrite <- (enum_snd _ 0). apply in_map_iff. exists (i, t). auto. }
    apply in_map_iff in Ht as (s & <- & _). apply wf_save.
Qed.
Lemma wf_targets tok saves : Forall wf_task (disk_targets E tok saves).
Proof.
  apply Forall_forall. intros t Ht. unfold disk_targets in Ht. rewrite !in_app_iff in Ht.
  destruct Ht as [Ht|[[<-|[]]|Ht]].
  - apply in_map_iff in Ht as (s & <- & _). apply wf_save.
  - apply wf_finalize.
  - destruct tok; [destruct Ht as [<-|[]]; apply wf_leaf|easy].
Qed.

Lemma eval_finalize saves : (forall s, In s saves -> good_task (sv_task s)) ->
  (forall s, In s saves -> exists x, output E s = Ok x) ->
  eval A (sem E) no_env (finalize_node (map (save_node E) saves)) = Ok VFinalized.
Proof.
  intros HG HO. unfold finalize_node. rewrite eval_node. cbn [rmapM fst snd].
  unfold writer_task. rewrite eval_node. cbn [rmapM rbind exec].
  assert (HE : exists vs, rmapM (fun kt => let! v := eval A (sem E) no_env (snd kt) in Ok (fst kt, v))
                 (map (fun it => (unused (fst it), snd it)) (enumerate_from 0 (map (save_node E) saves))) = Ok vs).
  { rewrite rmapM_map'. generalize 0%nat. induction saves as [|s saves IH]; intros i; cbn [map enumerate_from rmapM fst snd]; [eauto|].
    destruct (HO s) as (x & Hx); [now left|]. rewrite eval_save by (apply HG; now left). rewrite Hx. cbn [rmap rbind].
    destruct (IH (fun s Hs => HG s (or_intror Hs)) (fun s Hs => HO s (or_intror Hs)) (S i)) as (vs & Hv). cbn [fst snd] in Hv. rewrite Hv. cbn [rbind]. eauto. }
  destruct HE as (vs & ->). lit. reflexivity.
Qed.
End Run.
