(** C93: the adapter that is written, loaded into the base model. *)
From Coq Require Import Reals Lra Lia Permutation.
From Verif.Base Require Import LinAlg Py PyFacts.
From Verif.IO Require Import Model.
From Verif.ExtractLora Require Import Model Spec Proofs PlanProofs Props Whole.
Local Open Scope string_scope.
Local Open Scope list_scope.

(** * Vocabulary *)
(** a module name that does not look like a part of an adapter *)
Definition plain (n : string) : Prop := forall p, n <> (p ++ ".lora_A")%string /\ n <> (p ++ ".lora_B")%string.
(** same shape and entries *)
Definition same_mat (a b : mat) : Prop :=
  rows a = rows b /\ cols a = cols b /\ forall i j, (i < rows a)%nat -> (j < cols a)%nat -> at_ a i j = at_ b i j.

(** ** Names *)
Lemma sapp_assoc a b c : ((a ++ b) ++ c = a ++ (b ++ c))%string.
Proof. induction a as [|x a IH]; [reflexivity|]. cbn. now rewrite IH. Qed.
Lemma sapp_inj_l a b c : (a ++ b)%string = (a ++ c)%string -> b = c.
Proof. induction a as [|x a IH]; cbn; [auto|]. intros [= H]. auto. Qed.
Lemma slength_app a b : String.length (a ++ b)%string = (String.length a + String.length b)%nat.
Proof. induction a as [|x a IH]; [reflexivity|]. cbn. now rewrite IH. Qed.
Lemma sapp_inj a : forall b s t, String.length s = String.length t -> (a ++ s)%string = (b ++ t)%string -> a = b /\ s = t.
Proof.
  induction a as [|x a IH]; intros [|y b] s t Hl E; cbn in E.
  - auto.
  - subst s. cbn in Hl. rewrite slength_app in Hl. lia.
  - subst t. cbn in Hl. rewrite slength_app in Hl. lia.
  - injection E as <- E. destruct (IH b s t Hl E) as [-> ->]. auto.
Qed.

Definition suffixes : list string :=
  [".weight"; ".lora_A.weight"; ".lora_B.weight"; ".lora_embedding_A"; ".lora_embedding_B"; ".bias"; ".lora_B.bias"].
(** split a suffix before its last [n] characters *)
Ltac cut_at E s1 n1 s2 n2 :=
  let a1 := eval vm_compute in (String.substring 0 (String.length s1 - n1) s1) in
  let b1 := eval vm_compute in (String.substring (String.length s1 - n1) n1 s1) in
  let a2 := eval vm_compute in (String.substring 0 (String.length s2 - n2) s2) in
  let b2 := eval vm_compute in (String.substring (String.length s2 - n2) n2 s2) in
  change s1 with (a1 ++ b1)%string in E; change s2 with (a2 ++ b2)%string in E;
  rewrite <- !sapp_assoc in E; apply sapp_inj in E; [|reflexivity]; destruct E as [E E'].
Lemma suffix_inj n n' s s' : plain n -> plain n' -> In s suffixes -> In s' suffixes -> (n ++ s)%string = (n' ++ s')%string -> n = n' /\ s = s'.
Proof.
  intros Hp Hp' Hs Hs' E.
  repeat (destruct Hs as [<-|Hs]; [|]); try (now destruct Hs);
  repeat (destruct Hs' as [<-|Hs']; [|]); try (now destruct Hs').
  all: try (apply sapp_inj in E; [|reflexivity]; destruct E as [-> E]; try discriminate E; split; reflexivity).
  all: try (match type of E with (_ ++ ?s1)%string = (_ ++ ?s2)%string => cut_at E s1 1%nat s2 1%nat; discriminate E' end).
  all: exfalso.
  all: try (change ".lora_A.weight" with (".lora_A" ++ ".weight")%string in E).
  all: try (change ".lora_B.weight" with (".lora_B" ++ ".weight")%string in E).
  all: try (change ".lora_B.bias" with (".lora_B" ++ ".bias")%string in E).
  all: rewrite <- sapp_assoc in E; apply sapp_inj in E; [|reflexivity]; destruct E as [E _].
  all: first [exact (proj1 (Hp _) E) | exact (proj2 (Hp _) E) | exact (proj1 (Hp' _) (eq_sym E)) | exact (proj2 (Hp' _) (eq_sym E))].
Qed.
Lemma out_name_inj n n' s s' : plain n -> plain n' -> In s suffixes -> In s' suffixes -> out_name n s = out_name n' s' -> n = n' /\ s = s'.
Proof. intros Hp Hp' Hs Hs' E. unfold out_name in E. apply sapp_inj_l in E. now apply suffix_inj. Qed.

Lemma rbind_ok {A B} (r : result A) (f : A -> result B) y : rbind r f = Ok y -> exists x, r = Ok x /\ f x = Ok y.
Proof. destruct r; cbn; [eauto|discriminate]. Qed.

Lemma NoDup_map_inj {A B} (f : A -> B) l : NoDup (map f l) -> forall a b, In a l -> In b l -> f a = f b -> a = b.
Proof.
  induction l as [|x l IH]; intros Hn a b Ha Hb E; [destruct Ha|]. cbn in Hn. inversion Hn as [|? ? N1 N2]; subst.
  destruct Ha as [<-|Ha], Hb as [<-|Hb]; auto; exfalso; apply N1; [rewrite E|rewrite <- E]; now apply in_map.
Qed.

Section C93.
Variable svd : mat -> mat * (nat -> R) * mat.
Variables base_get model_get : string -> result (option mat).
Variable eo : extract_opts.
Notation extract_action := (extract_action svd base_get model_get eo).
Notation extract := (extract svd base_get model_get eo).

Lemma action_entries a ss ds : extract_action a = Ok (ss, ds) ->
  (forall x, In x (map fst ss) -> exists s, In s suffixes /\ x = out_name (action_name a) s) /\
  (plain (action_name a) -> NoDup (map fst ss)) /\ (forall x, In x (map fst ds) -> x = action_name a) /\ NoDup (map fst ds).
Proof.
  assert (Hdiff : forall n s s', plain n -> In s suffixes -> In s' suffixes -> s <> s' -> out_name n s <> out_name n s').
  { intros n s s' Hp H1 H2 Hne E. apply (out_name_inj n n s s' Hp Hp H1 H2) in E. tauto. }
  assert (Hin : forall s, s = ".weight" \/ s = ".lora_A.weight" \/ s = ".lora_B.weight" \/ s = ".lora_embedding_A" \/ s = ".lora_embedding_B" \/ s = ".bias" \/ s = ".lora_B.bias" -> In s suffixes).
  { intros s Hs. cbn. intuition. }
  destruct a as [n tp b|n b]; cbn [Whole.extract_action action_name]; intros E.
  - apply rbind_ok in E as (tv & _ & E). apply rbind_ok in E as (bs & Eb & E). injection E as <- <-.
    assert (Hbs : map fst bs = [] \/ map fst bs = [out_name n ".lora_B.bias"]).
    { destruct b; [|injection Eb as <-; now left]. apply rbind_ok in Eb as (d & _ & Eb). injection Eb as <-. now right. }
    assert (Ha : In (a_suffix tp) suffixes) by (destruct tp; apply Hin; cbn; auto 8).
    assert (Hb : In (b_suffix tp) suffixes) by (destruct tp; apply Hin; cbn; auto 8).
    cbn [map fst]. split; [|split; [|split]].
    + intros x [<-|[<-|Hx]]; [eauto|eauto|]. destruct Hbs as [Hbs|Hbs]; rewrite Hbs in Hx; [destruct Hx|]. destruct Hx as [<-|[]].
      exists ".lora_B.bias". split; [apply Hin; auto 8|reflexivity].
    + intros Hp. destruct Hbs as [-> | ->]; repeat constructor; cbn; intros Hx; repeat (destruct Hx as [Hx|Hx]; [symmetry in Hx; revert Hx|]); try (now destruct Hx).
      all: apply Hdiff; auto; try (apply Hin; auto 8); destruct tp; discriminate.
    + intros x [<-|[]]. reflexivity.
    + repeat constructor. intros [].
  - apply rbind_ok in E as (w & Ew & E). apply rbind_ok in E as (bs & Eb & E). injection E as <- <-.
    assert (Hs : forall out name l, save_loaded model_get out name = Ok l -> map fst l = [] \/ map fst l = [out]).
    { intros out name l El. unfold save_loaded in El. apply rbind_ok in El as (t & _ & El). injection El as <-. destruct t; auto. }
    assert (Hw := Hs _ _ _ Ew). assert (Hbs : map fst bs = [] \/ map fst bs = [out_name n ".bias"]).
    { destruct b; [exact (Hs _ _ _ Eb)|]. injection Eb as <-. now left. }
    rewrite map_app. split; [|split; [|split; [intros x []|constructor]]].
    + intros x Hx. apply in_app_iff in Hx as [Hx|Hx].
      * destruct Hw as [Hw|Hw]; rewrite Hw in Hx; [destruct Hx|]. destruct Hx as [<-|[]]. exists ".weight". split; [apply Hin; auto|reflexivity].
      * destruct Hbs as [Hbs|Hbs]; rewrite Hbs in Hx; [destruct Hx|]. destruct Hx as [<-|[]]. exists ".bias". split; [apply Hin; auto 8|reflexivity].
    + intros Hp. destruct Hw as [-> | ->], Hbs as [-> | ->]; repeat constructor; cbn; try tauto.
      intros [Hx|[]]. symmetry in Hx. revert Hx. apply Hdiff; auto; try (apply Hin; auto 8). discriminate.
Qed.

Lemma extract_inv acts planned decs : extract acts = Ok (planned, decs) ->
  exists l, Forall2 (fun a sd => extract_action a = Ok sd) acts l /\ planned = concat (map fst l) /\ decs = concat (map snd l).
Proof.
  unfold Whole.extract. intros E. apply rbind_ok in E as (l & El & E). injection E as <- <-. exists l. split; [now apply rmapM_Ok_Forall2|auto].
Qed.
Lemma extract_from acts l : Forall2 (fun a sd => extract_action a = Ok sd) acts l ->
  (forall x, In x (concat (map fst l)) -> exists a ss ds, In a acts /\ extract_action a = Ok (ss, ds) /\ In x ss) /\
  (forall x, In x (concat (map snd l)) -> exists a ss ds, In a acts /\ extract_action a = Ok (ss, ds) /\ In x ds) /\
  (forall a, In a acts -> exists ss ds, extract_action a = Ok (ss, ds) /\ incl ss (concat (map fst l)) /\ incl ds (concat (map snd l))).
Proof.
  induction 1 as [|a [ss ds] acts l Ha _ (IH1 & IH2 & IH3)]; cbn [map concat fst snd].
  - split; [intros x []|]. split; [intros x []|intros a []].
  - split; [|split].
    + intros x Hx. apply in_app_iff in Hx as [Hx|Hx]; [exists a, ss, ds; split; [now left|auto]|].
      destruct (IH1 x Hx) as (a' & ss' & ds' & H1 & H2 & H3). exists a', ss', ds'. split; [now right|auto].
    + intros x Hx. apply in_app_iff in Hx as [Hx|Hx]; [exists a, ss, ds; split; [now left|auto]|].
      destruct (IH2 x Hx) as (a' & ss' & ds' & H1 & H2 & H3). exists a', ss', ds'. split; [now right|auto].
    + intros a' [<-|Hin].
      * exists ss, ds. split; [exact Ha|]. split; apply incl_appl, incl_refl.
      * destruct (IH3 a' Hin) as (ss' & ds' & H1 & H2 & H3). exists ss', ds'. split; [exact H1|]. split; now apply incl_appr.
Qed.
Lemma NoDup_app_intro {A} (l l' : list A) : NoDup l -> NoDup l' -> (forall x, In x l -> ~ In x l') -> NoDup (l ++ l').
Proof.
  induction l as [|x l IH]; intros H1 H2 H3; [exact H2|]. inversion H1 as [|? ? Hx Hl]; subst. cbn. constructor.
  - intros Hin. apply in_app_iff in Hin as [Hin|Hin]; [contradiction|]. exact (H3 x (or_introl eq_refl) Hin).
  - apply IH; auto. intros y Hy. apply H3. now right.
Qed.

Variables (o : options) (is_tuple : bool) (ms : list module_) (mts : list string) (acts : list action) (mts' : list string).
Variables (planned : list (string * mat)) (decs : list (string * (mat * mat))).
Hypothesis Hplan : plan_modules o is_tuple ms mts = Ok (acts, mts').
Hypothesis Hrun : extract acts = Ok (planned, decs).
Hypothesis Hnd : NoDup (map mo_name ms).
Hypothesis Hplain : forall m, In m ms -> plain (mo_name m).

Lemma acts_plain a : In a acts -> plain (action_name a).
Proof. intros Ha. destruct (C50_plan o is_tuple ms mts acts mts' Hnd Hplan) as (_ & H & _). destruct (H a Ha) as (m & Hm & ->). auto. Qed.

(** No two tensors of the adapter have the same name, and no module is decomposed twice. *)
Theorem C93_names : NoDup (map fst planned) /\ NoDup (map fst decs).
Proof.
  destruct (C50_plan o is_tuple ms mts acts mts' Hnd Hplan) as (Hn & _ & _ & _).
  destruct (extract_inv _ _ _ Hrun) as (l & HF & -> & ->).
  assert (Hp : forall a, In a acts -> plain (action_name a)) by exact acts_plain. clear Hrun Hplan.
  induction HF as [|a [ss ds] acts' l Ha HF IH]; cbn [map concat fst snd]; [split; constructor|].
  cbn [map] in Hn. inversion Hn as [|? ? H1 H2]; subst. destruct IH as [I1 I2]; [exact H2|intros; apply Hp; now right|].
  destruct (action_entries a ss ds Ha) as (A1 & A2 & A3 & A4). destruct (extract_from _ _ HF) as (F1 & F2 & _).
  rewrite !map_app. split; apply NoDup_app_intro; auto.
  - apply A2, Hp. now left.
  - intros x Hx Hx'. destruct (A1 x Hx) as (s & Hs & ->). apply in_map_iff in Hx' as (y & Ey & Hy).
    destruct (F1 y Hy) as (a' & ss' & ds' & B1 & B2 & B3). destruct (action_entries a' ss' ds' B2) as (C1 & _).
    destruct (C1 (fst y) (in_map fst _ _ B3)) as (s' & Hs' & E). rewrite Ey in E.
    apply out_name_inj in E as [E _]; auto; [|apply Hp; now left|apply Hp; now right]. apply H1. rewrite E. now apply in_map.
  - intros x Hx Hx'. rewrite (A3 x Hx) in Hx'. apply in_map_iff in Hx' as (y & Ey & Hy).
    destruct (F2 y Hy) as (a' & ss' & ds' & B1 & B2 & B3). destruct (action_entries a' ss' ds' B2) as (_ & _ & C1 & _).
    rewrite (C1 (fst y) (in_map fst _ _ B3)) in Ey. apply H1. rewrite <- Ey. now apply in_map.
Qed.

(** the file: the same tensors in some order; the decompositions, recorded in some order *)
Variables (file : list (string * mat)) (mods : list (string * (mat * mat))) (c : adapter_config).
Hypothesis Hfile : Permutation planned file.
Hypothesis Hmods : Permutation decs mods.
Hypothesis Hcfg : adapter mts' (map (fun nm => ((fst nm ++ ".weight")%string, snd nm)) mods) = Ok c.

Lemma file_get n t : In (n, t) planned -> dget file n = Some t.
Proof.
  intros Hin. apply dget_In_NoDup; [|eapply Permutation_in; eauto].
  unfold dkeys. eapply Permutation_NoDup; [apply Permutation_map; exact Hfile|]. exact (proj1 C93_names).
Qed.
Lemma file_none n : ~ In n (map fst planned) -> dget file n = None.
Proof.
  intros Hn. destruct (dget file n) as [t|] eqn:E; [|reflexivity]. exfalso. apply Hn. apply dget_In in E.
  apply Permutation_sym in Hfile. apply (Permutation_in _ Hfile) in E. now apply (in_map fst) in E.
Qed.
Lemma cfg_mts : ac_modules_to_save c = mts'.
Proof. unfold adapter in Hcfg. destruct (real_ranks _); [discriminate|]. injection Hcfg as <-. reflexivity. Qed.
Lemma mem_false x (l : list string) : ~ In x l -> mem x l = false.
Proof. intros H. destruct (mem_spec x l); [contradiction|reflexivity]. Qed.
Lemma mem_true x (l : list string) : In x l -> mem x l = true.
Proof. intros H. destruct (mem_spec x l); [reflexivity|contradiction]. Qed.

(** A module saved in full is the fine-tuned model's, exactly; when it has no such weight, the base model's. *)
Theorem C93_full n b bm : In (AFull n b) acts -> exists o, model_get (n ++ ".weight")%string = Ok o /\
  forall emb, with_adapter c file emb n bm = match o with Some mm => mm | None => bm end.
Proof.
  intros Hin. destruct (C50_plan o is_tuple ms mts acts mts' Hnd Hplan) as (_ & _ & H3 & _). specialize (H3 n b Hin).
  destruct (extract_inv _ _ _ Hrun) as (l & HF & Ep & Ed). destruct (extract_from _ _ HF) as (F1 & _ & F3).
  destruct (F3 _ Hin) as (ss & ds & E & Hs & _). pose proof E as E0. cbn [Whole.extract_action] in E. apply rbind_ok in E as (w & Ew & E).
  apply rbind_ok in E as (bs & Eb & E). injection E as <- <-. unfold save_loaded in Ew. apply rbind_ok in Ew as (ot & Eo & Ew). injection Ew as <-.
  exists ot. split; [exact Eo|]. intros emb. unfold with_adapter. rewrite cfg_mts.
  assert (Hm : mem n mts' || mem (last_part n) mts' = true). { destruct H3 as [H3|H3]; apply mem_true in H3; rewrite H3; auto using orb_true_r. }
  rewrite Hm. destruct ot as [mm|].
  - rewrite (file_get _ mm); [reflexivity|]. rewrite Ep. apply Hs. now left.
  - rewrite file_none; [reflexivity|]. intros Hx. apply in_map_iff in Hx as ([x t] & Ex & Hx). cbn in Ex. subst x. rewrite Ep in Hx.
    destruct (F1 _ Hx) as (a' & ss' & ds' & B1 & B2 & B3). destruct (action_entries a' ss' ds' B2) as (C1 & _).
    destruct (C1 _ (in_map fst _ _ B3)) as (s' & Hs' & E). cbn [fst] in E.
    apply out_name_inj in E as [E Es]; auto; [|exact (acts_plain (AFull n b) Hin)|now apply acts_plain|now left].
    assert (Ha : a' = AFull n b).
    { destruct (C50_plan o is_tuple ms mts acts mts' Hnd Hplan) as (Hn & _). apply (NoDup_map_inj action_name acts); auto. }
    subst a'. rewrite E0 in B2. injection B2 as <- <-. cbn [app] in B3. destruct b.
    + unfold save_loaded in Eb. apply rbind_ok in Eb as (ob & _ & Eb). injection Eb as <-. destruct ob; [|destruct B3]. destruct B3 as [[= B3 _]|[]].
      apply sapp_inj_l in B3. discriminate B3.
    + injection Eb as <-. destruct B3.
Qed.

(** A module that is decomposed, and that is not also listed as saved in full, is the base model's weight plus the truncation of
    the difference to its leading singular triples. *)
Theorem C93_decomposed n tp b : In (ALora n tp b) acts -> ~ In n mts' -> ~ In (last_part n) mts' ->
  exists bm mm, base_get (n ++ ".weight")%string = Ok (Some bm) /\ model_get (n ++ ".weight")%string = Ok (Some mm) /\
    rows bm = rows mm /\ cols bm = cols mm /\
    let d := if tp then tr (task_vector bm mm) else task_vector bm mm in
    let r := rank_of svd (dtask_of eo tp) d in
    (is_svd d (svd d) -> (0 < r)%nat ->
     exists p, truncation (svd d) r p d /\ same_mat (with_adapter c file tp n bm) (madd bm 1 (if tp then tr p else p))).
Proof.
  intros Hin N1 N2. destruct (extract_inv _ _ _ Hrun) as (l & HF & Ep & Ed). destruct (extract_from _ _ HF) as (_ & _ & F3).
  destruct (F3 _ Hin) as (ss & ds & E & Hs & Hds). cbn [Whole.extract_action] in E. apply rbind_ok in E as (tv & Etv & E).
  apply rbind_ok in E as (bs & Eb & E). injection E as <- <-. unfold load_vector in Etv.
  apply rbind_ok in Etv as (ob & E1 & Etv). apply rbind_ok in Etv as (om & E2 & Etv). destruct ob as [bm|]; [|discriminate]. destruct om as [mm|]; [|discriminate].
  destruct (Nat.eqb_spec (rows bm) (rows mm)) as [Er|]; [|discriminate]. destruct (Nat.eqb_spec (cols bm) (cols mm)) as [Ec|]; [|discriminate].
  injection Etv as <-. exists bm, mm. do 4 (split; [assumption|]). intros d r Hsvd Hr.
  pose proof (decompose_product svd (dtask_of eo tp) (task_vector bm mm) Hsvd) as Hdp.
  destruct (decompose svd (dtask_of eo tp) (task_vector bm mm)) as [A B] eqn:Eab. cbn [dt_transpose dtask_of] in Hdp. fold d r in Hdp.
  destruct Hdp as (D1 & D2 & D3 & D4 & D5). cbn [fst snd] in Hs, Hds.
  assert (Hmod : In (n, (A, B)) mods) by (eapply Permutation_in; [exact Hmods|]; rewrite Ed; apply Hds; now left).
  assert (Hmn : NoDup (map fst mods)) by (eapply Permutation_NoDup; [apply Permutation_map; exact Hmods|]; exact (proj2 C93_names)).
  destruct (C46_recorded_rank mts' mods c n A B Hmn Hcfg Hmod) as (R1 & R2 & R3).
  exists (mmul B A). split; [exact D5|].
  assert (Hw : with_adapter c file tp n bm = madd bm (INR (peft_alpha c n) / INR (peft_rank c n)) (if tp then tr (mmul B A) else mmul B A)).
  { unfold with_adapter. rewrite cfg_mts, (mem_false _ _ N1), (mem_false _ _ N2). cbn [orb]. rewrite (mem_true _ _ R3).
    rewrite (file_get _ A), (file_get _ B); [reflexivity| |]; rewrite Ep; apply Hs; [right; now left|now left]. }
  rewrite Hw, R1, R2, D1. split; [reflexivity|]. split; [reflexivity|]. intros i j _ _. cbn [madd at_].
  assert (Hn : INR r <> 0%R) by (apply not_0_INR; lia). replace (INR r / INR r)%R with 1%R by (field; exact Hn). reflexivity.
Qed.

(** What is lost in a module: the squared distance to the fine-tuned weight is the sum of the squares of the singular values cut
    off, and no other change of that rank comes closer. *)
Theorem C93_distance n tp b : In (ALora n tp b) acts -> ~ In n mts' -> ~ In (last_part n) mts' ->
  exists bm mm, base_get (n ++ ".weight")%string = Ok (Some bm) /\ model_get (n ++ ".weight")%string = Ok (Some mm) /\
    let d := if tp then tr (task_vector bm mm) else task_vector bm mm in
    let r := rank_of svd (dtask_of eo tp) d in
    let got := with_adapter c file tp n bm in
    forall u s vh, svd d = (u, s, vh) -> is_svd d (u, s, vh) -> (0 < r)%nat ->
    dist2 mm got = Sum (Nat.min (rows d) (cols d) - r) (fun i => s (r + i)%nat * s (r + i)%nat)%R /\
    forall x y, rows x = rows d -> cols x = r -> rows y = r -> cols y = cols d ->
      (dist2 mm got <= dist2 mm (madd bm 1 (if tp then tr (mmul x y) else mmul x y)))%R.
Proof.
  intros Hin N1 N2. destruct (C93_decomposed n tp b Hin N1 N2) as (bm & mm & E1 & E2 & Er & Ec & H). exists bm, mm. do 2 (split; [assumption|]).
  cbv zeta in *. set (d := if tp then tr (task_vector bm mm) else task_vector bm mm) in *. set (r := rank_of svd (dtask_of eo tp) d) in *.
  intros u s vh Es Hs Hr. rewrite Es in H. destruct (H Hs Hr) as (p & Hp & (G1 & G2 & G3)). cbn [madd rows cols at_] in G1, G2.
  assert (Hdist : forall g q : mat, (forall i j, (i < rows mm)%nat -> (j < cols mm)%nat -> at_ g i j = (at_ bm i j + 1 * at_ (if tp then tr q else q) i j)%R) ->
    dist2 mm g = dist2 d q).
  { intros g q Hg. unfold dist2, d. destruct tp; cbn [tr task_vector rows cols at_].
    - rewrite Sum_swap. apply Sum_ext. intros j Hj. apply Sum_ext. intros i Hi. rewrite Hg by assumption. cbn [tr at_]. ring.
    - apply Sum_ext. intros i Hi. apply Sum_ext. intros j Hj. rewrite Hg by assumption. cbn [at_]. ring. }
  assert (Hgot : dist2 mm (with_adapter c file tp n bm) = dist2 d p).
  { apply Hdist. intros i j Hi Hj. apply G3; [rewrite G1; lia|rewrite G2; lia]. }
  assert (Hrk : (r <= Nat.min (rows d) (cols d))%nat) by apply rank_le.
  rewrite Hgot. split; [exact (truncation_error d u vh s Hs r p Hrk Hp)|].
  intros x y X1 X2 Y1 Y2. rewrite (Hdist (madd bm 1 (if tp then tr (mmul x y) else mmul x y)) (mmul x y)) by reflexivity.
  rewrite (truncation_error d u vh s Hs r p Hrk Hp). exact (any_error d u vh s Hs r x y Hrk X1 X2 Y1 Y2).
Qed.

(** Without a threshold and with enough rank nothing is lost. *)
Theorem C93_exact n tp b : In (ALora n tp b) acts -> ~ In n mts' -> ~ In (last_part n) mts' ->
  exists bm mm, base_get (n ++ ".weight")%string = Ok (Some bm) /\ model_get (n ++ ".weight")%string = Ok (Some mm) /\
    let d := if tp then tr (task_vector bm mm) else task_vector bm mm in
    (is_svd d (svd d) -> (eo_eps eo <= 0)%R -> (0 < rows mm)%nat -> (0 < cols mm)%nat ->
     (Nat.min (rows mm) (cols mm) <= eo_max_rank eo)%nat -> same_mat (with_adapter c file tp n bm) mm).
Proof.
  intros Hin N1 N2. destruct (C93_decomposed n tp b Hin N1 N2) as (bm & mm & E1 & E2 & Er & Ec & H). exists bm, mm. do 2 (split; [assumption|]).
  cbv zeta in *. set (d := if tp then tr (task_vector bm mm) else task_vector bm mm) in *. intros Hs He P1 P2 Hmax.
  assert (Hdim : Nat.min (rows d) (cols d) = Nat.min (rows mm) (cols mm)) by (unfold d; destruct tp; cbn [tr task_vector rows cols]; lia).
  assert (Hrk : rank_of svd (dtask_of eo tp) d = Nat.min (rows d) (cols d)).
  { unfold rank_of. cbn [dtask_of dt_eps dt_max_rank]. destruct (svd d) as [[u s] vh]. destruct (Rlt_dec 0 (eo_eps eo)); [lra|]. lia. }
  destruct (H Hs ltac:(rewrite Hrk; lia)) as (p & Hp & (G1 & G2 & G3)). rewrite Hrk in Hp.
  assert (Hpd : forall i j, (i < rows d)%nat -> (j < cols d)%nat -> at_ p i j = at_ d i j).
  { intros i j Hi Hj. unfold truncation in Hp. unfold is_svd in Hs. destruct (svd d) as [[u s] vh]. destruct Hp as (_ & _ & Hp), Hs as (_ & _ & _ & _ & Hs & _).
    now rewrite Hp, Hs. }
  cbn [madd rows cols at_] in G1, G2, G3. split; [congruence|]. split; [congruence|]. intros i j Hi Hj. rewrite G3 by assumption.
  unfold d in Hpd. destruct tp; cbn [tr task_vector rows cols at_] in *; rewrite Hpd by lia; ring.
Qed.

(** A module nothing was planned for stays the base model's. *)
Theorem C93_untouched m emb bm : In m ms -> ~ In (mo_name m) (map action_name acts) -> with_adapter c file emb (mo_name m) bm = bm.
Proof.
  intros Hm Hn. assert (Hnone : forall s, In s suffixes -> dget file (out_name (mo_name m) s) = None).
  { intros s Hs. apply file_none. intros Hx. apply in_map_iff in Hx as ([x t] & Ex & Hx). cbn in Ex. subst x.
    destruct (extract_inv _ _ _ Hrun) as (l & HF & Ep & Ed). destruct (extract_from _ _ HF) as (F1 & _ & _). rewrite Ep in Hx.
    destruct (F1 _ Hx) as (a' & ss' & ds' & B1 & B2 & B3). destruct (action_entries a' ss' ds' B2) as (C1 & _).
    destruct (C1 _ (in_map fst _ _ B3)) as (s' & Hs' & E). cbn [fst] in E.
    apply out_name_inj in E as [E _]; auto; [|now apply acts_plain]. apply Hn. rewrite E. now apply in_map. }
  unfold with_adapter. rewrite (Hnone ".weight") by now left. destruct (mem _ _ || mem _ _); [reflexivity|]. destruct (mem _ _); [|reflexivity].
  rewrite (Hnone (a_suffix emb)) by (destruct emb; cbn; auto 8). reflexivity.
Qed.
End C93.

(** ** The file *)
(** The adapter is one file, whatever its size, and holds exactly these tensors. *)
Theorem C93_file {T} nbytes safe (saves : list (string * T)) f' : saves <> [] -> NoDup (map fst saves) ->
  async_run nbytes safe (Some "adapter_model") (-1) saves [] (Ok (f', None)) ->
  f' = [((if safe then "adapter_model.safetensors" else "adapter_model.bin")%string, FShard safe saves)].
Proof.
  intros Hne Hnd Hr. inversion Hr as [w jobs outs opss q Es Hw Hm Eq]. subst.
  assert (Hsave : forall (l : list (string * T)) w, w_max w = (-1)%Z -> NoDup (map fst (w_cur w ++ l)) -> exists sz,
    save_all nbytes w l = save_all nbytes {| w_safe := w_safe w; w_basename := w_basename w; w_max := w_max w; w_written := w_written w; w_map := w_map w;
      w_cur := w_cur w ++ l; w_cur_size := sz; w_total := w_total w |} []).
  { clear. induction l as [|[n t] l IH]; intros w Hmax Hn.
    - exists (w_cur_size w). rewrite app_nil_r. destruct w; reflexivity.
    - cbn [save_all]. unfold save_tensor. rewrite Hmax. cbn [Z.gtb Z.compare andb].
      assert (Ecur : dset (w_cur w) n t = w_cur w ++ [(n, t)]).
      { assert (Hni : ~ In n (map fst (w_cur w))). { rewrite map_app in Hn. cbn [map fst] in Hn. apply NoDup_remove_2 in Hn. intros Hi. apply Hn, in_app_iff. now left. }
        revert Hni. generalize (w_cur w). clear. induction d as [|[k v] d IH]; intros Hni; [reflexivity|]. cbn [dset map fst] in *.
        destruct (eqb_spec n k) as [->|_]; [exfalso; apply Hni; now left|]. rewrite IH by (intros Hi; apply Hni; now right). reflexivity. }
      replace (match w_cur w with [] => (w, None) | _ :: _ => (w, None) end) with (w, @None (string * content T)) by (destruct (w_cur w); reflexivity).
      rewrite Ecur. edestruct (IH {| w_safe := w_safe w; w_basename := w_basename w; w_max := w_max w; w_written := w_written w; w_map := w_map w;
        w_cur := w_cur w ++ [(n, t)]; w_cur_size := w_cur_size w + nbytes t; w_total := w_total w |}) as (sz & Esz); [exact Hmax| |].
      { cbn [w_cur]. rewrite <- app_assoc. exact Hn. }
      cbn [w_safe w_basename w_max w_written w_map w_cur w_total] in Esz. rewrite <- app_assoc in Esz. cbn [app] in Esz. exists sz. rewrite Hmax in Esz |- *. cbn [save_all] in Esz. rewrite Esz.
      destruct (flush _); reflexivity. }
  destruct (Hsave saves (new_writer safe (Some "adapter_model") (-1)) eq_refl Hnd) as (sz & E). rewrite E in Es. clear Hsave E.
  cbn [new_writer w_safe w_basename w_max w_written w_map w_cur w_total app save_all] in Es. unfold flush in Es. cbn [w_cur] in Es.
  destruct saves as [|sv saves]; [congruence|]. cbn [w_safe w_basename w_max w_written w_map w_cur w_total w_cur_size] in Es. injection Es as <- <-.
  inversion Hw as [|job jobs o outs' ops opss' Ho Hw' E1 E2 E3]. subst. inversion Hw'. subst. clear Hw Hw'.
  cbn [first_error] in Eq. destruct o as [e|]; [destruct (apply_all q []); discriminate|]. cbn [first_error] in Eq. cbn [worker_ops fst snd] in Ho. subst ops.
  assert (Hq : forall (X : Type) (l q : list X), merged [l] q -> q = l).
  { clear. intros X l q H. remember [l] as ls eqn:El. revert l El. induction H as [ls Hf|l1 x xs l2 q H IH]; intros l El.
    - subst ls. inversion Hf. congruence.
    - destruct l1 as [|y l1]; cbn in El; injection El as <- El; [subst l2; f_equal; now apply IH|destruct l1; discriminate]. }
  apply Hq in Hm. subst q. clear Hq. destruct safe; vm_compute in Eq; congruence.
Qed.

(** ** An optional tensor that is missing ends the run, although the tasks that save the parts allow for it. *)
Theorem C93_optional_refuted svd base_get model_get eo acts n tp b :
  In (ALora n tp b) acts ->
  (base_get (n ++ ".weight")%string = Ok None \/ model_get (n ++ ".weight")%string = Ok None) \/
  (b = true /\ (base_get (n ++ ".bias")%string = Ok None \/ model_get (n ++ ".bias")%string = Ok None)) ->
  exists e, extract svd base_get model_get eo acts = Err e.
Proof.
  intros Hin H. destruct (extract svd base_get model_get eo acts) as [[pl ds]|e] eqn:E; [exfalso|eauto].
  destruct (extract_inv _ _ _ _ _ _ _ E) as (l & HF & _). destruct (extract_from _ _ _ _ _ _ HF) as (_ & _ & F3).
  destruct (F3 _ Hin) as (ss & ds' & Ea & _). cbn [extract_action] in Ea. apply rbind_ok in Ea as (tv & Et & Ea). apply rbind_ok in Ea as (bs & Eb & _).
  assert (Hl : forall x v, load_vector base_get model_get x = Ok v -> base_get x <> Ok None /\ model_get x <> Ok None).
  { intros x v Hv. unfold load_vector in Hv. apply rbind_ok in Hv as (a & E1 & Hv). apply rbind_ok in Hv as (a' & E2 & Hv). rewrite E1, E2.
    destruct a, a'; try discriminate. split; discriminate. }
  apply Hl in Et. destruct H as [H|[-> H]]; [tauto|]. apply rbind_ok in Eb as (v & Ev & _). apply Hl in Ev. tauto.
Qed.

(** * A concrete case: an embedding saved in full, a decomposed projection, a norm that is excluded *)
Definition w_modules : list module_ :=
  [{| mo_name := "embed"; mo_kind := KEmbedding; mo_has_weight := true; mo_is_io := true; mo_known := true; mo_bias := false |};
   {| mo_name := "l.q"; mo_kind := KLinear; mo_has_weight := true; mo_is_io := false; mo_known := true; mo_bias := true |};
   {| mo_name := "l.norm"; mo_kind := KOther; mo_has_weight := true; mo_is_io := false; mo_known := true; mo_bias := false |}].
Definition w_opts : options := {| op_embed_lora := false; op_include := None; op_exclude := fun n => eqb n "l.norm"; op_skip := false |}.
Definition w_run : extract_opts := {| eo_max_rank := 2; eo_distribute := true; eo_eps := 0 |}.
Definition w_base (n : string) : result (option mat) := Ok (Some ex_base).
Definition w_model (n : string) : result (option mat) := Ok (Some ex_model).
Definition w_acts : list action := [AFull "embed" false; ALora "l.q" false true].
Lemma w_plain n : In n ["embed"; "l.q"; "l.norm"] -> plain n.
Proof.
  intros Hn p. split; intros E; apply (f_equal String.length) in E; rewrite slength_app in E; cbn [String.length] in E.
  all: repeat (destruct Hn as [<-|Hn]; [cbn in E; lia|]); destruct Hn.
Qed.
Example C93_nonvacuous : exists planned decs c,
  plan_modules w_opts false w_modules [] = Ok (w_acts, ["embed"]) /\ extract ex_svd w_base w_model w_run w_acts = Ok (planned, decs) /\
  NoDup (map mo_name w_modules) /\ (forall m, In m w_modules -> plain (mo_name m)) /\
  adapter ["embed"] (map (fun nm => ((fst nm ++ ".weight")%string, snd nm)) decs) = Ok c /\
  is_svd (task_vector ex_base ex_model) (ex_svd (task_vector ex_base ex_model)) /\
  map fst planned = ["base_model.model.embed.weight"; "base_model.model.l.q.lora_A.weight"; "base_model.model.l.q.lora_B.weight"; "base_model.model.l.q.lora_B.bias"] /\
  same_mat (with_adapter c planned false "l.q" ex_base) ex_model /\ with_adapter c planned true "embed" ex_base = ex_model /\
  with_adapter c planned false "l.norm" ex_base = ex_base.
Proof.
  assert (Hx : exists planned decs c, extract ex_svd w_base w_model w_run w_acts = Ok (planned, decs) /\
    adapter ["embed"] (map (fun nm => ((fst nm ++ ".weight")%string, snd nm)) decs) = Ok c /\
    map fst planned = ["base_model.model.embed.weight"; "base_model.model.l.q.lora_A.weight"; "base_model.model.l.q.lora_B.weight"; "base_model.model.l.q.lora_B.bias"]).
  { eexists _, _, _. split; [reflexivity|]. split; reflexivity. }
  destruct Hx as (planned & decs & c & Hx & Hc & Hf). exists planned, decs, c.
  assert (Hp : plan_modules w_opts false w_modules [] = Ok (w_acts, ["embed"])) by reflexivity.
  assert (Hn : NoDup (map mo_name w_modules)) by (repeat constructor; cbn; intuition discriminate).
  assert (Hpl : forall m, In m w_modules -> plain (mo_name m)) by (intros m Hm; apply w_plain; now apply (in_map mo_name) in Hm).
  assert (Hs : is_svd (task_vector ex_base ex_model) (ex_svd (task_vector ex_base ex_model))) by exact (ex_is_svd true false 0 2).
  do 7 (split; [assumption|]). split; [|split].
  - destruct (C93_exact ex_svd w_base w_model w_run w_opts false w_modules [] w_acts ["embed"] planned decs Hp Hx Hn Hpl planned decs c
      (Permutation_refl _) (Permutation_refl _) Hc "l.q" false true) as (bm & mm & E1 & E2 & H).
    { right. now left. }
    { cbn. intuition discriminate. }
    { cbn. intuition discriminate. }
    injection E1 as <-. injection E2 as <-. apply H; cbn; auto; try lra; lia.
  - destruct (C93_full ex_svd w_base w_model w_run w_opts false w_modules [] w_acts ["embed"] planned decs Hp Hx Hn Hpl planned decs c
      (Permutation_refl _) Hc "embed" false ex_base) as (om & E1 & H).
    { now left. }
    injection E1 as <-. apply H.
  - apply (C93_untouched ex_svd w_base w_model w_run w_opts false w_modules [] w_acts ["embed"] planned decs Hp Hx Hn Hpl planned c (Permutation_refl _)
      {| mo_name := "l.norm"; mo_kind := KOther; mo_has_weight := true; mo_is_io := false; mo_known := true; mo_bias := false |}).
    { cbn. auto. }
    { cbn. intuition discriminate. }
Qed.

Print Assumptions C93_names.
Print Assumptions C93_full.
Print Assumptions C93_decomposed.
Print Assumptions C93_distance.
Print Assumptions C93_exact.
Print Assumptions C93_untouched.
Print Assumptions C93_file.
Print Assumptions C93_optional_refuted.
