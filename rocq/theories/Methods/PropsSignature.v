(** C82: functions made into merge methods by the decorator. *)
From Coq Require Import QArith Permutation.
From Verif.Base Require Import Py PyFacts.
From Verif.Config Require Import Model.
From Verif.Arch Require Import Model.
From Verif.Plan Require Import Model Spec Proofs.
From Verif.Methods Require Import Easy Dispatch PropsEasy Signature SignatureSpec.
Local Open Scope string_scope.
Local Open Scope list_scope.

Lemma special_apart p : special (sp_name p) = true <-> apart p.
Proof. unfold special, apart. rewrite mem_In. cbn. tauto. Qed.
Lemma special_not p : special (sp_name p) = false <-> ~ apart p.
Proof. rewrite <- special_apart. destruct (special (sp_name p)); split; intros; congruence. Qed.
Lemma named_In sig n p : param_named sig n = Some p -> In p sig /\ sp_name p = n.
Proof. intros H. apply find_some in H as [H E]. split; [exact H|]. now apply eqb_iff. Qed.
Lemma named_iff sig n p : NoDup (map sp_name sig) -> param_named sig n = Some p <-> In p sig /\ sp_name p = n.
Proof.
  intros N. split; [apply named_In|]. intros [Hin <-]. unfold param_named. induction sig as [|q sig IH]; [destruct Hin|]. cbn [map find] in *. inversion N as [|? ? Hq N']; subst.
  destruct (eqb_spec (sp_name q) (sp_name p)) as [E|E].
  - destruct Hin as [->|Hin]; [reflexivity|]. exfalso. apply Hq. rewrite E. now apply in_map.
  - destruct Hin as [->|Hin]; [congruence|]. auto.
Qed.
Lemma named_None sig n : param_named sig n = None <-> forall p, In p sig -> sp_name p <> n.
Proof.
  unfold param_named. split.
  - intros H p Hp E. apply (find_none _ _ H) in Hp. cbn in Hp. rewrite E, eqb_refl in Hp. discriminate.
  - intros H. destruct (find _ sig) as [p|] eqn:E; [|reflexivity]. apply find_some in E as [Hp E]. apply eqb_iff in E. destruct (H p Hp E).
Qed.
Lemma has_iff sig n : has sig n = true <-> exists p, In p sig /\ sp_name p = n.
Proof.
  unfold has. destruct (param_named sig n) as [p|] eqn:E.
  - split; [|reflexivity]. intros _. exists p. now apply named_In.
  - split; [discriminate|]. intros (p & Hp & Hn). destruct (proj1 (named_None sig n) E p Hp Hn).
Qed.
Lemma check_tensors_ok a u : check_tensors a = Ok u <-> a = AList [ATensor].
Proof. destruct u. destruct a as [| | | | | | |[|[] [|]]| | | |]; cbn; split; congruence. Qed.
Lemma check_base_ok a b : check_base a = Ok b <-> (b = true /\ a = ATensor) \/ (b = false /\ optional_tensor a).
Proof.
  unfold optional_tensor. destruct a as [| | | | | | | | |[|[] [|[] [|]]]| |]; cbn; split; intros H; try discriminate H; try (injection H as <-; auto);
    destruct H as [[-> H]|[-> [H|H]]]; try discriminate H; reflexivity.
Qed.
(** what becomes of one argument *)
Lemma classify_ok p c : ~ apart p -> classify p = Ok c <->
  (sp_ann p <> ANull /\ sp_ann p <> ABareList /\ sp_ann p <> AList [] /\ (listed p -> forall d, sp_default p = Some d -> exists q, d = PNum q)) /\
  ((scalar p /\ c = Some (false, definition p)) \/ (listed p /\ c = Some (true, definition p)) \/ (unknown p /\ c = None)).
Proof.
  intros Ha.
  assert (Es : scalar p <-> sp_ann p = AInt \/ sp_ann p = AFloat \/ sp_ann p = ABool) by (unfold scalar; tauto).
  assert (El : listed p <-> exists rest, sp_ann p = AList (AInt :: rest) \/ sp_ann p = AList (AFloat :: rest)) by (unfold listed; tauto).
  assert (Eu : unknown p <-> ~ scalar p /\ ~ listed p) by (unfold unknown; tauto). rewrite Eu, Es, El. clear Eu Es El.
  unfold classify. destruct (sp_ann p) as [| | | | | | |args| |args|args|] eqn:E.
  all: try (split; [discriminate|]; intros ((H1 & H2 & H3 & _) & _); congruence).
  all: try (split; [intros [= <-]; split; [repeat split; try discriminate; intros (r & [|]); discriminate|]; auto|
            intros (_ & [(_ & ->)|[((r & [|]) & _)|((H & _) & _)]]); try discriminate; [reflexivity|exfalso; apply H; auto]]).
  all: try (split; [intros [= <-]; split; [repeat split; try discriminate; intros (r & [|]); discriminate|]; right; right; split; [|reflexivity]; split;
              [intros [|[|]]; discriminate|intros (r & [|]); discriminate]|
            intros (_ & [([|[|]] & _)|[((r & [|]) & _)|(_ & ->)]]); try discriminate; reflexivity]).
  destruct args as [|a rest]; [split; [discriminate|]; intros ((_ & _ & H & _) & _); congruence|].
  assert (Hl : (exists r, AList (a :: rest) = AList (AInt :: r) \/ AList (a :: rest) = AList (AFloat :: r)) <-> a = AInt \/ a = AFloat).
  { split; [intros (r & [[=]|[=]]); auto|]. intros [->| ->]; exists rest; auto. }
  rewrite Hl. clear Hl.
  destruct a.
  all: try (split; [intros [= <-]; split; [repeat split; try discriminate; intros [|]; discriminate|]; right; right; split; [|reflexivity]; split;
              [intros [|[|]]; discriminate|intros [|]; discriminate]|
            intros (_ & [([|[|]] & _)|[([|] & _)|(_ & ->)]]); try discriminate; reflexivity]).
  all: destruct (sp_default p) as [d|] eqn:Ed.
  all: try (split; [intros [= <-]; split; [repeat split; try discriminate|]; auto 6|
            intros (_ & [([|[|]] & _)|[(_ & ->)|((_ & H) & _)]]); try discriminate; [reflexivity|exfalso; apply H; auto]]).
  all: destruct (is_num d) eqn:En.
  all: try (split; [discriminate|]; intros ((_ & _ & _ & H) & _); destruct (H ltac:(auto) d eq_refl) as (q & ->); discriminate En).
  all: split; [intros [= <-]; split; [repeat split; try discriminate; intros _ d' [= <-]; destruct d; try discriminate En; eauto|auto 6]|
            intros (_ & [([|[|]] & _)|[(_ & ->)|((_ & H) & _)]]); try discriminate; [reflexivity|exfalso; apply H; auto]].
Qed.

(** A function is made into a method exactly if its signature is accepted. *)
Theorem C82_accepted sig : NoDup (map sp_name sig) -> ((exists i, inspect sig = Ok i) <-> accepted sig).
Proof.
  intros N. unfold inspect, accepted. destruct (param_named sig "tensors") as [p|] eqn:Et.
  2: { split; [intros (? & [=])|]. intros ((p & Hp & Hn & _) & _). destruct (proj1 (named_None sig _) Et p Hp Hn). }
  assert (Ht : (exists q, In q sig /\ sp_name q = "tensors" /\ sp_ann q = AList [ATensor]) <-> sp_ann p = AList [ATensor]).
  { split; [|intros E; exists p; apply named_In in Et; tauto]. intros (q & Hq & Hn & E). rewrite (proj2 (named_iff sig "tensors" q N)) in Et by auto. now injection Et as <-. }
  rewrite Ht. clear Ht.
  assert (Hb : (forall q, In q sig -> sp_name q = "base_tensor" -> sp_ann q = ATensor \/ optional_tensor (sp_ann q)) <->
               exists b, match param_named sig "base_tensor" with Some b => check_base (sp_ann b) | None => Ok false end = Ok b).
  { destruct (param_named sig "base_tensor") as [q|] eqn:Eb.
    - pose proof (proj1 (named_iff sig "base_tensor" q N) Eb) as (Hq & Hn). split.
      + intros H. destruct (H q Hq Hn) as [E|E]; [exists true|exists false]; apply check_base_ok; auto.
      + intros (b & E) q' Hq' Hn'. rewrite (proj2 (named_iff sig "base_tensor" q' N)) in Eb by auto. injection Eb as ->. apply check_base_ok in E as [[_ E]|[_ E]]; auto.
    - split; [eauto|]. intros _ q Hq Hn. destruct (proj1 (named_None sig _) Eb q Hq Hn). }
  rewrite Hb. clear Hb.
  assert (Hc : ((forall q, In q sig -> ~ apart q -> sp_ann q <> ANull /\ sp_ann q <> ABareList /\ sp_ann q <> AList []) /\
                (forall q d, In q sig -> listed q -> sp_default q = Some d -> exists x, d = PNum x)) <->
               exists cs, rmapM (fun q => if special (sp_name q) then Ok None else classify q) sig = Ok cs).
  { clear. induction sig as [|q sig IH]; [cbn; split; [intros _; eauto|intros _; split; intros ? []; contradiction]|]. cbn [rmapM]. split.
    - intros (H1 & H2). destruct (proj1 IH) as (cs & E); [split; intros; [apply H1|eapply H2]; eauto; now right|].
      assert (Hq : exists c, (if special (sp_name q) then Ok None else classify q) = Ok c).
      { destruct (special (sp_name q)) eqn:Es; [eauto|]. apply special_not in Es. destruct (H1 q (or_introl eq_refl) Es) as (A1 & A2 & A3).
        assert (D : scalar q \/ listed q \/ unknown q).
        { unfold unknown, scalar, listed. destruct (sp_ann q) as [| | | | | | |[|[] r]| | | |] eqn:Ea; try (left; split; tauto); try solve [right; left; split; [exact Es|exists r; auto]];
            right; right; (split; [exact Es|split; [intros [_ [|[|]]]; discriminate|intros [_ (? & [|])]; discriminate]]). }
        assert (Hd : listed q -> forall d, sp_default q = Some d -> exists x, d = PNum x) by (intros Hl d Ed; exact (H2 q d (or_introl eq_refl) Hl Ed)).
        destruct D as [D|[D|D]]; eexists; apply (classify_ok q _ Es); split; eauto 8. }
      destruct Hq as (c & ->). cbn [rbind]. rewrite E. cbn [rbind]. eauto.
    - intros (cs & E). destruct (if special (sp_name q) then Ok None else classify q) as [c|] eqn:Eq; [|discriminate]. cbn [rbind] in E.
      destruct (rmapM _ sig) as [cs'|]; [|discriminate]. destruct (proj2 IH) as (H1 & H2); [eauto|].
      assert (Hq : ~ apart q -> sp_ann q <> ANull /\ sp_ann q <> ABareList /\ sp_ann q <> AList [] /\ (listed q -> forall d, sp_default q = Some d -> exists x, d = PNum x)).
      { intros Ha. pose proof (proj2 (special_not q) Ha) as Es. rewrite Es in Eq. apply (classify_ok q c Ha) in Eq. apply Eq. }
      split; [intros q' [<-|Hin] Ha; [apply Hq in Ha; tauto|auto]|]. intros q' d [<-|Hin] Hl Ed; [|eauto]. apply (proj2 (proj2 (proj2 (Hq (proj1 Hl)))) Hl d Ed). }
  rewrite Hc. clear Hc N.
  split.
  - intros (i & E). apply rbind_Ok in E as ([] & E1 & E). apply rbind_Ok in E as (b & E2 & E). apply rbind_Ok in E as (cs & E3 & _). apply check_tensors_ok in E1. eauto.
  - intros (E1 & (b & E2) & (cs & E3)). rewrite (proj2 (check_tensors_ok _ tt) E1). cbn [rbind]. rewrite E2. cbn [rbind]. rewrite E3. cbn [rbind]. eauto.
Qed.

(** the parts of an inspected signature *)
Lemma inspect_inv sig i : NoDup (map sp_name sig) -> inspect sig = Ok i ->
  exists ps ls, picks scalar sig ps /\ in_params i = map definition ps /\ picks listed sig ls /\ in_tparams i = map definition ls /\
  d_params (in_decl i) = map sp_name ps /\ d_tensor_params (in_decl i) = map sp_name ls /\
  d_base_tensor (in_decl i) = has sig "base_tensor" /\ d_base_model (in_decl i) = has sig "base_model" /\ in_output_weight i = has sig "output_weight" /\
  (d_require_base (in_decl i) = true <-> exists p, In p sig /\ sp_name p = "base_tensor" /\ sp_ann p = ATensor).
Proof.
  intros N E. unfold inspect in E. destruct (param_named sig "tensors") as [pt|]; [|discriminate]. apply rbind_Ok in E as (? & _ & E). apply rbind_Ok in E as (b & Eb & E).
  apply rbind_Ok in E as (cs & Ec & E). injection E as <-. cbn [in_params in_tparams in_decl in_output_weight d_params d_tensor_params d_base_tensor d_base_model d_require_base].
  assert (Hreq : b = true <-> exists p, In p sig /\ sp_name p = "base_tensor" /\ sp_ann p = ATensor).
  { destruct (param_named sig "base_tensor") as [q|] eqn:Eq.
    - pose proof (named_In _ _ _ Eq) as (Hq & Hn). apply check_base_ok in Eb as [[-> Ea]|[-> Ea]]; split; try discriminate; eauto.
      intros (p & Hp & Hn' & Ea'). rewrite (proj2 (named_iff sig "base_tensor" p N)) in Eq by auto. injection Eq as <-. rewrite Ea' in Ea. destruct Ea; discriminate.
    - injection Eb as <-. split; [discriminate|]. intros (p & Hp & Hn & _). destruct (proj1 (named_None sig _) Eq p Hp Hn). }
  clear Eb N pt.
  assert (H : exists ps ls, picks scalar sig ps /\ of_kind false cs = map definition ps /\ picks listed sig ls /\ of_kind true cs = map definition ls).
  { apply rmapM_Ok_Forall2 in Ec. clear -Ec. induction Ec as [|q c sig cs Hq _ (ps & ls & H1 & H2 & H3 & H4)]; [exists [], []; repeat split; constructor|].
    unfold of_kind in *. cbn [flat_map].
    destruct (special (sp_name q)) eqn:Es.
    - injection Hq as <-. apply special_apart in Es. exists ps, ls. repeat split; auto; constructor; auto; intros [Ha _]; contradiction.
    - apply special_not in Es. apply (classify_ok q c Es) in Hq as (_ & [[Hs ->]|[[Hs ->]|[Hs ->]]]); cbn [Bool.eqb app].
      + exists (q :: ps), ls. repeat split; auto; [now constructor|cbn; now rewrite H2|]. constructor; [|exact H3]. intros (_ & r & Hl). destruct Hs as (_ & Hs). destruct Hl as [Hl|Hl], Hs as [Hs|[Hs|Hs]]; congruence.
      + exists ps, (q :: ls). repeat split; auto; [|now constructor|cbn; now rewrite H4]. constructor; [|exact H1]. intros (_ & Hs'). destruct Hs as (_ & r & Hl). destruct Hl as [Hl|Hl], Hs' as [Hs'|[Hs'|Hs']]; congruence.
      + exists ps, ls. repeat split; auto; constructor; auto; apply Hs. }
  destruct H as (ps & ls & H1 & H2 & H3 & H4). exists ps, ls. rewrite H2, H4, !map_map. cbn [definition pd_name]. repeat split; auto; apply Hreq.
Qed.
Lemma picks_In P l m p : picks P l m -> (In p m <-> In p l /\ P p).
Proof. induction 1 as [|q l m Hq _ IH|q l m Hq _ IH]; cbn; [tauto| |]; rewrite IH; split; try (intros [[->|]]; tauto); try tauto. intros [->|]; tauto. Qed.
Lemma picks_NoDup P l m : picks P l m -> NoDup (map sp_name l) -> NoDup (map sp_name m).
Proof.
  induction 1 as [|q l m Hq Hp IH|q l m Hq Hp IH]; cbn; intros N; [constructor| |]; inversion N as [|? ? Hn N']; subst; auto. constructor; auto.
  intros Hin. apply Hn. apply in_map_iff in Hin as (x & E & Hx). rewrite <- E. apply in_map. eapply picks_In in Hx; [|exact Hp]. tauto.
Qed.

(** The parameters of the method are the arguments annotated as numbers, those of its models the arguments annotated as lists of numbers. *)
Theorem C82_parameters sig i : NoDup (map sp_name sig) -> inspect sig = Ok i ->
  (exists ps, picks scalar sig ps /\ Forall2 declares ps (in_params i)) /\ (exists ls, picks listed sig ls /\ Forall2 declares ls (in_tparams i)).
Proof.
  intros N E. destruct (inspect_inv sig i N E) as (ps & ls & H1 & -> & H2 & -> & _).
  assert (H : forall l, Forall2 declares l (map definition l)).
  { induction l as [|p l IH]; constructor; [|exact IH]. unfold declares, definition. cbn. split; [reflexivity|]. destruct (sp_default p); split; try (intros ? [= <-]; reflexivity); try discriminate; split; intros; congruence. }
  split; eauto.
Qed.
(** The task asks for a base model exactly if base_tensor is annotated torch.Tensor, and can have one exactly if the function has
    an argument base_tensor or base_model. *)
Theorem C82_base sig i : NoDup (map sp_name sig) -> inspect sig = Ok i ->
  (d_require_base (in_decl i) = true <-> exists p, In p sig /\ sp_name p = "base_tensor" /\ sp_ann p = ATensor) /\
  (forall b : string, field_base (in_decl i) (Some b) = Some b <-> exists p, In p sig /\ (sp_name p = "base_tensor" \/ sp_name p = "base_model")).
Proof.
  intros N E. destruct (inspect_inv sig i N E) as (ps & ls & _ & _ & _ & _ & _ & _ & H1 & H2 & _ & H3). split; [exact H3|]. intros b. unfold field_base. rewrite H1, H2.
  assert (D : has sig "base_model" || has sig "base_tensor" = true <-> exists p, In p sig /\ (sp_name p = "base_tensor" \/ sp_name p = "base_model")).
  { rewrite orb_true_iff, !has_iff. split; [intros [(p & H & Hn)|(p & H & Hn)]; eauto|]. intros (p & H & [Hn|Hn]); eauto. }
  rewrite <- D. destruct (_ || _); split; congruence.
Qed.

Lemma nameable_iff p : by_name (sp_kind p) = true <-> nameable p.
Proof. unfold nameable. destruct (sp_kind p); cbn; intuition congruence. Qed.
Lemma takes_one_iff p : single (sp_kind p) = true <-> takes_one p.
Proof. unfold takes_one. destruct (sp_kind p); cbn; intuition congruence. Qed.

(** ** the call *)
Section Called.
Context {M T : Type} `{Eqb M}.
Variables (sig : list sparam) (i : inspected) (bm : option M) (tensors : dict M T) (params : dict string pval) (tparams : dict M (dict string pval)) (order : list M) (c : call T pval).
Hypothesis N : NoDup (map sp_name sig).
Hypothesis Hi : inspect sig = Ok i.
Hypothesis Hc : Easy.execute (in_decl i) bm tensors params tparams order = Ok c.

Lemma dget_app {V} (a b : dict string V) k : dget (a ++ b) k = match dget a k with Some v => Some v | None => dget b k end.
Proof. induction a as [|[k' v] a IH]; cbn; [reflexivity|]. destruct (eqb k k'); [reflexivity|exact IH]. Qed.
Lemma dget_map {V V'} (f : V -> V') (d : dict string V) k : dget (map (fun kv => (fst kv, f (snd kv))) d) k = match dget d k with Some v => Some (f v) | None => None end.
Proof. induction d as [|[k' v] d IH]; cbn; [reflexivity|]. destruct (eqb k k'); [reflexivity|exact IH]. Qed.
Lemma same_param p q : In p sig -> In q sig -> sp_name p = sp_name q -> p = q.
Proof.
  intros Hp Hq E. assert (H1 := proj2 (named_iff sig (sp_name q) p N) (conj Hp E)). assert (H2 := proj2 (named_iff sig (sp_name q) q N) (conj Hq eq_refl)). congruence.
Qed.
Lemma Forall2_dget {V} (P : string -> V -> Prop) ks (d : dict string V) : Forall2 (fun k kv => fst kv = k /\ P k (snd kv)) ks d ->
  forall k, (In k ks -> exists v, dget d k = Some v /\ P k v) /\ (~ In k ks -> dget d k = None).
Proof.
  induction 1 as [|k0 [k1 v] ks d [E HP] _ IH]; intros k; [split; [intros []|reflexivity]|]. cbn in E, HP. subst k1. cbn [dget]. destruct (eqb_spec k k0) as [->|Hne].
  - split; [eauto|]. intros Hn. exfalso. apply Hn. now left.
  - split; [intros [E|Hk]; [congruence|]|intros Hn]; apply IH; auto. intros Hk. apply Hn. now right.
Qed.

Lemma passed_get : exists refs, Forall2 (fun m t => dget tensors m = Some t) refs (c_tensors c) /\ forall p, In p sig ->
  (sp_name p = "tensors" -> dget (passed i c) (sp_name p) = Some (GTensors (c_tensors c))) /\
  (sp_name p = "base_tensor" -> dget (passed i c) (sp_name p) = Some (GBase (c_base c))) /\
  (sp_name p = "output_weight" -> dget (passed i c) (sp_name p) = Some GOutputWeight) /\
  (sp_name p = "base_model" -> dget (passed i c) (sp_name p) = Some GBaseModel) /\
  (scalar p -> exists v, dget params (sp_name p) = Some v /\ dget (passed i c) (sp_name p) = Some (GValue v)) /\
  (listed p -> exists vs, Forall2 (fun m v => exists d, dget tparams m = Some d /\ dget d (sp_name p) = Some v) refs vs /\ dget (passed i c) (sp_name p) = Some (GValues vs)) /\
  (unknown p -> dget (passed i c) (sp_name p) = None).
Proof.
  destruct (inspect_inv sig i N Hi) as (ps & ls & P1 & _ & P2 & _ & D1 & D2 & B1 & B2 & B3 & _).
  destruct (execute_inv _ _ _ _ _ _ _ Hc) as ((A1 & A2) & A3 & _). eexists. split; [exact A1|]. rewrite D1, D2 in *.
  pose proof (Forall2_dget (fun k v => dget params k = Some v) _ _ A3) as Q1. 
  pose proof (Forall2_dget (fun k vs => Forall2 (fun m v => exists d, dget tparams m = Some d /\ dget d k = Some v) (refs_of (in_decl i) (field_base (in_decl i) bm) tensors order) vs) _ _ A2) as Q2.
  assert (Qps : forall p, In p sig -> In (sp_name p) (map sp_name ps) <-> scalar p).
  { intros p Hp. rewrite in_map_iff. split.
    - intros (q & E & Hq). apply (picks_In _ _ _ q P1) in Hq as [Hq Hs]. now rewrite (same_param p q Hp Hq).
    - intros Hs. exists p. split; [reflexivity|]. apply (picks_In _ _ _ p P1). now split. }
  assert (Qls : forall p, In p sig -> In (sp_name p) (map sp_name ls) <-> listed p).
  { intros p Hp. rewrite in_map_iff. split.
    - intros (q & E & Hq). apply (picks_In _ _ _ q P2) in Hq as [Hq Hs]. now rewrite (same_param p q Hp Hq).
    - intros Hs. exists p. split; [reflexivity|]. apply (picks_In _ _ _ p P2). now split. }
  intros p Hp. unfold passed. rewrite B1, B2, B3. rewrite !dget_app, !dget_map.
  assert (Hh : forall n, sp_name p = n -> has sig n = true) by (intros n Hn; apply has_iff; eauto).
  assert (Z : forall n n' (a : argument T), sp_name p <> n' -> dget (if has sig n then [(n', a)] else []) (sp_name p) = None).
  { intros n n' a Hn. destruct (has sig n); cbn [dget]; [|reflexivity]. destruct (eqb_spec (sp_name p) n'); [contradiction|reflexivity]. }
  assert (Z0 : forall n' (a : argument T), sp_name p <> n' -> dget [(n', a)] (sp_name p) = None).
  { intros n' a Hn. cbn [dget]. destruct (eqb_spec (sp_name p) n'); [contradiction|reflexivity]. }
  assert (Ha : ~ apart p -> sp_name p <> "tensors" /\ sp_name p <> "base_tensor" /\ sp_name p <> "output_weight" /\ sp_name p <> "base_model").
  { unfold apart. cbn. intros Ha. repeat split; intros E; apply Ha; auto. }
  split; [|split; [|split; [|split; [|split; [|split]]]]].
  - intros E. rewrite E. reflexivity.
  - intros E. rewrite Z0, (Z "output_weight"), (Z "base_model") by (rewrite E; discriminate). rewrite (Hh _ E), E. reflexivity.
  - intros E. rewrite Z0 by (rewrite E; discriminate). rewrite (Hh _ E), E. reflexivity.
  - intros E. rewrite Z0, (Z "output_weight") by (rewrite E; discriminate). rewrite (Hh _ E), E. reflexivity.
  - intros Hs. destruct (Ha (proj1 Hs)) as (Ha1 & Ha2 & Ha3 & Ha4). rewrite Z0, !Z by assumption. destruct (proj1 (Q1 (sp_name p))) as (v & E1 & E2); [now apply Qps|]. rewrite E1. eauto.
  - intros Hs. destruct (Ha (proj1 Hs)) as (Ha1 & Ha2 & Ha3 & Ha4). rewrite Z0, !Z by assumption.
    rewrite (proj2 (Q1 (sp_name p))). 2: { rewrite (Qps p Hp). intros (_ & Hs'). destruct Hs as (_ & r & Hl). destruct Hl as [Hl|Hl], Hs' as [Hs'|[Hs'|Hs']]; congruence. }
    destruct (proj1 (Q2 (sp_name p))) as (vs & E1 & E2); [now apply Qls|]. rewrite E1. eauto.
  - intros (Hs & Hns & Hnl). destruct (Ha Hs) as (Ha1 & Ha2 & Ha3 & Ha4). rewrite Z0, !Z by assumption.
    rewrite (proj2 (Q1 (sp_name p))) by (rewrite (Qps p Hp); exact Hns). rewrite (proj2 (Q2 (sp_name p))) by (rewrite (Qls p Hp); exact Hnl). reflexivity.
Qed.

(** What the function is called with: the tensors; the base tensor, output weight and base model if it asks for them; the number set for
    the method under the argument's name; the numbers set for the models, in the order of the tensors; and the default of any other argument. *)
Theorem C82_called args : bind sig (passed i c) = Ok args ->
  exists refs, Forall2 (fun m t => dget tensors m = Some t) refs (c_tensors c) /\ forall p, In p sig -> nameable p ->
  (sp_name p = "tensors" -> dget args "tensors" = Some (GTensors (c_tensors c))) /\
  (sp_name p = "base_tensor" -> dget args "base_tensor" = Some (GBase (c_base c))) /\
  (sp_name p = "output_weight" -> dget args "output_weight" = Some GOutputWeight) /\
  (sp_name p = "base_model" -> dget args "base_model" = Some GBaseModel) /\
  (scalar p -> exists v, dget params (sp_name p) = Some v /\ dget args (sp_name p) = Some (GValue v)) /\
  (listed p -> exists vs, Forall2 (fun m v => exists d, dget tparams m = Some d /\ dget d (sp_name p) = Some v) refs vs /\ dget args (sp_name p) = Some (GValues vs)) /\
  (unknown p -> exists d, sp_default p = Some d /\ dget args (sp_name p) = Some (GDefault d)).
Proof.
  intros E. destruct passed_get as (refs & A & H1). exists refs. split; [exact A|]. intros p Hp Hk. apply nameable_iff in Hk.
  unfold bind in E. destruct (negb _ && _); [discriminate|].
  assert (G : exists a, dget args (sp_name p) = Some a /\ match dget (passed i c) (sp_name p) with Some x => a = x | None => exists d, sp_default p = Some d /\ a = GDefault d end).
  { apply rmapM_Ok_Forall2 in E. assert (Hf : In p (filter (fun q => single (sp_kind q)) sig)) by (apply filter_In; split; [exact Hp|]; destruct (sp_kind p); (reflexivity || discriminate)).
    assert (Nf : NoDup (map sp_name (filter (fun q => single (sp_kind q)) sig))).
    { clear -N. induction sig as [|q l IH]; cbn [filter]; [constructor|]. cbn [map] in N. inversion N as [|? ? Hn N']; subst. destruct (single (sp_kind q)); cbn [map]; auto.
      constructor; auto. intros Hin. apply Hn. apply in_map_iff in Hin as (x & Ex & Hx). apply filter_In in Hx as [Hx _]. rewrite <- Ex. now apply in_map. }
    set (l := filter _ sig) in *. clearbody l. clear -E Hf Nf Hk. induction E as [|q [n a] l args Hq _ IH]; [destruct Hf|]. cbn [map dget] in *. inversion Nf as [|? ? Hn N']; subst.
    assert (En : n = sp_name q) by (destruct (if by_name _ then _ else _); [congruence|]; destruct (sp_default q); congruence). subst n.
    destruct (eqb_spec (sp_name p) (sp_name q)) as [Epq|Epq].
    - destruct Hf as [->|Hf]; [|exfalso; apply Hn; rewrite <- Epq; now apply in_map]. exists a. split; [reflexivity|]. rewrite Hk in Hq.
      destruct (dget (passed i c) (sp_name p)); [congruence|]. destruct (sp_default p) as [d|]; [|discriminate]. exists d. split; congruence.
    - destruct Hf as [->|Hf]; [congruence|]. auto. }
  destruct G as (a & G1 & G2). destruct (H1 p Hp) as (P1 & P2 & P3 & P4 & P5 & P6 & P7).
  repeat split.
  1-4: intros En; rewrite <- En; rewrite G1; rewrite ?P1, ?P2, ?P3, ?P4 in G2 by exact En; congruence.
  - intros Hs. destruct (P5 Hs) as (v & E1 & E2). rewrite E2 in G2. subst a. eauto.
  - intros Hs. destruct (P6 Hs) as (v & E1 & E2). rewrite E2 in G2. subst a. eauto.
  - intros Hs. rewrite (P7 Hs) in G2. destruct G2 as (d & Ed & ->). eauto.
Qed.
Lemma callable_kinds : (exists args, bind sig (passed i c) = Ok args) <->
  (forall p, In p sig -> single (sp_kind p) = true -> sp_default p = None -> by_name (sp_kind p) = true /\ ~ unknown p) /\
  ((exists p, In p sig /\ sp_kind p = PVarKeywords) \/ forall p, In p sig -> ~ unknown p -> by_name (sp_kind p) = true).
Proof.
  destruct passed_get as (refs & _ & H1).
  assert (Hget : forall p, In p sig -> dget (passed i c) (sp_name p) = None <-> unknown p).
  { intros p Hp. destruct (H1 p Hp) as (P1 & P2 & P3 & P4 & P5 & P6 & P7). split; [|exact P7]. intros E.
    split; [|split]; intros Hs.
    - destruct Hs as [Hs|[Hs|[Hs|[Hs|[]]]]]; symmetry in Hs; [rewrite P1 in E by exact Hs|rewrite P2 in E by exact Hs|rewrite P3 in E by exact Hs|rewrite P4 in E by exact Hs]; discriminate.
    - destruct (P5 Hs) as (v & _ & E'). congruence.
    - destruct (P6 Hs) as (v & _ & E'). congruence. }
  assert (Hkeys : forall k a, In (k, a) (passed i c) -> exists p, In p sig /\ sp_name p = k /\ ~ unknown p).
  { intros k a Hin.
    assert (Hp : exists p, In p sig /\ sp_name p = k).
    { destruct (inspect_inv sig i N Hi) as (ps & ls & P1 & _ & P2 & _ & D1 & D2 & B1 & B2 & B3 & _).
      destruct (execute_inv _ _ _ _ _ _ _ Hc) as ((A1 & A2) & A3 & _). rewrite D1, D2 in *. unfold passed in Hin. rewrite B1, B2, B3 in Hin.
      assert (Hf : forall {V} (P : string -> V -> Prop) l (d : dict string V), Forall2 (fun k kv => fst kv = k /\ P k (snd kv)) (map sp_name l) d -> forall kv, In kv d -> exists p, In p l /\ sp_name p = fst kv).
      { clear. intros V P l d HF. remember (map sp_name l) as ks eqn:Ek. revert l Ek. induction HF as [|k kv0 ks d [E _] _ IH]; intros l Ek kv Hin; [destruct Hin|].
        destruct l as [|q l]; [discriminate|]. injection Ek as -> ->. destruct Hin as [->|Hin]; [exists q; split; [now left|now symmetry]|]. destruct (IH l eq_refl kv Hin) as (p & Hp & En). exists p. split; [now right|exact En]. }
      rewrite !in_app_iff in Hin. destruct Hin as [Hin|[Hin|[Hin|[Hin|[Hin|Hin]]]]].
      - destruct Hin as [[= <- _]|[]]. unfold inspect in Hi. destruct (param_named sig "tensors") as [q|] eqn:Eq; [|discriminate]. exists q. now apply named_In.
      - destruct (has sig "output_weight") eqn:Eh; [|destruct Hin]. destruct Hin as [[= <- _]|[]]. now apply has_iff.
      - destruct (has sig "base_model") eqn:Eh; [|destruct Hin]. destruct Hin as [[= <- _]|[]]. now apply has_iff.
      - destruct (has sig "base_tensor") eqn:Eh; [|destruct Hin]. destruct Hin as [[= <- _]|[]]. now apply has_iff.
      - apply in_map_iff in Hin as (kv & [= <- _] & Hin). destruct (Hf _ (fun k v => dget params k = Some v) ps _ A3 kv Hin) as (p & Hp & En). exists p. split; [|exact En]. apply (picks_In _ _ _ p P1) in Hp. tauto.
      - apply in_map_iff in Hin as (kv & [= <- _] & Hin).
        destruct (Hf _ (fun k vs => Forall2 (fun m v => exists d, dget tparams m = Some d /\ dget d k = Some v) (refs_of (in_decl i) (field_base (in_decl i) bm) tensors order) vs) ls _ A2 kv Hin) as (p & Hp & En).
        exists p. split; [|exact En]. apply (picks_In _ _ _ p P2) in Hp. tauto. }
    destruct Hp as (p & Hp & En). exists p. split; [exact Hp|]. split; [exact En|]. intros Hu. apply (Hget p Hp) in Hu. rewrite En in Hu. apply dget_None in Hu. apply Hu.
    unfold dkeys. change k with (fst (k, a)). now apply in_map. }
  unfold bind.
  assert (Hcatch : existsb (fun p => match sp_kind p with PVarKeywords => true | _ => false end) sig = true <-> exists p, In p sig /\ sp_kind p = PVarKeywords).
  { rewrite existsb_exists. split; intros (p & Hp & E); exists p; (split; [exact Hp|]); destruct (sp_kind p); congruence. }
  assert (Htake : existsb (fun kv => negb (existsb (fun p => eqb (sp_name p) (fst kv) && by_name (sp_kind p)) sig)) (passed i c) = false <-> forall p, In p sig -> ~ unknown p -> by_name (sp_kind p) = true).
  { split.
    - intros E p Hp Hu. rewrite <- (Hget p Hp) in Hu. destruct (dget (passed i c) (sp_name p)) as [a|] eqn:Eg; [|congruence]. apply dget_In in Eg.
      assert (Ex : existsb (fun q => eqb (sp_name q) (sp_name p) && by_name (sp_kind q)) sig = true).
      { destruct (existsb (fun q => eqb (sp_name q) (sp_name p) && by_name (sp_kind q)) sig) eqn:Ex; [reflexivity|]. rewrite <- not_true_iff_false in E. exfalso. apply E. apply existsb_exists. exists (sp_name p, a). split; [exact Eg|]. cbn [fst]. now rewrite Ex. }
      apply existsb_exists in Ex as (q & Hq & Eq). apply andb_true_iff in Eq as [Eq Ek]. apply eqb_iff in Eq. now rewrite <- (same_param q p Hq Hp Eq).
    - intros Hall. apply not_true_iff_false. intros Ex. apply existsb_exists in Ex as ([k a] & Hin & Ex). destruct (Hkeys k a Hin) as (p & Hp & En & Hu). cbn [fst] in Ex. apply negb_true_iff in Ex.
      apply not_true_iff_false in Ex. apply Ex. apply existsb_exists. exists p. split; [exact Hp|]. rewrite En, eqb_refl, (Hall p Hp Hu). reflexivity. }
  set (catches := existsb _ sig) in *. set (bad := existsb _ (passed i c)) in *.
  assert (Hb : negb catches && bad = false <-> (exists p, In p sig /\ sp_kind p = PVarKeywords) \/ forall p, In p sig -> ~ unknown p -> by_name (sp_kind p) = true).
  { rewrite <- Hcatch, <- Htake. destruct catches, bad; cbn; intuition congruence. }
  clear Hcatch Htake. rewrite <- Hb. destruct (negb catches && bad); [split; [intros (? & [=])|intros (_ & [=])]|]. clear Hb.
  assert (Hg' : forall p, In p sig -> dget (passed i c) (sp_name p) = None <-> unknown p) by exact Hget.
  clear -Hg'. induction sig as [|p l IH]; cbn [filter]; [split; [intros _; split; [intros ? []|reflexivity]|cbn; eauto]|].
  assert (IH' := IH (fun q Hq => Hg' q (or_intror Hq))). clear IH. specialize (Hg' p (or_introl eq_refl)).
  destruct (single (sp_kind p)) eqn:Es.
  2: { rewrite IH'. split; intros (H1 & H2); (split; [|reflexivity]); intros q Hq; [destruct Hq as [<-|Hq]; [congruence|auto]|apply H1; now right]. }
  cbn [rmapM]. split.
  - intros (args & E). apply rbind_Ok in E as (a & E1 & E). apply rbind_Ok in E as (r & E2 & _). split; [|reflexivity]. intros q [<-|Hq]; [|apply (proj1 (proj1 IH' (ex_intro _ r E2))); exact Hq].
    intros _ Ed. rewrite Ed in E1. destruct (by_name (sp_kind p)); [|discriminate]. split; [reflexivity|]. intros Hu. apply Hg' in Hu. rewrite Hu in E1. discriminate.
  - intros (H1 & _). destruct (proj2 IH') as (r & ->); [split; [intros q Hq; apply H1; now right|reflexivity]|].
    destruct (if by_name (sp_kind p) then dget (passed i c) (sp_name p) else None) as [a|] eqn:Ea; [cbn [rbind]; eauto|]. destruct (sp_default p) as [d|] eqn:Ed; [cbn [rbind]; eauto|].
    exfalso. destruct (H1 p (or_introl eq_refl) Es Ed) as (Hk & Hu). rewrite Hk in Ea. apply Hu, Hg', Ea.
Qed.
(** The call goes through exactly if every argument without a default is one the method passes and can be given by name, and the others
    it passes can be given by name or are caught by **kwargs. *)
Theorem C82_callable : (exists args, bind sig (passed i c) = Ok args) <->
  (forall p, In p sig -> takes_one p -> sp_default p = None -> nameable p /\ ~ unknown p) /\
  ((exists p, In p sig /\ sp_kind p = PVarKeywords) \/ forall p, In p sig -> ~ unknown p -> nameable p).
Proof.
  rewrite callable_kinds. split; intros (H1 & H2); split.
  - intros p Hp Ht Hd. rewrite <- nameable_iff. apply H1; auto. now apply takes_one_iff.
  - destruct H2 as [H2|H2]; [now left|right]. intros p Hp Hu. apply nameable_iff. auto.
  - intros p Hp Ht Hd. rewrite nameable_iff. apply H1; auto. now apply takes_one_iff.
  - destruct H2 as [H2|H2]; [now left|right]. intros p Hp Hu. apply nameable_iff. auto.
Qed.
End Called.

(** ** the values set in the configuration *)
Section Configured.
Variables (sig : list sparam) (i : inspected) (W : world string) (r : reader string) (w : weight_info) (ins : list (string * weight_info)) (task : merge_task string).
Hypothesis N : NoDup (map sp_name sig).
Hypothesis Hi : inspect sig = Ok i.
Hypothesis Hp1 : w_params W = in_params i.
Hypothesis Hp2 : w_tparams W = in_tparams i.
Hypothesis HM : merges W r w ins task.
Hypothesis HN : NoDup (map fst ins).
(** Planned by the planner, the number passed for an argument is the one the configuration sets for the weight, or the default of
    the signature; without default the configuration must set one. *)
Theorem C82_configured p : In p sig -> scalar p -> exists v, dget (mt_params task) (sp_name p) = Some v /\
  match sp_default p with
  | Some d => parameter (for_tensor r (wi_name w)) (sp_name p) None d false = Ok v
  | None => parameter (for_tensor r (wi_name w)) (sp_name p) None none_value true = Ok v
  end.
Proof.
  intros Hp Hs. destruct (inspect_inv sig i N Hi) as (ps & ls & P1 & E1 & _). destruct HM as (_ & _ & _ & _ & _ & _ & H & _). rewrite Hp1, E1, map_map in H.
  destruct (H (picks_NoDup _ _ _ P1 N) (definition p)) as (v & V1 & V2); [apply in_map, (picks_In _ _ _ p P1); now split|]. cbn [definition pd_name pd_default pd_required] in V1, V2.
  exists v. split; [exact V1|]. destruct (sp_default p); exact V2.
Qed.
Theorem C82_configured_model p m wi : In p sig -> listed p -> In (m, wi) ins -> exists d v, dget (mt_tparams task) m = Some d /\ dget d (sp_name p) = Some v /\
  match sp_default p with
  | Some x => parameter (for_tensor r (wi_name wi)) (sp_name p) (Some m) x false = Ok v
  | None => parameter (for_tensor r (wi_name wi)) (sp_name p) (Some m) none_value (match reader_base r with Some b => negb (eqb m b) | None => true end) = Ok v
  end.
Proof.
  intros Hp Hs Hin. destruct (inspect_inv sig i N Hi) as (ps & ls & _ & _ & P2 & E2 & _). destruct HM as (_ & _ & _ & _ & _ & _ & _ & H). rewrite Hp2, E2, map_map in H.
  destruct (H HN (picks_NoDup _ _ _ P2 N) m wi (definition p) Hin) as (d & v & V0 & V1 & V2); [apply in_map, (picks_In _ _ _ p P2); now split|].
  cbn [definition pd_name pd_default pd_required] in V1, V2. exists d, v. split; [exact V0|]. split; [exact V1|]. destruct (sp_default p); exact V2.
Qed.
End Configured.

(** The functions of the repository have the parameters of their methods. *)
Theorem C82_repository : forall k sig d, In (k, (sig, d)) [(KNearswap, (nearswap_sig, nearswap_decl)); (KSce, (sce_sig, sce_decl)); (KRam, (ram_sig, ram_decl));
    (KRamplus, (ramplus_sig, ramplus_decl)); (KMultislerp, (multislerp_sig, multislerp_decl))] ->
  NoDup (map sp_name sig) /\ exists i, inspect sig = Ok i /\ in_decl i = d /\ in_params i = parameters k /\ in_tparams i = tensor_parameters k /\
  (forall p, In p sig -> ~ unknown p /\ sp_kind p = POrdinary).
Proof.
  intros k sig d Hin. cbn in Hin. decompose [or] Hin; try contradiction.
  all: match goal with H : _ = _ |- _ => injection H as <- <- <- end; split; [cbn; repeat constructor; cbn; intuition discriminate|].
  all: eexists; split; [reflexivity|]; split; [reflexivity|]; split; [reflexivity|]; split; [reflexivity|].
  all: intros p Hp; cbn in Hp; decompose [or] Hp; try contradiction; subst p; (split; [|reflexivity]); intros (Ha & Hs & Hl).
  all: first [apply Ha; unfold apart; cbn; tauto|apply Hs; (split; [exact Ha|cbn; tauto])|apply Hl; (split; [exact Ha|exists []; cbn; tauto])].
Qed.

(** ** findings *)
(** An argument without annotation is accepted, never configured, and without default makes every call fail. *)
Theorem C82_annotations_refuted : exists i, inspect [tensors_arg; arg_of "scale" AMissing] = Ok i /\ in_params i = [] /\ in_tparams i = [] /\
  forall (M T : Type) (EM : Eqb M) bm (tensors : dict M T) params tparams order c, Easy.execute (in_decl i) bm tensors params tparams order = Ok c ->
  forall args, bind [tensors_arg; arg_of "scale" AMissing] (passed i c) <> Ok args.
Proof.
  eexists. split; [reflexivity|]. split; [reflexivity|]. split; [reflexivity|]. intros M T EM bm tensors params tparams order c E args Hb.
  assert (N : NoDup (map sp_name [tensors_arg; arg_of "scale" AMissing])) by (cbn; repeat constructor; cbn; intuition discriminate).
  destruct (proj1 (C82_callable _ _ bm tensors params tparams order c N eq_refl E) (ex_intro _ args Hb)) as (H & _).
  destruct (H (arg_of "scale" AMissing) (or_intror (or_introl eq_refl)) ltac:(split; discriminate) eq_refl) as (_ & Hu). apply Hu. split; [|split].
  - unfold apart. cbn. intuition discriminate.
  - intros (_ & [|[|]]); discriminate.
  - intros (_ & ? & [|]); discriminate.
Qed.
(** A value set for an argument annotated List[bool] or Optional[float] is never used: the argument keeps its default. *)
Theorem C82_ignored_refuted a d : a = AList [ABool] \/ a = AUnion [AFloat; ANoneType] \/ a = AOther ->
  exists i, inspect [tensors_arg; arg_with "scale" a d] = Ok i /\ in_params i = [] /\ in_tparams i = [].
Proof. intros [->|[->| ->]]; eexists; repeat split; reflexivity. Qed.
(** The default of a method-wide parameter may be anything, and torch.Tensor | None is not taken for an optional base tensor. *)
Theorem C82_defaults_refuted s : (exists i, inspect [tensors_arg; arg_with "t" AFloat (PStr s)] = Ok i) /\
  inspect [tensors_arg; arg_with "base_tensor" (APipe [ATensor; ANoneType]) none_value] = Err ValueError.
Proof. split; [eexists|]; reflexivity. Qed.

(** ** example: the function of the documentation *)
Definition average_sig := [tensors_arg; arg_of "weights" (AList [AFloat]); arg_with "normalize" ABool (of_bool true)].
Example C82_nonvacuous : exists i c args, NoDup (map sp_name average_sig) /\ inspect average_sig = Ok i /\ accepted average_sig /\
  Easy.execute (in_decl i) None [("a", 1%nat); ("b", 2%nat)] [("normalize", of_bool false)] [("a", [("weights", PNum 3)]); ("b", [("weights", PNum 5)])] ["b"; "a"] = Ok c /\
  bind average_sig (passed i c) = Ok args /\ args = [("tensors", GTensors [2%nat; 1%nat]); ("weights", GValues [PNum 5; PNum 3]); ("normalize", GValue (of_bool false))].
Proof.
  assert (N : NoDup (map sp_name average_sig)) by (cbn; repeat constructor; cbn; intuition discriminate).
  eexists _, _, _. split; [exact N|]. split; [reflexivity|]. split; [apply (C82_accepted _ N); eexists; reflexivity|]. repeat split; reflexivity.
Qed.
Print Assumptions C82_accepted.
Print Assumptions C82_called.
Print Assumptions C82_callable.
Print Assumptions C82_configured.
