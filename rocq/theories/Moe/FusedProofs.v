(** The writers that fuse the experts of a layer. *)
From Coq Require Import Sorted.
From Verif.Base Require Import Py PyFacts PyStr.
From Verif.Arch Require Import Model Data ShippedProofs.
From Verif.Moe Require Import Model Spec NameProofs SplitProofs.
Local Open Scope string_scope.
Local Open Scope list_scope.

Lemma nth_error_eq {A} (l l' : list A) : (forall k, nth_error l k = nth_error l' k) -> l = l'.
Proof.
  revert l'; induction l as [|x l IH]; intros [|y l'] H; auto; try (specialize (H 0); discriminate).
  pose proof (H 0) as H0. injection H0 as ->. f_equal. apply IH. intros k. exact (H (S k)).
Qed.

(** ** partition *)
Lemma prefix_drop p s : String.prefix p s = true -> (p ++ drop (String.length p) s)%string = s.
Proof.
  revert s; induction p as [|c p IH]; intros s H; [now destruct s|]. destruct s as [|x s]; [discriminate|]. cbn [String.prefix] in H.
  destruct (ascii_dec c x) as [->|]; [|discriminate]. cbn. now rewrite IH.
Qed.
Lemma partition_spec sep s : infix sep s = true -> (fst (partition sep s) ++ sep ++ snd (partition sep s))%string = s.
Proof.
  induction s as [|x s IH]; cbn [infix partition]; intros H.
  - rewrite orb_false_r in H. rewrite H. cbn [fst snd append]. now apply prefix_drop.
  - destruct (String.prefix sep (String x s)) eqn:E; [cbn [fst snd append]; now apply prefix_drop|]. cbn [orb] in H.
    specialize (IH H). destruct (partition sep s) as [a b]. cbn [fst snd] in *. cbn [append]. now rewrite IH.
Qed.
Lemma expanded_single r t : expanded_target_keys r [t] = [r].
Proof.
  unfold expanded_target_keys. destruct (infix t r) eqn:E; [|reflexivity]. pose proof (partition_spec t r E) as H.
  destruct (partition t r) as [a b]. cbn in *. now rewrite H.
Qed.

Lemma dedup_const {A B} `{Eqb A} (x : A) (l : list B) : l <> [] -> dedup (map (fun _ => x) l) = [x].
Proof.
  unfold dedup. assert (H' : forall l : list B, dedup_acc [x] (map (fun _ => x) l) = [x]).
  { induction l0 as [|y l0 IH]; [reflexivity|]. cbn [map dedup_acc fold_left]. unfold dedup_acc in *. cbn.
    unfold set_add at 2. cbn. rewrite eqb_refl. exact IH. }
  destruct l as [|y l]; [contradiction|]. intros _. cbn. exact (H' l).
Qed.

Lemma dict_of_id' {V} (l : list (string * V)) : NoDup (map fst l) -> dict_of l = l.
Proof.
  unfold dict_of. assert (Hacc : forall l acc, NoDup (map fst (acc ++ l)) ->
    fold_left (fun d (kv : string * V) => dset d (fst kv) (snd kv)) l acc = acc ++ l).
  { clear. induction l as [|[k v] l IH]; intros acc Hnd; cbn [fold_left fst snd]; [now rewrite app_nil_r|].
    rewrite dset_fresh.
    - rewrite IH; rewrite <- app_assoc; auto.
    - rewrite map_app in Hnd. cbn in Hnd. apply NoDup_remove_2 in Hnd. intros Hin. apply Hnd, in_or_app. auto. }
  intros Hnd. exact (Hacc l [] Hnd).
Qed.

Lemma rename_slot ps tgt i k q : (0 <= i)%Z -> no_dot q = true ->
  expert_rename ps tgt (expert_slot i k q) = if mem q ps then Some (layer_name i ("mlp.experts." ++ tgt), q) else None.
Proof.
  intros Hi Hq. unfold expert_rename. rewrite split_slot by auto. cbn [rev app]. cbn [String.eqb Ascii.eqb Bool.eqb andb].
  destruct (mem q ps); [|reflexivity]. reflexivity.
Qed.

Section Fused.
Context {T F : Type}.
Implicit Types (o : ops T F) (disk : string -> tensors T) (e : expert F) (gs us ds : list T).

Section Layer.
Variables (o : ops T F) (i : Z).
Hypothesis Hi : (0 <= i)%Z.

Fixpoint pairs (qg qu : string) (s : nat) (gs us : list T) : list (string * T) :=
  match gs, us with
  | g :: gs, u :: us => (expert_slot i s qg, g) :: (expert_slot i s qu, u) :: pairs qg qu (S s) gs us
  | _, _ => []
  end.
Fixpoint singles (qd : string) (s : nat) (ds : list T) : list (string * T) :=
  match ds with [] => [] | d :: ds => (expert_slot i s qd, d) :: singles qd (S s) ds end.

Lemma pairs_keys qg qu s gs us x : In x (map fst (pairs qg qu s gs us)) -> exists k, (s <= k)%nat /\ (x = expert_slot i k qg \/ x = expert_slot i k qu).
Proof.
  revert s us; induction gs as [|g gs IH]; intros s [|u us]; cbn [pairs map In]; try tauto. intros [<-|[<-|H]]; [exists s; auto..|].
  apply IH in H as (k & Hk & H). exists k. split; [lia|auto].
Qed.
Lemma pairs_NoDup qg qu s gs us : no_dot qg = true -> no_dot qu = true -> qg <> qu -> NoDup (map fst (pairs qg qu s gs us)).
Proof.
  intros Hg Hu Hne. revert s us; induction gs as [|g gs IH]; intros s [|u us]; cbn [pairs map]; try constructor.
  - cbn [In fst]. intros [H|H].
    + symmetry in H. apply expert_slot_inj in H; auto. tauto.
    + apply pairs_keys in H as (k & Hk & [H|H]); apply expert_slot_inj in H; auto; lia || (destruct H as (_ & -> & _); lia).
  - constructor; auto. cbn [fst]. intros H. apply pairs_keys in H as (k & Hk & [H|H]); apply expert_slot_inj in H; auto; destruct H as (_ & -> & _); lia.
Qed.
Lemma singles_keys qd s ds x : In x (map fst (singles qd s ds)) -> exists k, (s <= k)%nat /\ x = expert_slot i k qd.
Proof.
  revert s; induction ds as [|d ds IH]; intros s; cbn [singles map In]; try tauto. intros [<-|H]; [exists s; auto|].
  apply IH in H as (k & Hk & H). exists k. split; [lia|auto].
Qed.
Lemma singles_NoDup qd s ds : no_dot qd = true -> NoDup (map fst (singles qd s ds)).
Proof.
  intros Hd. revert s; induction ds as [|d ds IH]; intros s; cbn [singles map]; constructor; auto. cbn [fst].
  intros H. apply singles_keys in H as (k & Hk & H). apply expert_slot_inj in H; auto. destruct H as (_ & -> & _); lia.
Qed.
Lemma pairs_sorted qg qu s gs us : name_le ("." ++ qg ++ ".weight")%string ("." ++ qu ++ ".weight")%string = true ->
  Sorted (fun x y => name_le x y = true) (map fst (pairs qg qu s gs us)).
Proof.
  intros Hle. revert s us; induction gs as [|g gs IH]; intros s [|u us]; cbn [pairs map]; try constructor.
  - constructor; [apply IH|]. destruct gs as [|g1 gs], us as [|u1 us]; cbn [pairs map fst]; constructor; apply slot_le_next; auto; lia.
  - constructor. cbn [fst]. now apply slot_le_same.
Qed.
Lemma singles_sorted qd s ds : Sorted (fun x y => name_le x y = true) (map fst (singles qd s ds)).
Proof.
  revert s; induction ds as [|d ds IH]; intros s; cbn [singles map]; constructor; auto.
  destruct ds as [|d1 ds]; cbn [singles map fst]; constructor; apply slot_le_next; auto; lia.
Qed.

(** reading a dictionary through its own keys *)
Lemma keys_values {B} (f : string -> T -> list B) (d : dict string T) : NoDup (dkeys d) ->
  flat_map (fun k => match dget d k with Some t => f k t | None => [] end) (dkeys d) = flat_map (fun kv => f (fst kv) (snd kv)) d.
Proof.
  intros Hnd. assert (H : forall d', (forall kv, In kv d' -> In kv d) ->
    flat_map (fun k => match dget d k with Some t => f k t | None => [] end) (map fst d') = flat_map (fun kv => f (fst kv) (snd kv)) d').
  { induction d' as [|[k v] d' IH]; intros Hin; [reflexivity|]. cbn [map fst flat_map snd]. rewrite IH by (intros; apply Hin; now right).
    rewrite (dget_In_NoDup d k v); auto. apply Hin. now left. }
  apply (H d). auto.
Qed.

Lemma collected_sorted ps tgt (d : dict string T) target : NoDup (map fst d) -> Sorted (fun x y => name_le x y = true) (map fst d) ->
  collected (expert_rename ps tgt) [(".experts." ++ tgt)%string] d target =
  flat_map (fun kv => match expert_rename ps tgt (fst kv) with
                      | Some (r, p) => if String.eqb target r then [(r, (p, snd kv))] else []
                      | None => [] end) d.
Proof.
  intros Hnd Hs. unfold collected. change (dkeys d) with (map fst d). rewrite sort_sorted by auto.
  rewrite <- (keys_values (fun k t => match expert_rename ps tgt k with
     | Some (r, p) => if String.eqb target r then [(r, (p, t))] else [] | None => [] end)) by exact Hnd.
  change (dkeys d) with (map fst d). apply flat_map_ext. intros k. destruct (expert_rename ps tgt k) as [[r p]|].
  - destruct (dget d k); [|reflexivity]. rewrite expanded_single. cbn [mem]. change (eqb target r) with (String.eqb target r). now destruct (String.eqb target r).
  - now destruct (dget d k).
Qed.

Definition target (tgt : string) : string := layer_name i ("mlp.experts." ++ tgt).

Lemma run_all ps (added : list (string * (string * T))) available tgt (l : list (string * T)) :
  added = map (fun x => (target tgt, x)) l -> l <> [] ->
  forall t, expert_run o ps (target tgt) l = [(target tgt, t)] ->
  run_layers (expert_run o ps) added (dedup (map fst added)) available (target tgt) = inl t.
Proof.
  intros -> Hl t Ht. rewrite map_map. cbn [fst]. rewrite (dedup_const (target tgt) l Hl). cbn [run_layers].
  replace (map snd (filter (fun x => String.eqb (fst x) (target tgt)) (map (fun x => (target tgt, x)) l))) with l.
  - rewrite Ht. cbn [dget]. now rewrite eqb_refl.
  - clear. induction l as [|x l IH]; [reflexivity|]. cbn [map filter fst]. rewrite String.eqb_refl. cbn [map snd]. now rewrite <- IH.
Qed.

Fixpoint zipped (qg qu : string) (gs us : list T) : list (string * T) :=
  match gs, us with g :: gs, u :: us => (qg, g) :: (qu, u) :: zipped qg qu gs us | _, _ => [] end.

(** gate and up: stacked in expert order, then concatenated *)
Lemma convert_gate_up qg qu qd gs us : no_dot qg = true -> no_dot qu = true -> qg <> qu ->
  name_le ("." ++ qg ++ ".weight")%string ("." ++ qu ++ ".weight")%string = true ->
  List.length gs = List.length us -> gs <> [] ->
  convert_checkpoint_tensors [expert_converter o [qg; qu] "gate_up_proj"; expert_converter o [qd] "down_proj"]
    (dict_of (pairs qg qu 0 gs us)) (target "gate_up_proj") = Some (o_concat o [o_stack o gs; o_stack o us]).
Proof.
  intros Hg Hu Hne Hle Hlen Hgs. rewrite dict_of_id' by now apply pairs_NoDup.
  cbn [convert_checkpoint_tensors expert_converter].
  assert (Hc : collected (expert_rename [qg; qu] "gate_up_proj") [".experts." ++ "gate_up_proj"]%string (pairs qg qu 0 gs us) (target "gate_up_proj")
             = map (fun x => (target "gate_up_proj", x)) (zipped qg qu gs us)).
  { rewrite collected_sorted by (auto using pairs_NoDup, pairs_sorted). generalize 0. clear Hlen Hgs. revert us.
    induction gs as [|g gs' IH]; intros [|u us] s; cbn [pairs zipped map flat_map]; try reflexivity. cbn [fst snd].
    rewrite !rename_slot by auto. cbn [mem]. rewrite !eqb_refl. destruct (eqb qu qg).
      all: unfold target; rewrite String.eqb_refl; cbn [app]; do 2 f_equal; apply IH. }
  assert (Hz : zipped qg qu gs us <> []) by (destruct gs, us; try discriminate; contradiction).
  assert (Hrun : expert_run o [qg; qu] (target "gate_up_proj") (zipped qg qu gs us)
               = [(target "gate_up_proj", o_concat o [o_stack o gs; o_stack o us])]).
  { unfold expert_run. cbn [map]. do 4 f_equal; [f_equal|f_equal; f_equal].
    - clear - Hlen Hne. revert us Hlen. induction gs as [|g gs IH]; intros [|u us] Hlen; try discriminate; [reflexivity|].
      cbn [zipped filter fst]. rewrite String.eqb_refl. assert (E : (qu =? qg)%string = false) by (apply String.eqb_neq; congruence). rewrite E.
      cbn [map snd]. f_equal. apply IH. now injection Hlen.
    - clear - Hlen Hne. revert us Hlen. induction gs as [|g gs IH]; intros [|u us] Hlen; try discriminate; [reflexivity|].
      cbn [zipped filter fst]. rewrite String.eqb_refl. assert (E : (qg =? qu)%string = false) by (apply String.eqb_neq; congruence). rewrite E.
      cbn [map snd]. f_equal. apply IH. now injection Hlen. }
  rewrite (run_all _ _ _ _ _ Hc Hz _ Hrun). reflexivity.
Qed.

Lemma convert_down qg qu qd ds : no_dot qd = true -> qd <> qg -> qd <> qu -> ds <> [] ->
  convert_checkpoint_tensors [expert_converter o [qg; qu] "gate_up_proj"; expert_converter o [qd] "down_proj"]
    (dict_of (singles qd 0 ds)) (target "down_proj") = Some (o_stack o ds).
Proof.
  intros Hd Hn1 Hn2 Hds. rewrite dict_of_id' by now apply singles_NoDup.
  cbn [convert_checkpoint_tensors expert_converter].
  assert (Hno : collected (expert_rename [qg; qu] "gate_up_proj") [".experts." ++ "gate_up_proj"]%string (singles qd 0 ds) (target "down_proj") = []).
  { rewrite collected_sorted by (auto using singles_NoDup, singles_sorted). generalize 0. clear Hds.
    induction ds as [|d ds' IH]; intros s; cbn [singles flat_map]; [reflexivity|]. cbn [fst]. rewrite rename_slot by auto.
    cbn [mem]. destruct (eqb_spec qd qg); [contradiction|]. destruct (eqb_spec qd qu); [contradiction|]. apply IH. }
  rewrite Hno. cbn [map dedup fold_left dedup_acc run_layers]. change (dedup []) with (@nil string). cbn [run_layers].
  assert (Hc : collected (expert_rename [qd] "down_proj") [".experts." ++ "down_proj"]%string (singles qd 0 ds) (target "down_proj")
             = map (fun x => (target "down_proj", x)) (map (fun d => (qd, d)) ds)).
  { rewrite collected_sorted by (auto using singles_NoDup, singles_sorted). generalize 0. clear Hds Hno.
    induction ds as [|d ds' IH]; intros s; cbn [singles flat_map map]; [reflexivity|]. cbn [fst snd]. rewrite rename_slot by auto.
    cbn [mem]. rewrite eqb_refl. unfold target. rewrite String.eqb_refl. cbn [app]. f_equal. apply IH. }
  assert (Hz : map (fun d => (qd, d)) ds <> []) by (destruct ds; [contradiction|discriminate]).
  assert (Hrun : expert_run o [qd] (target "down_proj") (map (fun d => (qd, d)) ds) = [(target "down_proj", o_stack o ds)]).
  { unfold expert_run. cbn [map]. do 3 f_equal. clear. induction ds as [|d ds IH]; [reflexivity|].
    cbn [map filter fst]. rewrite String.eqb_refl. cbn [map snd]. now rewrite IH. }
  rewrite (run_all _ _ _ _ _ Hc Hz _ Hrun). reflexivity.
Qed.

(** ** The tensors of one layer's experts *)
Definition at_index disk (s : nat) (experts : list (expert F)) (p q : string) (ts : list T) : Prop :=
  List.length ts = List.length experts /\
  forall k e, nth_error experts k = Some e ->
    exists t, dget (disk (ex_model e)) (dense_mlp i p) = Some t /\
              nth_error ts k = Some (adjusted o e p (expert_slot i (s + k) q) t).
Lemma at_index_cons disk s e experts p q t ts :
  dget (disk (ex_model e)) (dense_mlp i p) = Some t -> at_index disk (S s) experts p q ts ->
  at_index disk s (e :: experts) p q (adjusted o e p (expert_slot i s q) t :: ts).
Proof.
  intros Ht [Hl Hts]. split; [cbn; lia|]. intros [|k] e' He; cbn in *.
  - injection He as <-. exists t. rewrite Nat.add_0_r. auto.
  - destruct (Hts k e' He) as (t' & Ht' & E). exists t'. split; auto. now rewrite <- Nat.add_succ_comm.
Qed.
Lemma at_index_nil disk s p q : at_index disk s [] p q [].
Proof. split; auto. intros [|k] e H; discriminate. Qed.

Definition layer_params (qg qu qd : string) (params : list (string * string)) : Prop :=
  params = [("gate_proj", qg); ("down_proj", qd); ("up_proj", qu)] \/
  params = [("gate_proj", qg); ("up_proj", qu); ("down_proj", qd)].

Definition one_tensor (loaders : dict string (tensors T)) (ke : Z * expert F) (sp : string * string) : result (string * (string * T)) :=
  let! t := use_loader (dget loaders (ex_model (snd ke))) [mlp_source i (fst sp)] in
  let name := expert_name i (fst ke) (snd sp) in
  Ok (fst sp, (name, noise_and_scale o name t (snd ke) (String.eqb (fst sp) "down_proj"))).

Lemma one_tensor_eq disk base experts k e p q : In e experts ->
  one_tensor (initialize_loaders disk base experts) (Z.of_nat k, e) (p, q) =
  match dget (disk (ex_model e)) (dense_mlp i p) with
  | Some t => Ok (p, (expert_slot i k q, adjusted o e p (expert_slot i k q) t))
  | None => Err KeyError
  end.
Proof.
  intros He. unfold one_tensor. cbn [fst snd]. rewrite loaders_get.
  replace (mem (ex_model e) (base :: map ex_model experts)) with true by (symmetry; apply mem_In; right; now apply in_map).
  rewrite mlp_source_layer. cbn [use_loader get_any]. destruct (dget (disk (ex_model e)) (dense_mlp i p)) as [t|]; [|reflexivity].
  cbn [rbind]. rewrite expert_name_slot. reflexivity.
Qed.

Lemma per_expert_spec disk base experts qg qu qd params (Hp : layer_params qg qu qd params) :
  forall l s, (forall e, In e l -> In e experts) -> forall per,
  rmapM (fun ke => rmapM (one_tensor (initialize_loaders disk base experts) ke) params) (combine (map Z.of_nat (seq s (List.length l))) l) = Ok per ->
  exists gs us ds,
    at_index disk s l "gate_proj" qg gs /\ at_index disk s l "up_proj" qu us /\ at_index disk s l "down_proj" qd ds /\
    map snd (filter (fun x => negb (String.eqb (fst x) "down_proj")) (concat per)) = pairs qg qu s gs us /\
    map snd (filter (fun x => String.eqb (fst x) "down_proj") (concat per)) = singles qd s ds.
Proof.
  induction l as [|e l IH]; intros s Hin per; cbn [List.length seq map combine rmapM].
  - intros [= <-]. exists [], [], []. repeat split; auto using at_index_nil; intros [|k] ? [=].
  - intros H. destruct (rmapM (one_tensor _ (Z.of_nat s, e)) params) as [r|] eqn:Er; cbn [rbind] in H; [|discriminate].
    destruct (rmapM _ (combine _ l)) as [rs|] eqn:Ers; cbn [rbind] in H; [|discriminate]. injection H as <-.
    destruct (IH (S s) (fun e' H' => Hin e' (or_intror H')) rs Ers) as (gs & us & ds & Hg & Hu & Hd & E1 & E2).
    assert (He : In e experts) by (apply Hin; now left). destruct Hp as [-> | ->]; cbn [rmapM] in Er; rewrite !one_tensor_eq in Er by auto;
      destruct (dget (disk (ex_model e)) (dense_mlp i "gate_proj")) as [tg|] eqn:Eg; try discriminate; cbn [rbind] in Er;
      destruct (dget (disk (ex_model e)) (dense_mlp i "down_proj")) as [td|] eqn:Ed; cbn [rbind] in Er;
      destruct (dget (disk (ex_model e)) (dense_mlp i "up_proj")) as [tu|] eqn:Eu; cbn [rbind] in Er; try discriminate;
      injection Er as <-;
      exists (adjusted o e "gate_proj" (expert_slot i s qg) tg :: gs), (adjusted o e "up_proj" (expert_slot i s qu) tu :: us),
             (adjusted o e "down_proj" (expert_slot i s qd) td :: ds);
      (split; [now apply at_index_cons|]); (split; [now apply at_index_cons|]); (split; [now apply at_index_cons|]);
      cbn [concat app filter fst String.eqb Ascii.eqb Bool.eqb negb map snd pairs singles]; rewrite E1, E2; auto.
Qed.

Lemma per_expert_ok disk base experts qg qu qd params (Hp : layer_params qg qu qd params) :
  (exists per, rmapM (fun ke => rmapM (one_tensor (initialize_loaders disk base experts) ke) params) (enumerate experts) = Ok per) <->
  forall e p, In e experts -> In p projections -> In (dense_mlp i p) (dkeys (disk (ex_model e))).
Proof.
  rewrite rmapM_ok_iff. split.
  - intros H e p He Hpr. apply In_nth_error in He as (k & Hk). pose proof (nth_error_In _ _ Hk) as He.
    destruct (H (Z.of_nat k, e)) as (r & Hr); [apply enumerate_In; eauto|].
    assert (Hq : exists q, In (p, q) params).
    { destruct Hp as [-> | ->]; destruct Hpr as [<-|[<-|[<-|[]]]]; cbn; eauto. }
    destruct Hq as (q & Hq). destruct (proj1 (rmapM_ok_iff _ _) (ex_intro _ _ Hr) _ Hq) as (x & Hx). rewrite one_tensor_eq in Hx by auto.
    apply dget_Some_key. destruct (dget (disk (ex_model e)) (dense_mlp i p)); [eauto|discriminate].
  - intros H [k e] Hin. apply enumerate_In in Hin as (j & -> & Hj). pose proof (nth_error_In _ _ Hj) as He.
    apply rmapM_ok_iff. intros [p q] Hpq. rewrite one_tensor_eq by auto.
    assert (Hpr : In p projections).
    { destruct Hp as [-> | ->]; cbn in Hpq; destruct Hpq as [[= <- <-]|[[= <- <-]|[[= <- <-]|[]]]]; cbn; auto. }
    destruct (proj1 (dget_Some_key _ _) (H e p He Hpr)) as (t & ->). eauto.
Qed.

Record names_ok (qg qu qd : string) : Prop := {
  no_g : no_dot qg = true; no_u : no_dot qu = true; no_d : no_dot qd = true;
  no_gu : qg <> qu; no_dg : qd <> qg; no_du : qd <> qu;
  no_le : name_le ("." ++ qg ++ ".weight")%string ("." ++ qu ++ ".weight")%string = true }.

Lemma write_layer_eq ts (loaders : dict string (tensors T)) params experts :
  write_layer o ts loaders params experts i =
  let! per := rmapM (fun ke => rmapM (one_tensor loaders ke) params) (enumerate experts) in
  let! a := convert_and_save o ts (dict_of (map snd (filter (fun x => negb (String.eqb (fst x) "down_proj")) (concat per)))) (target "gate_up_proj") in
  let! b := convert_and_save o ts (dict_of (map snd (filter (fun x => String.eqb (fst x) "down_proj") (concat per)))) (target "down_proj") in
  Ok (a ++ b).
Proof.
  unfold write_layer, expert_tensors. change (".experts.gate_up_proj")%string with (".experts." ++ "gate_up_proj")%string.
  change (".experts.down_proj")%string with (".experts." ++ "down_proj")%string. rewrite !fused_layer. unfold one_tensor.
  destruct (rmapM _ (enumerate experts)); reflexivity.
Qed.

Lemma write_layer_spec disk base experts qg qu qd params (Hp : layer_params qg qu qd params) (Hn : names_ok qg qu qd) r :
  write_layer o [expert_converter o [qg; qu] "gate_up_proj"; expert_converter o [qd] "down_proj"]
    (initialize_loaders disk base experts) params experts i = Ok r ->
  exists gs us ds,
    experts_in_order o disk experts i "gate_proj" qg gs /\ experts_in_order o disk experts i "up_proj" qu us /\
    experts_in_order o disk experts i "down_proj" qd ds /\
    r = [(target "gate_up_proj", o_cast o (o_concat o [o_stack o gs; o_stack o us])); (target "down_proj", o_cast o (o_stack o ds))].
Proof.
  rewrite write_layer_eq. intros H. destruct (rmapM _ (enumerate experts)) as [per|] eqn:Eper; cbn [rbind] in H; [|discriminate].
  destruct (per_expert_spec disk base experts qg qu qd params Hp experts 0 (fun e He => He) per Eper) as (gs & us & ds & Hg & Hu & Hd & E1 & E2).
  rewrite E1, E2 in H. destruct experts as [|e0 es].
  { destruct gs; [|destruct Hg; discriminate]. destruct us; [|destruct Hu; discriminate]. destruct ds; [|destruct Hd; discriminate].
    cbn in H. discriminate. }
  unfold convert_and_save in H. destruct Hn as [H1 H2 H3 H4 H5 H6 H7].
  rewrite convert_gate_up in H; auto.
  - cbn [rbind] in H. rewrite convert_down in H; auto.
    + cbn [rbind app] in H. injection H as <-. exists gs, us, ds. repeat split; try apply Hg; try apply Hu; try apply Hd.
    + destruct ds; [destruct Hd; discriminate|discriminate].
  - destruct Hg as [-> _]. destruct Hu as [-> _]. reflexivity.
  - destruct gs; [destruct Hg; discriminate|discriminate].
Qed.

Lemma write_layer_ok disk base experts qg qu qd params (Hp : layer_params qg qu qd params) (Hn : names_ok qg qu qd) :
  (exists r, write_layer o [expert_converter o [qg; qu] "gate_up_proj"; expert_converter o [qd] "down_proj"]
    (initialize_loaders disk base experts) params experts i = Ok r) <->
  experts <> [] /\ forall e p, In e experts -> In p projections -> In (dense_mlp i p) (dkeys (disk (ex_model e))).
Proof.
  rewrite write_layer_eq, <- (per_expert_ok disk base experts qg qu qd params Hp).
  destruct (rmapM _ (enumerate experts)) as [per|] eqn:Eper; cbn [rbind].
  2:{ split; [intros (? & ?); discriminate|]. intros (_ & ? & ?). discriminate. }
  destruct (per_expert_spec disk base experts qg qu qd params Hp experts 0 (fun e He => He) per Eper) as (gs & us & ds & Hg & Hu & Hd & E1 & E2).
  rewrite E1, E2. unfold convert_and_save. destruct Hn as [H1 H2 H3 H4 H5 H6 H7]. split.
  - intros (r & Hr). split; [|eauto]. intros ->. destruct gs; [|destruct Hg; discriminate]. destruct us; [|destruct Hu; discriminate].
    cbn in Hr. discriminate.
  - intros (Hne & _). rewrite convert_gate_up; auto.
    + cbn [rbind]. rewrite convert_down; auto; [cbn; eauto|]. destruct Hd as [Hd _]. destruct ds; [|discriminate]. destruct experts; [contradiction|discriminate].
    + destruct Hg as [-> _]. destruct Hu as [-> _]. reflexivity.
    + destruct Hg as [Hg _]. destruct gs; [|discriminate]. destruct experts; [contradiction|discriminate].
Qed.
End Layer.

Lemma in_order_inj o disk experts i p q ts ts' :
  experts_in_order o disk experts i p q ts -> experts_in_order o disk experts i p q ts' -> ts = ts'.
Proof.
  intros [Hl H] [Hl' H']. apply nth_error_eq. intros k. destruct (nth_error experts k) as [e|] eqn:E.
  - destruct (H k e E) as (t & Ht & ->). destruct (H' k e E) as (t' & Ht' & ->). congruence.
  - apply nth_error_None in E. rewrite !(proj2 (nth_error_None _ _)); auto; lia.
Qed.
End Fused.
