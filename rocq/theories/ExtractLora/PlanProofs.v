(** Facts about the adapter configuration and the plan. *)
From Verif.Base Require Import Py PyFacts PyStr.
From Verif.ExtractLora Require Import Model Spec.
Local Open Scope string_scope.
Local Open Scope list_scope.

Lemma substring_app_l a b : String.substring 0 (String.length a) (a ++ b)%string = a.
Proof. induction a as [|c a IH]; cbn; [destruct b; reflexivity|]. now rewrite IH. Qed.
Lemma substring_app_r a b : String.substring (String.length a) (String.length b) (a ++ b)%string = b.
Proof.
  induction a as [|c a IH]; cbn; [|exact IH]. induction b as [|c b IH]; cbn; [reflexivity|]. now rewrite IH.
Qed.
Lemma removesuffix_app suf n : removesuffix suf (n ++ suf)%string = n.
Proof.
  unfold removesuffix. rewrite len_app. replace (String.length n + String.length suf - String.length suf) with (String.length n) by lia.
  rewrite substring_app_r, eqb_refl. replace (Nat.leb _ _) with true by (symmetry; apply Nat.leb_le; lia).
  cbn [andb]. apply substring_app_l.
Qed.

Definition named (mods : list (string * (mat * mat))) : list (string * (mat * mat)) :=
  map (fun nm => ((fst nm ++ ".weight")%string, snd nm)) mods.

Lemma ranks_get : forall (mods : list (string * (mat * mat))) acc n ab,
  NoDup (map fst mods) -> In (n, ab) mods ->
  dget (fold_left (fun d wr => dset d (removesuffix ".weight" (fst wr)) (rows (fst (snd wr)))) (named mods) acc) n = Some (rows (fst ab)).
Proof.
  assert (Hother : forall mods acc n, ~ In n (map fst mods) ->
    dget (fold_left (fun d wr => dset d (removesuffix ".weight" (fst wr)) (rows (fst (snd wr)))) (named mods) acc) n = dget acc n).
  { induction mods as [|[n0 ab0] mods IH]; intros acc n Hn; [reflexivity|]. cbn [named map fold_left fst snd] in *.
    rewrite removesuffix_app. fold (named mods). rewrite IH by (intros H; apply Hn; now right).
    apply dget_dset_neq. intros ->. apply Hn. now left. }
  induction mods as [|[n0 ab0] mods IH]; intros acc n ab Hnd Hin; [destruct Hin|].
  cbn [named map fold_left fst snd] in *. rewrite removesuffix_app. fold (named mods). inversion Hnd as [|? ? Hni Hnd']; subst.
  destruct Hin as [[= -> ->]|Hin].
  - rewrite Hother by exact Hni. apply dget_dset_eq.
  - now apply IH.
Qed.
Lemma ranks_NoDup results : NoDup (dkeys (real_ranks results)).
Proof.
  unfold real_ranks. assert (H : forall acc, NoDup (dkeys acc) ->
    NoDup (dkeys (fold_left (fun d wr => dset d (removesuffix ".weight" (fst wr)) (rows (fst (snd wr)))) results acc))).
  { induction results as [|x l IH]; intros acc Ha; [exact Ha|]. cbn [fold_left]. apply IH, dkeys_dset_NoDup, Ha. }
  apply H. constructor.
Qed.

Lemma filter_get {V} (p : string * V -> bool) (d : dict string V) k : NoDup (dkeys d) ->
  dget (filter p d) k = match dget d k with Some v => if p (k, v) then Some v else None | None => None end.
Proof.
  induction d as [|[k' v'] d IH]; intros Hnd; [reflexivity|]. rewrite dkeys_cons in Hnd. inversion Hnd as [|? ? Hni Hnd']; subst.
  cbn [filter dget]. destruct (eqb_spec k k') as [->|Hk].
  - destruct (p (k', v')); [cbn [dget]; now rewrite eqb_refl|]. rewrite IH by exact Hnd'.
    apply dget_None in Hni. now rewrite Hni.
  - destruct (p (k', v')); [cbn [dget]; rewrite (proj2 (eqb_neq k k') Hk)|]; now apply IH.
Qed.

Lemma lmax_ge l x : In x l -> (x <= lmax l)%nat.
Proof. induction l as [|y l IH]; intros []; cbn; [lia|]. specialize (IH H). unfold lmax in IH. lia. Qed.
Lemma lmax_In l : l <> [] -> In (lmax l) l.
Proof.
  induction l as [|y l IH]; intros H; [congruence|]. cbn. destruct l as [|z l]; [left; cbn; lia|].
  specialize (IH ltac:(discriminate)). destruct (Nat.max_spec y (lmax (z :: l))) as [[_ E]|[_ E]]; unfold lmax in *; rewrite E; [now right|now left].
Qed.

Lemma rank_recorded mts mods c n ab : NoDup (map fst mods) -> adapter mts (named mods) = Ok c -> In (n, ab) mods ->
  peft_rank c n = rows (fst ab) /\ peft_alpha c n = rows (fst ab).
Proof.
  intros Hnd E Hin. unfold adapter in E. pose proof (ranks_get mods [] n ab Hnd Hin) as Hg. fold (real_ranks (named mods)) in Hg.
  pose proof (ranks_NoDup (named mods)) as Hk. destruct (real_ranks (named mods)) as [|x l] eqn:El; [discriminate|]. rewrite <- El in *.
  injection E as <-. unfold peft_rank, peft_alpha, make_config. cbn [ac_rank_pattern ac_alpha_pattern ac_r ac_alpha].
  rewrite filter_get, Hg by exact Hk. cbn [snd]. destruct (Nat.eqb_spec (rows (fst ab)) (lmax (dvals (real_ranks (named mods))))) as [->|Hne]; cbn [negb]; auto.
Qed.

(** ** the plan *)
Section Plan.
Variables (o : options) (is_tuple : bool).

Lemma append_key_spec key mts mts' : append_key is_tuple key mts = Ok mts' ->
  In key mts' /\ (forall x, In x mts -> In x mts') /\ (forall x, In x mts' -> In x mts \/ x = key) /\
  (is_tuple = true -> mts' = mts).
Proof.
  unfold append_key. destruct (mem key mts) eqn:E.
  - intros [= <-]. apply mem_In in E. auto.
  - destruct is_tuple; [discriminate|]. intros [= <-]. split; [apply in_app_iff; right; now left|].
    split; [intros x Hx; apply in_app_iff; now left|]. split; [|discriminate].
    intros x Hx. apply in_app_iff in Hx as [|[<-|[]]]; auto.
Qed.

(** what one module contributes *)
Definition listed (mts : list string) (name : string) : Prop := In name mts \/ In (last_part name) mts.
Definition adds (m : module_) : Prop :=
  (op_embed_lora o = false /\ is_emb m = true /\ op_exclude o (mo_name m) = false) \/
  (supported m = false /\ should_extract o (mo_name m) = true /\ op_skip o = false).

Lemma plan_module_spec m mts acts mts' : plan_module o is_tuple m mts = Ok (acts, mts') ->
  (forall x, In x mts -> In x mts') /\
  (forall x, In x mts' -> In x mts \/ (x = last_part (mo_name m) /\ adds m /\ exists b, acts = [AFull (mo_name m) b])) /\
  (acts = [] \/
   (acts = [AFull (mo_name m) (mo_bias m)] /\ listed mts' (mo_name m)) \/
   (acts = [ALora (mo_name m) (match mo_kind m with KEmbedding => true | _ => false end) (mo_bias m)] /\
    mts' = mts /\ ~ listed mts (mo_name m) /\ supported m = true /\ should_extract o (mo_name m) = true)) /\
  ((mo_known m = true \/ mo_has_weight m = true) -> listed mts (mo_name m) \/ adds m -> acts = [AFull (mo_name m) (mo_bias m)]) /\
  ((mo_known m = true \/ mo_has_weight m = true) -> ~ listed mts (mo_name m) -> ~ adds m ->
     should_extract o (mo_name m) = true -> supported m = true ->
     acts = [ALora (mo_name m) (match mo_kind m with KEmbedding => true | _ => false end) (mo_bias m)]) /\
  (~ listed mts (mo_name m) -> ~ adds m -> should_extract o (mo_name m) = false \/ supported m = false -> acts = []).
Proof.
  unfold plan_module. destruct (negb (mo_known m) && negb (mo_has_weight m)) eqn:Ew.
  { intros [= <- <-]. apply andb_true_iff in Ew as [E1 E2]. apply negb_true_iff in E1, E2.
    split; [auto|]. split; [auto|]. split; [now left|]. repeat split; try (intros [?|?]; congruence). }
  intros E.
  destruct (if negb (op_embed_lora o) && is_emb m && negb (op_exclude o (mo_name m)) then append_key is_tuple (last_part (mo_name m)) mts else Ok mts)
    as [mts1|] eqn:E1; cbn [rbind] in E; [|discriminate].
  assert (Hstep : (forall x, In x mts -> In x mts1) /\
     ((negb (op_embed_lora o) && is_emb m && negb (op_exclude o (mo_name m)) = true /\ In (last_part (mo_name m)) mts1 /\
       forall x, In x mts1 -> In x mts \/ x = last_part (mo_name m)) \/
      (negb (op_embed_lora o) && is_emb m && negb (op_exclude o (mo_name m)) = false /\ mts1 = mts))).
  { destruct (negb (op_embed_lora o) && is_emb m && negb (op_exclude o (mo_name m))).
    - apply append_key_spec in E1 as (H1 & H2 & H3 & _). split; [exact H2|]. left. auto.
    - injection E1 as <-. split; [auto|]. right. auto. }
  clear E1. destruct Hstep as [Hinc Hstep].
  assert (Hadd1 : negb (op_embed_lora o) && is_emb m && negb (op_exclude o (mo_name m)) = true -> adds m).
  { intros H. apply andb_true_iff in H as [H H3]. apply andb_true_iff in H as [H1 H2]. apply negb_true_iff in H1, H3. left. auto. }
  assert (Hno1 : negb (op_embed_lora o) && is_emb m && negb (op_exclude o (mo_name m)) = false ->
    ~ (op_embed_lora o = false /\ is_emb m = true /\ op_exclude o (mo_name m) = false)).
  { intros H (H1 & H2 & H3). rewrite H1, H2, H3 in H. discriminate. }
  destruct (mem (mo_name m) mts1 || mem (last_part (mo_name m)) mts1) eqn:El.
  { injection E as <- <-. assert (Hl : listed mts1 (mo_name m)).
    { apply orb_true_iff in El as [El|El]; apply mem_In in El; [now left|now right]. }
    split; [exact Hinc|]. split.
    { intros x Hx. destruct Hstep as [(Hc & _ & Hx')|[_ ->]]; [|now left]. destruct (Hx' x Hx) as [?|Hk]; [now left|].
      right. split; [exact Hk|]. split; [auto|eauto]. }
    split; [right; left; auto|]. split; [reflexivity|]. split.
    - intros _ Hnl Hna. exfalso. destruct Hstep as [(Hc & _)|[_ ->]]; [exact (Hna (Hadd1 Hc))|exact (Hnl Hl)].
    - intros Hnl Hna. exfalso. destruct Hstep as [(Hc & _)|[_ ->]]; [exact (Hna (Hadd1 Hc))|exact (Hnl Hl)]. }
  apply orb_false_iff in El as [El1 El2]. apply mem_nIn in El1, El2.
  destruct Hstep as [(_ & Hin & _)|[Hc ->]]; [contradiction|]. clear Hinc.
  assert (Hnl : ~ listed mts (mo_name m)) by (intros [?|?]; contradiction).
  destruct (should_extract o (mo_name m)) eqn:Es.
  - destruct (supported m) eqn:Esup.
    + injection E as <- <-. split; [auto|]. split; [auto|]. split; [right; right; auto|]. split; [|split].
      * intros _ [?|[Ha|(Hf & _)]]; [contradiction|exfalso; exact (Hno1 Hc Ha)|congruence].
      * reflexivity.
      * intros _ _ [?|?]; discriminate.
    + destruct (op_skip o) eqn:Esk.
      * injection E as <- <-. split; [auto|]. split; [auto|]. split; [now left|]. split; [|split].
        -- intros _ [?|[Ha|(_ & _ & Hf)]]; [contradiction|exfalso; exact (Hno1 Hc Ha)|congruence].
        -- discriminate.
        -- reflexivity.
      * destruct (append_key is_tuple (last_part (mo_name m)) mts) as [mts2|] eqn:Ea; cbn [rbind] in E; [|discriminate].
        injection E as <- <-. apply append_key_spec in Ea as (H1 & H2 & H3 & _). split; [exact H2|].
        assert (Hadd : adds m) by (right; auto). split.
        -- intros x Hx. destruct (H3 x Hx) as [?|?]; [now left|]. right. split; [assumption|]. split; [exact Hadd|eauto].
        -- split; [right; left; split; [reflexivity|now right]|]. split; [reflexivity|]. split.
           ++ intros _ _ Hna. contradiction.
           ++ intros _ Hna. contradiction.
  - injection E as <- <-. split; [auto|]. split; [auto|]. split; [now left|]. split; [|split].
    + intros _ [?|[Ha|(_ & Hf & _)]]; [contradiction|exfalso; exact (Hno1 Hc Ha)|congruence].
    + discriminate.
    + reflexivity.
Qed.

(** the list only grows *)
Lemma plan_grows : forall ms mts acts mts', plan_modules o is_tuple ms mts = Ok (acts, mts') -> forall x, In x mts -> In x mts'.
Proof.
  induction ms as [|m ms IH]; intros mts acts mts' E x Hx; cbn [plan_modules] in E.
  - injection E as _ <-. exact Hx.
  - destruct (plan_module o is_tuple m mts) as [[a mts1]|] eqn:E1; cbn [rbind] in E; [|discriminate].
    destruct (plan_modules o is_tuple ms mts1) as [[rest mts2]|] eqn:E2; cbn [rbind] in E; [|discriminate]. injection E as <- <-.
    apply (IH _ _ _ E2). now apply (plan_module_spec m mts a mts1 E1).
Qed.

Lemma plan_sublist : forall ms mts acts mts', plan_modules o is_tuple ms mts = Ok (acts, mts') ->
  (NoDup (map mo_name ms) -> NoDup (map action_name acts)) /\
  (forall a, In a acts -> exists m, In m ms /\ action_name a = mo_name m) /\
  (forall n b, In (AFull n b) acts -> listed mts' n) /\
  (forall n t b, In (ALora n t b) acts -> exists m, In m ms /\ mo_name m = n /\ supported m = true /\ should_extract o n = true) /\
  (forall x, In x mts' -> In x mts \/ exists m b, In m ms /\ x = last_part (mo_name m) /\ adds m /\ In (AFull (mo_name m) b) acts).
Proof.
  induction ms as [|m ms IH]; intros mts acts mts' E; cbn [plan_modules] in E.
  - injection E as <- <-. split; [intros _; constructor|]. split; [intros ? []|]. split; [intros ? ? []|]. split; [intros ? ? ? []|]. auto.
  - destruct (plan_module o is_tuple m mts) as [[a mts1]|] eqn:E1; cbn [rbind] in E; [|discriminate].
    destruct (plan_modules o is_tuple ms mts1) as [[rest mts2]|] eqn:E2; cbn [rbind] in E; [|discriminate]. injection E as <- <-.
    destruct (IH _ _ _ E2) as (I1 & I2 & I3 & I4 & I5). destruct (plan_module_spec m mts a mts1 E1) as (S1 & S2 & S3 & _).
    pose proof (plan_grows _ _ _ _ E2) as Hg.
    assert (Ha : forall x, In x a -> action_name x = mo_name m).
    { destruct S3 as [->|[[-> _]|[-> _]]]; intros x; [intros []|intros [<-|[]]; reflexivity|intros [<-|[]]; reflexivity]. }
    assert (Hl : (length a <= 1)%nat) by (destruct S3 as [->|[[-> _]|[-> _]]]; cbn; lia).
    split; [|split; [|split; [|split]]].
    + cbn [map]. intros Hnd. inversion Hnd as [|? ? Hni Hnd']; subst. rewrite map_app. apply NoDup_app_intro.
      * destruct a as [|x [|? ?]]; cbn in Hl; [constructor|repeat constructor; intros []|lia].
      * auto.
      * intros n Hn Hn2. apply in_map_iff in Hn as (x & <- & Hx). apply in_map_iff in Hn2 as (y & Hy & Hin).
        destruct (I2 y Hin) as (m' & Hm' & En). apply Hni. rewrite <- (Ha x Hx), <- Hy, En. now apply in_map.
    + intros x Hx. apply in_app_iff in Hx as [Hx|Hx].
      * exists m. split; [now left|auto].
      * destruct (I2 x Hx) as (m' & Hm' & En). exists m'. split; [now right|exact En].
    + intros n b Hn. apply in_app_iff in Hn as [Hn|Hn]; [|eauto].
      destruct S3 as [->|[[-> Hlist]|[-> _]]]; [destruct Hn| |destruct Hn as [[=]|[]]].
      destruct Hn as [[= <- <-]|[]]. destruct Hlist; [left|right]; auto.
    + intros n t b Hn. apply in_app_iff in Hn as [Hn|Hn].
      * destruct S3 as [->|[[-> _]|(-> & _ & _ & H1 & H2)]]; [destruct Hn|destruct Hn as [[=]|[]]|].
        destruct Hn as [[= <- <- <-]|[]]. exists m. split; [now left|auto].
      * destruct (I4 n t b Hn) as (m' & Hm' & H). exists m'. split; [now right|exact H].
    + intros x Hx. destruct (I5 x Hx) as [Hx1|(m' & b & Hm' & H1 & H2 & H3)].
      * destruct (S2 x Hx1) as [?|(-> & Had & b & Hb)]; [now left|]. right. exists m, b. split; [now left|]. split; [reflexivity|].
        split; [exact Had|]. apply in_app_iff. left. rewrite Hb. now left.
      * right. exists m', b. split; [now right|]. split; [exact H1|]. split; [exact H2|]. apply in_app_iff. now right.
Qed.

(** completeness: what happens to a module, given the list just before it *)
Lemma plan_split : forall pre m post mts acts mts', plan_modules o is_tuple (pre ++ m :: post) mts = Ok (acts, mts') ->
  exists a1 mts1 a mts2 a2, plan_modules o is_tuple pre mts = Ok (a1, mts1) /\ plan_module o is_tuple m mts1 = Ok (a, mts2) /\
    plan_modules o is_tuple post mts2 = Ok (a2, mts') /\ acts = a1 ++ a ++ a2.
Proof.
  induction pre as [|p pre IH]; intros m post mts acts mts' E; cbn [plan_modules app] in E |- *.
  - destruct (plan_module o is_tuple m mts) as [[a mts1]|] eqn:E1; cbn [rbind] in E; [|discriminate].
    destruct (plan_modules o is_tuple post mts1) as [[rest mts2]|] eqn:E2; cbn [rbind] in E; [|discriminate]. injection E as <- <-.
    exists [], mts, a, mts1, rest. auto.
  - destruct (plan_module o is_tuple p mts) as [[a mts1]|] eqn:E1; cbn [rbind] in E |- *; [|discriminate].
    destruct (plan_modules o is_tuple (pre ++ m :: post) mts1) as [[rest mts2]|] eqn:E2; cbn [rbind] in E; [|discriminate]. injection E as <- <-.
    destruct (IH _ _ _ _ _ E2) as (a1 & mts3 & b & mts4 & a2 & H1 & H2 & H3 & ->).
    exists (a ++ a1), mts3, b, mts4, a2. rewrite H1. cbn [rbind]. rewrite app_assoc. auto.
Qed.
End Plan.
