(** The writers that keep experts apart, and facts shared by all writers. *)
From Verif.Base Require Import Py PyFacts PyStr.
From Verif.Arch Require Import Model Spec Data ShippedProofs.
From Verif.Moe Require Import Model Spec NameProofs.
Local Open Scope string_scope.
Local Open Scope list_scope.

(** ** rmapM and concat *)
Lemma rmapM_concat_In {A B} (f : A -> result (list B)) l out : rmapM f l = Ok out ->
  forall y, In y (concat out) <-> exists x r, In x l /\ f x = Ok r /\ In y r.
Proof.
  intros H. apply rmapM_Ok_Forall2 in H. induction H as [|x r l out Hx _ IH]; intros y; cbn.
  - split; [tauto|]. intros (x & r & [] & _).
  - rewrite in_app_iff, IH. split.
    + intros [Hy|(x' & r' & Hin & Hr & Hy)]; eauto 6.
    + intros (x' & r' & [->|Hin] & Hr & Hy); [left; congruence|right; eauto].
Qed.
Lemma rmapM_ok_iff {A B} (f : A -> result B) l : (exists out, rmapM f l = Ok out) <-> forall x, In x l -> exists r, f x = Ok r.
Proof.
  induction l as [|x l IH]; cbn.
  - split; [intros _ ? []|eauto].
  - destruct (f x) as [r|e] eqn:E; cbn.
    + destruct (rmapM f l) as [rs|e] eqn:El; cbn.
      * split; [|eauto]. intros _ y [<-|Hy]; [eauto|]. apply IH; eauto.
      * split; [intros (? & ?); discriminate|]. intros H. destruct (proj2 IH) as (o & Ho); [auto|discriminate].
    + split; [intros (? & ?); discriminate|]. intros H. destruct (H x) as (r & Hr); [auto|congruence].
Qed.
Lemma rmapM_concat_NoDup {A B K} (f : A -> result (list (K * B))) (key : A -> K) (origin : K -> K) l out :
  rmapM f l = Ok out -> NoDup (map key l) ->
  (forall x r, In x l -> f x = Ok r -> NoDup (map fst r) /\ forall nm, In nm (map fst r) -> origin nm = key x) ->
  NoDup (map fst (concat out)).
Proof.
  intros H. apply rmapM_Ok_Forall2 in H. induction H as [|x r l out Hx Hl IH]; cbn; intros Hnd Hf; [constructor|].
  inversion Hnd as [|? ? Hn Hnd']; subst. rewrite map_app. apply NoDup_app_intro.
  - apply (Hf x r); auto.
  - apply IH; auto.
  - intros nm Hr Hc. destruct (Hf x r) as [_ Ho]; auto. specialize (Ho _ Hr).
    apply in_map_iff in Hc as ([nm' b] & <- & Hc). apply in_concat in Hc as (r' & Hr' & Hb).
    assert (Hy : exists y, In y l /\ f y = Ok r').
    { clear - Hl Hr'. induction Hl as [|y r'' l out Hy _ IH]; [contradiction|]. destruct Hr' as [->|Hr']; [exists y; cbn; auto|].
      destruct (IH Hr') as (z & Hz & E). exists z. cbn; auto. }
    destruct Hy as (y & Hy & Ey). destruct (Hf y r') as [_ Ho']; auto.
    cbn [fst] in Ho. rewrite (Ho' nm') in Ho by (apply in_map_iff; eexists; split; [|eassumption]; auto).
    apply Hn. rewrite <- Ho. now apply in_map.
Qed.

Lemma enumerate_In {A} (l : list A) k e : In (k, e) (enumerate l) <-> exists j, k = Z.of_nat j /\ nth_error l j = Some e.
Proof.
  unfold enumerate. assert (H : forall s, In (k, e) (combine (map Z.of_nat (seq s (List.length l))) l)
                                       <-> exists j, k = Z.of_nat (s + j) /\ nth_error l j = Some e).
  { induction l as [|x l IH]; intros s; cbn.
    - split; [tauto|]. intros (j & _ & H). destruct j; discriminate.
    - rewrite IH. split.
      + intros [[= <- <-]|(j & -> & Hj)]; [exists 0; rewrite Nat.add_0_r; auto|]. exists (S j). rewrite <- Nat.add_succ_comm. auto.
      + intros ([|j] & -> & Hj); [left; injection Hj as ->; now rewrite Nat.add_0_r|]. right. exists j. rewrite <- Nat.add_succ_comm. auto. }
  apply H.
Qed.
Lemma enumerate_fst {A} (l : list A) : map fst (enumerate l) = map Z.of_nat (seq 0 (List.length l)).
Proof.
  unfold enumerate. generalize 0. induction l as [|x l IH]; intros s; cbn; [reflexivity|]. now rewrite IH.
Qed.
Lemma enumerate_fst_NoDup {A} (l : list A) : NoDup (map fst (enumerate l)).
Proof. rewrite enumerate_fst. apply FinFun.Injective_map_NoDup; [|apply seq_NoDup]. intros x y H. now apply Nat2Z.inj in H. Qed.

(** ** Where an output tensor's name comes from: experts' and shared experts' infixes dropped *)
Definition origin (nm : string) : string :=
  match split_on "."%char nm with
  | [a; b; c; d; _; _; p; w] => join_dots [a; b; c; d; p; w]
  | [a; b; c; d; _; p; w] => join_dots [a; b; c; d; p; w]
  | _ => nm
  end.
Definition no_dot (q : string) : bool := all_chars (fun x => negb (Ascii.eqb x ".")) q.
Lemma projections_no_dot p : In p projections -> no_dot p = true.
Proof. intros [<-|[<-|[<-|[]]]]; reflexivity. Qed.
Lemma projections_mlp p : In p projections -> exists c s, p = String c s /\ c <> "."%char.
Proof. intros [<-|[<-|[<-|[]]]]; do 2 eexists; (split; [reflexivity|discriminate]). Qed.

Lemma join_mlp i p : join_dots ["model"; "layers"; str_of_Z i; "mlp"; p; "weight"] = dense_mlp i p.
Proof. unfold dense_mlp, layer_name. cbn. reflexivity. Qed.
Lemma origin_expert i k p : (0 <= i)%Z -> In p projections -> origin (expert_slot i k p) = dense_mlp i p.
Proof.
  intros Hi Hp. unfold origin. rewrite split_slot by (auto; now apply projections_no_dot). apply join_mlp.
Qed.
Definition shared_slot (i : Z) (sh p : string) : string := layer_name i ("mlp." ++ sh ++ "." ++ p ++ ".weight").
Lemma split_shared i sh p : (0 <= i)%Z -> no_dot sh = true -> In p projections ->
  split_on "."%char (shared_slot i sh p) = ["model"; "layers"; str_of_Z i; "mlp"; sh; p; "weight"].
Proof.
  intros Hi Hs Hp. unfold shared_slot. rewrite split_layer by auto.
  change ("mlp." ++ sh ++ "." ++ p ++ ".weight")%string with ("mlp" ++ String "." (sh ++ String "." (p ++ String "." "weight")))%string.
  rewrite !split_on_app; auto. now apply projections_no_dot.
Qed.
Lemma origin_shared i sh p : (0 <= i)%Z -> no_dot sh = true -> In p projections -> origin (shared_slot i sh p) = dense_mlp i p.
Proof. intros Hi Hs Hp. unfold origin. rewrite split_shared by auto. apply join_mlp. Qed.
Lemma origin_short i s : (0 <= i)%Z -> (Nat.leb (List.length (split_on "."%char s)) 3) = true -> origin (layer_name i s) = layer_name i s.
Proof.
  intros Hi Hs. unfold origin. rewrite split_layer by auto. destruct (split_on "."%char s) as [|a [|b [|c [|d l]]]]; auto. discriminate.
Qed.

(** ** replace and the residual test on the dense names *)
Lemma replace_dense i p new : (0 <= i)%Z -> In p projections ->
  replace ".mlp." new (dense_mlp i p) = ("model.layers." ++ str_of_Z i ++ new ++ p ++ ".weight")%string.
Proof.
  intros Hi Hp. unfold dense_mlp. rewrite replace_layer by auto. do 2 f_equal.
  destruct Hp as [<-|[<-|[<-|[]]]]; reflexivity.
Qed.
Lemma replace_expert i k p : (0 <= i)%Z -> In p projections ->
  replace ".mlp." (".mlp.experts." ++ str_of_Z (Z.of_nat k) ++ ".")%string (dense_mlp i p) = expert_slot i k p.
Proof. intros Hi Hp. rewrite replace_dense by auto. unfold expert_slot, layer_name. rewrite !app_str_assoc. reflexivity. Qed.
Lemma replace_shared i sh p : (0 <= i)%Z -> In p projections ->
  replace ".mlp." (".mlp." ++ sh ++ ".")%string (dense_mlp i p) = shared_slot i sh p.
Proof. intros Hi Hp. rewrite replace_dense by auto. unfold shared_slot, layer_name. rewrite !app_str_assoc. reflexivity. Qed.
Lemma residual_dense i p : (0 <= i)%Z -> In p projections -> infix "down_proj" (dense_mlp i p) = String.eqb p "down_proj".
Proof. intros Hi Hp. unfold dense_mlp. rewrite infix_down by auto. destruct Hp as [<-|[<-|[<-|[]]]]; reflexivity. Qed.
Lemma mlp_dense i p : (0 <= i)%Z -> In p projections -> infix ".mlp." (dense_mlp i p) = true.
Proof. intros Hi Hp. unfold dense_mlp. rewrite infix_layer by auto. destruct Hp as [<-|[<-|[<-|[]]]]; reflexivity. Qed.

Section Split.
Context {T F : Type}.
Implicit Types (o : ops T F) (disk : string -> tensors T) (e : expert F).

Lemma adjusted_scale o e p tag t : noise_and_scale o tag t e (String.eqb p "down_proj") = adjusted o e p tag t.
Proof. reflexivity. Qed.

Lemma loaders_get disk base (experts : list (expert F)) m :
  dget (initialize_loaders disk base experts) m = if mem m (base :: map ex_model experts) then Some (disk m) else None.
Proof.
  unfold initialize_loaders, dict_of. generalize (base :: map ex_model experts). intros l.
  assert (H : forall l d, dget (fold_left (fun d kv => dset d (fst kv) (snd kv)) (map (fun m => (m, disk m)) l) d) m
                          = if mem m l then Some (disk m) else dget d m).
  { clear. induction l as [|x l IH]; intros d; cbn [map fold_left mem]; [reflexivity|]. rewrite IH. cbn [fst snd].
    rewrite dget_dset. cbn [existsb]. destruct (eqb_spec m x) as [->|Hne].
    - destruct (mem x l) eqn:E; cbn; auto.
    - reflexivity. }
  apply H.
Qed.

Lemma copy_plain o nm d (oe : option (expert F)) r out :
  copy_tensor_out o (plain_weight nm) d oe r out =
  match d with
  | None => Err AttributeError
  | Some d => match dget d nm with
              | Some t => Ok [(out, o_cast o (match oe with Some e => noise_and_scale o out t e r | None => t end))]
              | None => Err KeyError
              end
  end.
Proof. unfold copy_tensor_out, plain_weight, w. cbn. destruct d as [d|]; cbn; [|reflexivity]. destruct (dget d nm); reflexivity. Qed.

(** the experts of one projection *)
Lemma copy_experts_spec o disk base experts shared sh i p r :
  (0 <= i)%Z -> In p projections -> no_dot sh = true ->
  copy_experts o (initialize_loaders disk base experts) experts shared (".mlp." ++ sh ++ ".")%string (plain_weight (dense_mlp i p)) = Ok r ->
  (forall nm t, In (nm, t) r <->
     (exists k e t0, nth_error experts k = Some e /\ dget (disk (ex_model e)) (dense_mlp i p) = Some t0 /\
                     nm = expert_slot i k p /\ t = o_cast o (adjusted o e p (expert_slot i k p) t0)) \/
     (exists s t0, shared = Some s /\ dget (disk (ex_model s)) (dense_mlp i p) = Some t0 /\
                   nm = shared_slot i sh p /\ t = o_cast o (adjusted o s p (shared_slot i sh p) t0))) /\
  NoDup (map fst r) /\ (forall nm, In nm (map fst r) -> origin nm = dense_mlp i p).
Proof.
  intros Hi Hp Hsh. unfold copy_experts. cbn [plain_weight w wi_name]. fold (plain_weight (dense_mlp i p)). rewrite residual_dense by auto.
  destruct (rmapM _ (enumerate experts)) as [per|er] eqn:Eper; cbn [rbind]; [|discriminate].
  destruct (match shared with None => _ | Some s => _ end) as [shr|er] eqn:Esh; cbn [rbind]; [|discriminate].
  intros [= <-].
  assert (Hper : forall nm t, In (nm, t) (concat per) <->
     exists k e t0, nth_error experts k = Some e /\ dget (disk (ex_model e)) (dense_mlp i p) = Some t0 /\
                     nm = expert_slot i k p /\ t = o_cast o (adjusted o e p (expert_slot i k p) t0)).
  { intros nm t. rewrite (rmapM_concat_In _ _ _ Eper). split.
    - intros ([k e] & r & Hin & Hr & Hy). apply enumerate_In in Hin as (j & -> & Hj). cbn [fst snd] in Hr.
      rewrite copy_plain, loaders_get in Hr.
      replace (mem (ex_model e) (base :: map ex_model experts)) with true in Hr
        by (symmetry; apply mem_In; right; apply in_map; eapply nth_error_In; eauto).
      rewrite replace_expert in Hr by auto. destruct (dget (disk (ex_model e)) (dense_mlp i p)) as [t0|] eqn:Et; [|discriminate].
      injection Hr as <-. destruct Hy as [[= <- <-]|[]]. exists j, e, t0. auto.
    - intros (k & e & t0 & Hk & Et & -> & ->). exists (Z.of_nat k, e). eexists. split; [apply enumerate_In; eauto|]. cbn [fst snd].
      rewrite copy_plain, loaders_get.
      replace (mem (ex_model e) (base :: map ex_model experts)) with true
        by (symmetry; apply mem_In; right; apply in_map; eapply nth_error_In; eauto).
      rewrite Et, replace_expert by auto. split; [reflexivity|]. now left. }
  assert (Hshr : forall nm t, In (nm, t) shr <->
     exists s t0, shared = Some s /\ dget (disk (ex_model s)) (dense_mlp i p) = Some t0 /\
                   nm = shared_slot i sh p /\ t = o_cast o (adjusted o s p (shared_slot i sh p) t0)).
  { intros nm t. destruct shared as [s|].
    - rewrite copy_plain, loaders_get, replace_shared in Esh by auto. destruct (mem (ex_model s) _); [|discriminate].
      destruct (dget (disk (ex_model s)) (dense_mlp i p)) as [t0|] eqn:Et; [|discriminate]. injection Esh as <-. split.
      + intros [[= <- <-]|[]]. exists s, t0. auto.
      + intros (s' & t1 & [= <-] & Et' & -> & ->). rewrite Et in Et'. injection Et' as <-. now left.
    - injection Esh as <-. split; [intros []|]. intros (s & t0 & [=] & _). }
  split; [|split].
  - intros nm t. rewrite in_app_iff, Hper, Hshr. reflexivity.
  - rewrite map_app. apply NoDup_app_intro.
    + apply (rmapM_concat_NoDup _ (fun ke => expert_slot i (Z.to_nat (fst ke)) p) (fun nm => nm) _ _ Eper).
      * rewrite <- (map_map fst (fun z => expert_slot i (Z.to_nat z) p)). rewrite enumerate_fst, map_map.
        apply FinFun.Injective_map_NoDup; [|apply seq_NoDup]. intros x y Hxy. rewrite !Nat2Z.id in Hxy.
        apply expert_slot_inj in Hxy; auto; try (now apply projections_no_dot). tauto.
      * intros [k e] r Hin Hr. apply enumerate_In in Hin as (j & -> & Hj). cbn [fst snd] in *. rewrite copy_plain, replace_expert in Hr by auto.
        destruct (dget (initialize_loaders _ _ _) _) as [d|]; [|discriminate]. destruct (dget d _); [|discriminate]. injection Hr as <-.
        rewrite Nat2Z.id by auto. split; [repeat constructor; auto|]. intros nm [<-|[]]. reflexivity.
    + destruct shared as [s|]; [|injection Esh as <-; constructor]. rewrite copy_plain in Esh.
      destruct (dget (initialize_loaders _ _ _) _) as [d|]; [|discriminate]. destruct (dget d _); [|discriminate]. injection Esh as <-. repeat constructor; auto.
    + intros nm H1 H2. apply in_map_iff in H1 as ([nm1 t1] & H1e & H1). cbn [fst] in H1e. subst nm1. apply in_map_iff in H2 as ([nm2 t2] & H2e & H2). cbn [fst] in *. subst nm2.
      apply Hper in H1 as (k & e & t0 & _ & _ & -> & _). apply Hshr in H2 as (s & t3 & _ & _ & H & _).
      apply (f_equal (split_on "."%char)) in H. rewrite split_slot, split_shared in H; auto; [discriminate|now apply projections_no_dot].
  - intros nm Hnm. rewrite map_app, in_app_iff in Hnm. destruct Hnm as [H|H]; apply in_map_iff in H as ([? t1] & <- & H); cbn [fst].
    + apply Hper in H as (k & e & t0 & _ & _ & -> & _). now apply origin_expert.
    + apply Hshr in H as (sx & t0 & _ & _ & -> & _). now apply origin_shared.
Qed.

Lemma copy_experts_ok o disk base experts shared sh i p :
  (0 <= i)%Z -> In p projections ->
  (exists r, copy_experts o (initialize_loaders disk base experts) experts shared (".mlp." ++ sh ++ ".")%string (plain_weight (dense_mlp i p)) = Ok r) <->
  (forall e, In e experts -> In (dense_mlp i p) (dkeys (disk (ex_model e)))) /\
  (forall s, shared = Some s -> In (ex_model s) (base :: map ex_model experts) /\ In (dense_mlp i p) (dkeys (disk (ex_model s)))).
Proof.
  intros Hi Hp. unfold copy_experts. cbn [plain_weight w wi_name]. fold (plain_weight (dense_mlp i p)).
  set (f := fun ke : Z * expert F => _).
  assert (Hf : (exists per, rmapM f (enumerate experts) = Ok per) <-> forall e, In e experts -> In (dense_mlp i p) (dkeys (disk (ex_model e)))).
  { rewrite rmapM_ok_iff. unfold f. split.
    - intros H e He. apply In_nth_error in He as (k & Hk). destruct (H (Z.of_nat k, e)) as (r & Hr); [apply enumerate_In; eauto|].
      cbn [fst snd] in Hr. rewrite copy_plain, loaders_get in Hr. destruct (mem _ _); [|discriminate].
      destruct (dget (disk (ex_model e)) (dense_mlp i p)) eqn:Et; [|discriminate]. apply dget_Some_key. eauto.
    - intros H [k e] Hin. apply enumerate_In in Hin as (j & -> & Hj). cbn [fst snd]. rewrite copy_plain, loaders_get.
      replace (mem (ex_model e) (base :: map ex_model experts)) with true
        by (symmetry; apply mem_In; right; apply in_map; eapply nth_error_In; eauto).
      destruct (proj1 (dget_Some_key _ _) (H e (nth_error_In _ _ Hj))) as (t & ->). eauto. }
  rewrite <- Hf. clear Hf. destruct (rmapM f (enumerate experts)) as [per|er]; cbn [rbind].
  - destruct shared as [s|]; cbn [rbind].
    + rewrite copy_plain, loaders_get. split.
      * intros (r & Hr). split; [eauto|]. intros s' [= <-]. destruct (mem (ex_model s) _) eqn:Em; [|discriminate]. apply mem_In in Em. split; auto.
        destruct (dget (disk (ex_model s)) (dense_mlp i p)) eqn:Et; [|discriminate]. apply dget_Some_key. eauto.
      * intros (_ & Hs). destruct (Hs s eq_refl) as [Hm Hk]. apply mem_In in Hm. rewrite Hm.
        apply dget_Some_key in Hk as (t & ->). cbn. eauto.
    + split; [|eauto]. intros _. split; [eauto|]. intros s [=].
  - split; [intros (? & ?); discriminate|]. intros ((? & ?) & _). discriminate.
Qed.

(** ** The whole model. [fb] is what the writer does with a tensor outside the MLP. *)
Lemma split_model o disk base experts shared sh sfx attn n (fb : weight_info -> result (list (string * T)))
    (routers : list (string * T)) out (extra : string -> T -> Prop) :
  sfx_ok sfx attn -> no_dot sh = true ->
  forallb (fun s => Nat.leb (List.length (split_on "."%char s)) 3) attn = true ->
  (forall x r, In x (dense_weights sfx n) -> infix ".mlp." (wi_name x) = false -> fb x = Ok r ->
     (forall nm t, In (nm, t) r <-> nm = wi_name x /\ ((exists t0, dget (disk base) nm = Some t0 /\ t = o_cast o t0) \/ extra nm t)) /\
     (r = [] \/ exists t, r = [(wi_name x, t)])) ->
  rmapM (fun x => if infix ".mlp." (wi_name x) then copy_experts o (initialize_loaders disk base experts) experts shared (".mlp." ++ sh ++ ".")%string x
                  else fb x) (dense_weights sfx n) = Ok out ->
  (forall nm t, extra nm t -> dense_name attn n nm) ->
  (forall nm t, In (nm, t) (concat out) <-> extra nm t \/ split_output o disk attn n base experts shared sh [] nm t) /\
  NoDup (map fst (concat out)) /\
  (forall nm, In nm (map fst (concat out)) -> In (origin nm) (map wi_name (dense_weights sfx n))).
Proof.
  intros Hk Hsh Hshort Hfb Hout Hextra.
  (* every weight is either a projection or kept *)
  assert (Hcase : forall x, In x (dense_weights sfx n) ->
    (infix ".mlp." (wi_name x) = true /\ exists i p, (0 <= i < n)%Z /\ In p projections /\ x = plain_weight (dense_mlp i p)) \/
    (infix ".mlp." (wi_name x) = false /\ dense_name attn n (wi_name x) /\ origin (wi_name x) = wi_name x)).
  { intros x Hx. apply (dense_weights_In _ _ _ _ Hk) in Hx as [->|[->|[->|(i & s & Hi & Hs & ->)]]].
    - right. repeat split; constructor.
    - right. repeat split; constructor.
    - right. repeat split; constructor.
    - cbn [plain_weight w wi_name]. rewrite infix_layer by lia. destruct (sk_split _ _ Hk s Hs) as [[E (p & Hp & ->)]|[E Ha]].
      + left. split; [exact E|]. exists i, p. auto.
      + right. split; [exact E|]. split; [now constructor|]. apply origin_short; [lia|]. rewrite forallb_forall in Hshort. now apply Hshort. }
  set (step := fun x : weight_info => _) in Hout.
  assert (Hstep : forall x r, In x (dense_weights sfx n) -> step x = Ok r ->
            NoDup (map fst r) /\ forall nm, In nm (map fst r) -> origin nm = wi_name x).
  { intros x r Hx Hr. unfold step in Hr. destruct (Hcase x Hx) as [(E & i & p & Hi & Hp & ->)|(E & Hd & Ho)]; rewrite E in Hr.
    - apply copy_experts_spec in Hr; auto; [|lia]. destruct Hr as (_ & Hnd & Hor). auto.
    - destruct (Hfb x r Hx E Hr) as [_ [->|(t & ->)]]; cbn; split; try (repeat constructor; auto); try tauto. intros nm [<-|[]]; auto. }
  split; [|split].
  - intros nm t. rewrite (rmapM_concat_In _ _ _ Hout). split.
    + intros (x & r & Hx & Hr & Hy). unfold step in Hr. destruct (Hcase x Hx) as [(E & i & p & Hi & Hp & ->)|(E & Hd & Ho)]; rewrite E in Hr.
      * apply copy_experts_spec in Hr as (Hin & _); auto; [|lia]. right. apply Hin in Hy as [(k & e & t0 & Hke & Et & -> & ->)|(s & t0 & Es & Et & -> & ->)].
        -- now apply so_expert.
        -- now apply so_shared.
      * destruct (Hfb x r Hx E Hr) as [Hin _]. apply Hin in Hy as [-> [(t0 & Et & ->)|He]]; auto. right. now apply so_base.
    + intros H.
      assert (Hkept : dense_name attn n nm -> ((exists t0, dget (disk base) nm = Some t0 /\ t = o_cast o t0) \/ extra nm t) ->
                      exists x r, In x (dense_weights sfx n) /\ step x = Ok r /\ In (nm, t) r).
      { intros Hd Ht. assert (Hx : exists x, In x (dense_weights sfx n) /\ wi_name x = nm /\ infix ".mlp." nm = false).
        { destruct Hd as [| | |i s Hi Hs].
          - exists embed_weight. split; [apply (dense_weights_In _ _ _ _ Hk); auto|]. split; reflexivity.
          - exists (plain_weight "model.norm.weight"). split; [apply (dense_weights_In _ _ _ _ Hk); auto|]. split; reflexivity.
          - exists head_weight. split; [apply (dense_weights_In _ _ _ _ Hk); auto|]. split; reflexivity.
          - destruct (sk_attn _ _ Hk s Hs) as [Hin Hf]. exists (plain_weight (layer_name i s)).
            split; [apply (dense_weights_In _ _ _ _ Hk); eauto 8|]. split; [reflexivity|]. rewrite infix_layer by lia. exact Hf. }
        destruct Hx as (x & Hx & Hn & Hf). destruct (proj1 (rmapM_ok_iff step _) (ex_intro _ _ Hout) x Hx) as (r & Hr).
        exists x, r. split; auto. split; auto. unfold step in Hr. rewrite Hn, Hf in Hr. destruct (Hfb x r Hx) as [Hin _]; [congruence|auto|].
        apply Hin. auto. }
      destruct H as [He|H]; [apply Hkept; eauto|].
      destruct H as [nm t Hd Et|i k e p t Hi Hke Hp Et|i s p t Hi Es Hp Et|j r Hr].
      * apply Hkept; eauto.
      * assert (Hx : In (plain_weight (dense_mlp i p)) (dense_weights sfx n)).
        { apply (dense_weights_In _ _ _ _ Hk). right; right; right. exists i, (mlp_suffix p). split; auto. split; [now apply (sk_mlp _ _ Hk)|reflexivity]. }
        destruct (proj1 (rmapM_ok_iff step _) (ex_intro _ _ Hout) _ Hx) as (r & Hr). exists (plain_weight (dense_mlp i p)), r. split; auto. split; auto.
        unfold step in Hr. cbn [plain_weight w wi_name] in Hr. rewrite mlp_dense in Hr by (auto; lia). fold (plain_weight (dense_mlp i p)) in Hr.
        apply copy_experts_spec in Hr as (Hin & _); auto; [|lia]. apply Hin. left. exists k, e, t. auto.
      * assert (Hx : In (plain_weight (dense_mlp i p)) (dense_weights sfx n)).
        { apply (dense_weights_In _ _ _ _ Hk). right; right; right. exists i, (mlp_suffix p). split; auto. split; [now apply (sk_mlp _ _ Hk)|reflexivity]. }
        destruct (proj1 (rmapM_ok_iff step _) (ex_intro _ _ Hout) _ Hx) as (r & Hr). exists (plain_weight (dense_mlp i p)), r. split; auto. split; auto.
        unfold step in Hr. cbn [plain_weight w wi_name] in Hr. rewrite mlp_dense in Hr by (auto; lia). fold (plain_weight (dense_mlp i p)) in Hr.
        apply copy_experts_spec in Hr as (Hin & _); auto; [|lia]. apply Hin. right. exists s, t. auto.
      * destruct j; discriminate.
  - apply (rmapM_concat_NoDup step wi_name origin _ _ Hout); auto. now apply dense_weights_NoDup with attn.
  - intros nm Hnm. apply in_map_iff in Hnm as ([nm' t] & <- & Hnm). apply (rmapM_concat_In _ _ _ Hout) in Hnm as (x & r & Hx & Hr & Hy).
    destruct (Hstep x r Hx Hr) as [_ Ho]. cbn [fst]. rewrite (Ho nm') by (apply in_map_iff; eexists; split; [|eassumption]; auto). now apply in_map.
Qed.

(** the names of routers are not among them *)
Lemma router_fresh sfx attn n i s : sfx_ok sfx attn -> (0 <= i)%Z -> mem s sfx = false ->
  ~ In (layer_name i s) (map wi_name (dense_weights sfx n)).
Proof.
  intros Hk Hi Hs Hin. apply in_map_iff in Hin as (x & Hx & Hin).
  apply (dense_weights_In _ _ _ _ Hk) in Hin as [->|[->|[->|(j & s' & Hj & Hs' & ->)]]]; cbn in Hx; symmetry in Hx;
    try (revert Hx; apply top_not_layer; cbn; tauto).
  apply layer_name_inj in Hx as [_ <-]; auto; [|lia]. apply mem_In in Hs'. congruence.
Qed.
End Split.
