(** C41, continued: the Qwen2 MoE writer and the rows of the routers. *)
From Verif.Base Require Import Py PyFacts PyStr.
From Verif.Arch Require Import Model Data ShippedProofs.
From Verif.Moe Require Import Model Spec NameProofs SplitProofs FusedProofs Props.
Local Open Scope string_scope.
Local Open Scope list_scope.

(** ** [endswith] on layer names *)
Lemma ends_with_app x a s : (String.length x <= String.length s)%nat -> ends_with x (a ++ s)%string = ends_with x s.
Proof.
  intros Hl. induction a as [|c a IH]; [reflexivity|]. cbn [append ends_with].
  destruct (String.eqb_spec x (String c (a ++ s))) as [->|_].
  - cbn [String.length] in Hl. rewrite len_app in Hl. lia.
  - exact IH.
Qed.
Lemma ends_with_layer x i s : (String.length x <= String.length s)%nat -> ends_with x (layer_name i s) = ends_with x s.
Proof.
  intros Hl. unfold layer_name. rewrite <- !app_str_assoc. apply ends_with_app; auto.
Qed.

Definition bias_name (i : Z) (x : string) : string := layer_name i ("self_attn." ++ x ++ ".bias").

(** the base model has every tensor outside the MLP, except perhaps lm_head and the attention biases *)
Definition qwen_base_complete {T} (disk : string -> tensors T) (n : Z) (base : string) : Prop :=
  forall nm, dense_name qwen2_attn n nm -> nm <> "lm_head.weight" ->
    (forall i x, (0 <= i < n)%Z -> In x ["q_proj"; "k_proj"; "v_proj"] -> nm <> bias_name i x) -> In nm (dkeys (disk base)).

Section Qwen.
Context {T F : Type}.
Variables (o : ops T F) (disk : string -> tensors T) (c : cfgval) (n : Z) (d : dims) (base : string) (experts : list (expert F)) (shared : expert F).
Hypothesis Hc : get_config_value c "num_hidden_layers" = Ok (CVInt n).
Hypothesis Hpos : (0 <= n)%Z.

Definition qwen_keep (x : weight_info) : result (list (string * T)) :=
  match dget (disk base) (wi_name x) with
  | Some t => Ok [(wi_name x, o_cast o t)]
  | None => if ends_with "_proj.bias" (wi_name x) then let! z := bias_zeros o d (wi_name x) in Ok [(wi_name x, o_cast o z)]
            else if wi_optional x then Ok [] else Err KeyError
  end.
Definition qwen_rows (routers shared_routers : list T) : result (list (list (string * T))) :=
  rmapM (fun iw => let! s := nthE shared_routers (Z.to_nat (fst iw)) in
                   Ok [(router_name (fst iw), o_cast o (snd iw)); (shared_gate_name (fst iw), o_cast o s)]) (enumerate routers).

Lemma qwen_unfold routers shared_routers :
  qwen_write o disk c d base experts shared routers shared_routers =
  let! out := rmapM (fun x => if infix ".mlp." (wi_name x)
                              then copy_experts o (initialize_loaders disk base experts) experts (Some shared) (".mlp." ++ "shared_expert" ++ ".")%string x
                              else qwen_keep x) (dense_weights qwen2_sfx n) in
  let! rs := qwen_rows routers shared_routers in
  Ok (concat out ++ concat rs).
Proof.
  unfold qwen_write. rewrite (dense_arch_weights _ _ _ _ qwen2_dense Hc). cbn [rbind]. rewrite base_loader.
  erewrite rmapM_ext; [reflexivity|]. intros x Hx. cbn beta. destruct (infix ".mlp." (wi_name x)); [reflexivity|].
  apply (dense_weights_In _ _ _ _ qwen2_ok) in Hx as [->|[->|[->|(i & s & Hi & Hs & ->)]]];
    unfold qwen_keep; cbn [embed_weight plain_weight head_weight w wi_name wi_aliases wi_optional wi_tied rbind use_loader get_any];
    destruct (dget (disk base) _); reflexivity.
Qed.

(** the kept tensors: which ones end in "_proj.bias" *)
Lemma bias_case x : In x (dense_weights qwen2_sfx n) -> infix ".mlp." (wi_name x) = false ->
  (exists i p, (0 <= i < n)%Z /\ In p ["q_proj"; "k_proj"; "v_proj"] /\ x = plain_weight (bias_name i p)) \/
  (ends_with "_proj.bias" (wi_name x) = false /\ forall i p, In p ["q_proj"; "k_proj"; "v_proj"] -> (0 <= i)%Z -> wi_name x <> bias_name i p).
Proof.
  intros Hx Hm. apply (dense_weights_In _ _ _ _ qwen2_ok) in Hx as [->|[->|[->|(i & s & Hi & Hs & ->)]]].
  - right. split; [reflexivity|]. intros i p _ _ H. symmetry in H. revert H. apply top_not_layer. cbn; auto.
  - right. split; [reflexivity|]. intros i p _ _ H. symmetry in H. revert H. apply top_not_layer. cbn; auto.
  - right. split; [reflexivity|]. intros i p _ _ H. symmetry in H. revert H. apply top_not_layer. cbn; auto.
  - cbn [plain_weight w wi_name] in Hm |- *. rewrite infix_layer in Hm by lia.
    assert (Hr : ends_with "_proj.bias" s = false ->
       (ends_with "_proj.bias" (layer_name i s) = false /\
        forall i0 p, In p ["q_proj"; "k_proj"; "v_proj"] -> (0 <= i0)%Z -> layer_name i s <> bias_name i0 p)).
    { intros He. split.
      - rewrite ends_with_layer; auto. unfold qwen2_sfx in Hs. cbn [In] in Hs.
        repeat (destruct Hs as [<-|Hs]; [cbn; lia|]). destruct Hs.
      - intros i0 p Hp H0 H. apply layer_name_inj in H as [_ ->]; try lia. destruct Hp as [<-|[<-|[<-|[]]]]; discriminate. }
    unfold qwen2_sfx in Hs. cbn [In] in Hs.
    repeat (destruct Hs as [<-|Hs]; [first [discriminate Hm | right; apply Hr; reflexivity | left; exists i; first
      [exists "k_proj"; split; [exact Hi|split; [cbn; tauto|reflexivity]] |
       exists "q_proj"; split; [exact Hi|split; [cbn; tauto|reflexivity]] |
       exists "v_proj"; split; [exact Hi|split; [cbn; tauto|reflexivity]]]]|]). destruct Hs.
Qed.

Lemma bias_ends i p : In p ["q_proj"; "k_proj"; "v_proj"] ->
  ends_with "_proj.bias" (bias_name i p) = true /\
  bias_zeros o d (bias_name i p) =
    if Z.eqb (num_heads d) 0 then Err ZeroDivisionError else
    Ok (o_zeros o ((if String.eqb p "q_proj" then num_heads d else num_kv_heads d) * (hidden_size d / num_heads d))%Z).
Proof.
  intros Hp. unfold bias_name, bias_zeros. destruct Hp as [<-|[<-|[<-|[]]]]; rewrite !ends_with_layer by (cbn; lia); split; reflexivity.
Qed.

Definition qwen_bias (nm : string) (t : T) : Prop :=
  exists i x, (0 <= i < n)%Z /\ In x ["q_proj"; "k_proj"; "v_proj"] /\ dget (disk base) (bias_name i x) = None /\ nm = bias_name i x /\
    t = o_cast o (o_zeros o ((if String.eqb x "q_proj" then num_heads d else num_kv_heads d) * (hidden_size d / num_heads d))%Z).

Lemma bias_name_inj i j x y : (0 <= i)%Z -> (0 <= j)%Z -> bias_name i x = bias_name j y -> i = j /\ x = y.
Proof.
  intros Hi Hj H. apply layer_name_inj in H as [-> H]; auto. split; auto.
  change ("self_attn." ++ x ++ ".bias")%string with ("self_attn." ++ (x ++ ".bias"))%string in H.
  apply app_str_inj_l in H. now apply app_str_inj_r in H.
Qed.

Lemma qwen_keep_spec x r : In x (dense_weights qwen2_sfx n) -> infix ".mlp." (wi_name x) = false -> qwen_keep x = Ok r ->
  (forall nm t, In (nm, t) r <-> nm = wi_name x /\ ((exists t0, dget (disk base) nm = Some t0 /\ t = o_cast o t0) \/ qwen_bias nm t)) /\
  (r = [] \/ exists t, r = [(wi_name x, t)]).
Proof.
  intros Hx Hm. unfold qwen_keep. destruct (dget (disk base) (wi_name x)) as [t0|] eqn:E.
  - intros [= <-]. split; [|eauto]. intros nm t. cbn [In]. split.
    + intros [[= <- <-]|[]]. split; auto. left. eauto.
    + intros (-> & [(t1 & Et & ->)|(i & y & Hi & Hy & En & Hn & ->)]); [left; congruence|]. congruence.
  - destruct (bias_case x Hx Hm) as [(i & p & Hi & Hp & ->)|[He Hne]].
    + cbn [plain_weight w wi_name] in E |- *. destruct (bias_ends i p Hp) as [-> ->]. destruct (Z.eqb (num_heads d) 0); cbn [rbind]; [discriminate|].
      intros [= <-]. split; [|eauto]. intros nm t. cbn [In]. split.
      * intros [[= <- <-]|[]]. split; auto. right. exists i, p. auto.
      * intros (-> & [(t1 & Et & ->)|(j & y & Hj & Hy & En & Hn & ->)]); [congruence|].
        apply bias_name_inj in Hn as [<- <-]; try lia. left. reflexivity.
    + rewrite He. destruct (wi_optional x); [|discriminate]. intros [= <-]. split; [|auto]. intros nm t. cbn [In]. split; [tauto|].
      intros (-> & [(t1 & Et & ->)|(j & y & Hj & Hy & En & Hn & ->)]); [congruence|]. exfalso. apply (Hne j y Hy); [lia|]. auto.
Qed.

Lemma qwen_rows_In routers shared_routers rs : qwen_rows routers shared_routers = Ok rs ->
  (forall nm t, In (nm, t) (concat rs) <->
    (exists j r, nth_error routers j = Some r /\ nm = layer_name (Z.of_nat j) "mlp.gate.weight" /\ t = o_cast o r) \/
    (exists j r, nth_error shared_routers j = Some r /\ (j < List.length routers)%nat /\
                 nm = layer_name (Z.of_nat j) "mlp.shared_expert_gate.weight" /\ t = o_cast o r)) /\
  NoDup (map fst (concat rs)).
Proof.
  intros H. unfold qwen_rows in H. split.
  - intros nm t. rewrite (rmapM_concat_In _ _ _ H). split.
    + intros ([k r] & rows & Hin & Hr & Hy). apply enumerate_In in Hin as (j & -> & Hj). cbn [fst snd] in Hr. rewrite Nat2Z.id in Hr.
      unfold nthE in Hr. destruct (nth_error shared_routers j) as [s|] eqn:Es; cbn [rbind] in Hr; [|discriminate]. injection Hr as <-.
      rewrite router_layer, shared_gate_layer in Hy. destruct Hy as [[= <- <-]|[[= <- <-]|[]]]; [left; eauto|].
      right. exists j, s. repeat split; auto. apply nth_error_Some. congruence.
    + intros [(j & r & Hj & -> & ->)|(j & s & Hs & Hj & -> & ->)].
      * destruct (proj1 (rmapM_ok_iff _ _) (ex_intro _ _ H) (Z.of_nat j, r)) as (rows & Hr); [apply enumerate_In; eauto|].
        exists (Z.of_nat j, r), rows. split; [apply enumerate_In; eauto|]. split; auto. cbn [fst snd] in Hr.
        destruct (nthE _ _); cbn [rbind] in Hr; [|discriminate]. injection Hr as <-. rewrite router_layer. now left.
      * destruct (nth_error routers j) as [r|] eqn:Er; [|apply nth_error_None in Er; lia].
        destruct (proj1 (rmapM_ok_iff _ _) (ex_intro _ _ H) (Z.of_nat j, r)) as (rows & Hr); [apply enumerate_In; eauto|].
        exists (Z.of_nat j, r), rows. split; [apply enumerate_In; eauto|]. split; auto. cbn [fst snd] in Hr. rewrite Nat2Z.id in Hr.
        unfold nthE in Hr. rewrite Hs in Hr. cbn [rbind] in Hr. injection Hr as <-. rewrite shared_gate_layer. right. now left.
  - apply (rmapM_concat_NoDup _ (fun iw => str_of_Z (fst iw)) (fun nm => match split_on "."%char nm with _ :: _ :: c :: _ => c | _ => nm end) _ _ H).
    + rewrite <- (map_map fst str_of_Z). apply FinFun.Injective_map_NoDup; [|apply enumerate_fst_NoDup]. intros x y. apply str_of_Z_inj.
    + intros [k r] rows Hin Hr. apply enumerate_In in Hin as (j & -> & Hj). cbn [fst snd] in Hr |- *.
      destruct (nthE _ _); cbn [rbind] in Hr; [|discriminate]. injection Hr as <-. rewrite router_layer, shared_gate_layer. cbn [map fst]. split.
      * constructor; [|repeat constructor; auto]. intros [E|[]]. apply layer_name_inj in E; [|lia..]. destruct E as [_ E]. discriminate.
      * intros nm [<-|[<-|[]]]; rewrite split_layer by lia; reflexivity.
Qed.
Lemma qwen_rows_ok routers shared_routers :
  (exists rs, qwen_rows routers shared_routers = Ok rs) <-> (List.length routers <= List.length shared_routers)%nat.
Proof.
  unfold qwen_rows. rewrite rmapM_ok_iff. split.
  - intros H. destruct (Nat.le_gt_cases (List.length routers) (List.length shared_routers)) as [|Hlt]; auto. exfalso.
    destruct (nth_error routers (List.length shared_routers)) as [r|] eqn:Er; [|apply nth_error_None in Er; lia].
    destruct (H (Z.of_nat (List.length shared_routers), r)) as (rows & Hr); [apply enumerate_In; eauto|]. cbn [fst] in Hr. rewrite Nat2Z.id in Hr.
    unfold nthE in Hr. rewrite (proj2 (nth_error_None shared_routers _)) in Hr by lia. discriminate.
  - intros Hl [k r] Hin. apply enumerate_In in Hin as (j & -> & Hj). cbn [fst]. rewrite Nat2Z.id. unfold nthE.
    assert (j < List.length routers)%nat by (apply nth_error_Some; congruence).
    destruct (nth_error shared_routers j) eqn:E; [cbn [rbind]; eauto|]. apply nth_error_None in E. lia.
Qed.

(** Qwen2 MoE output: as DeepSeek's, with one shared expert, zero biases where the base model has none, and a gate for
    the shared expert in every layer. *)
Theorem C41_qwen2 routers shared_routers saves :
  qwen_write o disk c d base experts shared routers shared_routers = Ok saves ->
  NoDup (map fst saves) /\
  forall nm t, In (nm, t) saves <->
    split_output o disk qwen2_attn n base experts (Some shared) "shared_expert" routers nm t \/
    qwen_extra o disk d n base routers shared_routers nm t.
Proof.
  rewrite qwen_unfold. destruct (rmapM _ (dense_weights _ _)) as [out|] eqn:Eo; cbn [rbind]; [|discriminate].
  destruct (qwen_rows routers shared_routers) as [rs|] eqn:Er; cbn [rbind]; [|discriminate]. intros [= <-].
  assert (Hex : forall nm t, qwen_bias nm t -> dense_name qwen2_attn n nm).
  { intros nm t (i & x & Hi & Hx & _ & -> & _). apply d_layer; auto. destruct Hx as [<-|[<-|[<-|[]]]]; cbn; tauto. }
  destruct (split_model o disk base experts (Some shared) "shared_expert" qwen2_sfx qwen2_attn n qwen_keep [] out qwen_bias
    qwen2_ok eq_refl eq_refl qwen_keep_spec Eo Hex) as (Hin & Hnd & Hor).
  destruct (qwen_rows_In _ _ _ Er) as [Hrow Hrnd]. split.
  - rewrite map_app. apply NoDup_app_intro; auto. intros nm H1 H2. apply Hor in H1.
    apply in_map_iff in H2 as ([nm2 t2] & E2 & H2). cbn [fst] in E2. subst nm2.
    apply Hrow in H2 as [(j & r & _ & -> & _)|(j & r & _ & _ & -> & _)];
      rewrite origin_short in H1 by (lia || reflexivity); revert H1; eapply router_fresh; [apply qwen2_ok|lia|reflexivity..|apply qwen2_ok|lia|reflexivity].
  - intros nm t. rewrite in_app_iff, Hrow.
    pose proof (split_with_routers o disk n base experts (Some shared) "shared_expert" qwen2_attn qwen_bias out routers nm t Hin) as Hs.
    split.
    + intros [H|[H|(j & r & Hr & Hj & -> & ->)]].
      * destruct (proj1 Hs (or_introl H)) as [(i & x & Hi & Hx & En & -> & ->)|H']; [right; now apply qe_bias|now left].
      * destruct (proj1 Hs (or_intror H)) as [(i & x & Hi & Hx & En & -> & ->)|H']; [right; now apply qe_bias|now left].
      * right. now apply qe_gate.
    + intros [H|H].
      * destruct (proj2 Hs (or_intror H)); auto.
      * destruct H as [i x Hi Hx En|j r Hr Hj].
        -- left. apply Hin. left. exists i, x. auto.
        -- right; right. exists j, r. auto.
Qed.

Lemma qwen_keep_ok :
  (exists out, rmapM (fun x => if infix ".mlp." (wi_name x) then Ok [] else qwen_keep x) (dense_weights qwen2_sfx n) = Ok out) <->
  qwen_base_complete disk n base /\
  (forall i x, (0 <= i < n)%Z -> In x ["q_proj"; "k_proj"; "v_proj"] -> dget (disk base) (bias_name i x) = None -> num_heads d <> 0%Z).
Proof.
  rewrite rmapM_ok_iff. split.
  - intros H. split.
    + intros nm Hd Hne Hnb.
      assert (Hx : exists x, In x (dense_weights qwen2_sfx n) /\ wi_name x = nm /\ infix ".mlp." nm = false /\ wi_optional x = false).
      { destruct Hd as [| | |i s Hi Hs].
        - exists embed_weight. split; [apply (dense_weights_In _ _ _ _ qwen2_ok); auto|]. repeat split; reflexivity.
        - exists (plain_weight "model.norm.weight"). split; [apply (dense_weights_In _ _ _ _ qwen2_ok); auto|]. repeat split; reflexivity.
        - contradiction.
        - destruct (sk_attn _ _ qwen2_ok s Hs) as [Hin Hf]. exists (plain_weight (layer_name i s)).
          split; [apply (dense_weights_In _ _ _ _ qwen2_ok); eauto 8|]. split; [reflexivity|]. rewrite infix_layer by lia. auto. }
      destruct Hx as (x & Hx & Hn & Hf & Ho). destruct (H x Hx) as (r & Hr). rewrite Hn, Hf in Hr.
      apply dget_Some_key. unfold qwen_keep in Hr. rewrite Hn in Hr. destruct (dget (disk base) nm); [eauto|].
      destruct (bias_case x Hx) as [(i & p & Hi & Hp & ->)|[He _]]; [congruence|exfalso; apply (Hnb i p Hi Hp); symmetry; exact Hn|].
      rewrite Hn in He. rewrite He, Ho in Hr. discriminate.
    + intros i x Hi Hx En E0. destruct (H (plain_weight (bias_name i x))) as (r & Hr).
      { apply (dense_weights_In _ _ _ _ qwen2_ok). right; right; right. exists i, ("self_attn." ++ x ++ ".bias")%string. split; auto. split; [|reflexivity].
        destruct Hx as [<-|[<-|[<-|[]]]]; cbn; tauto. }
      cbn [plain_weight w wi_name] in Hr. assert (Hf : infix ".mlp." (bias_name i x) = false).
      { unfold bias_name. rewrite infix_layer by lia. destruct Hx as [<-|[<-|[<-|[]]]]; reflexivity. }
      rewrite Hf in Hr. unfold qwen_keep in Hr. cbn [plain_weight w wi_name] in Hr. rewrite En in Hr.
      destruct (bias_ends i x Hx) as [E1 E2]. rewrite E1, E2, E0 in Hr. discriminate.
  - intros [Hb Hz] x Hx. destruct (infix ".mlp." (wi_name x)) eqn:Ef; [eauto|]. unfold qwen_keep.
    destruct (dget (disk base) (wi_name x)) eqn:E; [eauto|]. destruct (bias_case x Hx Ef) as [(i & p & Hi & Hp & ->)|[He Hne]].
    + cbn [plain_weight w wi_name] in E |- *. destruct (bias_ends i p Hp) as [-> ->]. rewrite (proj2 (Z.eqb_neq _ _) (Hz i p Hi Hp E)). cbn [rbind]. eauto.
    + rewrite He. destruct (wi_optional x) eqn:Eo; [eauto|]. exfalso. apply dget_None in E. apply E. apply Hb.
      * apply (dense_weights_In _ _ _ _ qwen2_ok) in Hx as [->|[->|[->|(i & s & Hi & Hs & ->)]]]; [constructor 1|constructor 2|constructor 3|]. constructor 4; auto.
        cbn [plain_weight w wi_name] in Ef. rewrite infix_layer in Ef by lia. destruct (sk_split _ _ qwen2_ok s Hs) as [[E' _]|[_ Ha]]; [congruence|auto].
      * intros Hh. apply (dense_weights_In _ _ _ _ qwen2_ok) in Hx as [->|[->|[->|(i & s & Hi & Hs & ->)]]]; discriminate.
      * intros i p Hi Hp. exact (Hne i p Hp (proj1 Hi)).
Qed.

(** It is produced exactly when nothing needed is missing; the shared expert's model must again be the base model or
    an expert's. *)
Theorem C41_qwen2_succeeds_partial routers shared_routers :
  (exists saves, qwen_write o disk c d base experts shared routers shared_routers = Ok saves) <->
  (qwen_base_complete disk n base /\
   (forall i x, (0 <= i < n)%Z -> In x ["q_proj"; "k_proj"; "v_proj"] -> dget (disk base) (bias_name i x) = None -> num_heads d <> 0%Z)) /\
  (forall e, In e experts -> mlp_complete disk n (ex_model e)) /\
  (n = 0%Z \/ In (ex_model shared) (base :: map ex_model experts)) /\ mlp_complete disk n (ex_model shared) /\
  (List.length routers <= List.length shared_routers)%nat.
Proof.
  rewrite qwen_unfold.
  pose proof (split_ok o disk n base experts Hpos qwen2_sfx qwen2_attn (Some shared) "shared_expert" qwen_keep _ qwen2_ok qwen_keep_ok) as H.
  pose proof (qwen_rows_ok routers shared_routers) as Hr.
  destruct (rmapM _ (dense_weights _ _)) as [out|]; cbn [rbind].
  - destruct (proj1 H) as (H1 & H2 & H3); [eauto|]. destruct (H3 shared eq_refl) as [H4 H5].
    destruct (qwen_rows routers shared_routers) as [rs|]; cbn [rbind].
    + split; [|eauto]. intros _. repeat split; auto; try apply H1; auto. apply Hr. eauto.
    + split; [intros (? & ?); discriminate|]. intros (_ & _ & _ & _ & Hl). apply Hr in Hl as (? & ?). discriminate.
  - split; [intros (? & ?); discriminate|]. intros (H1 & H2 & H4 & H5 & _). destruct (proj2 H) as (? & ?); [|discriminate].
    split; auto. split; auto. intros s [= <-]. auto.
Qed.
End Qwen.

(** ** The rows of the routers *)
Lemma Forall2_len {A B} (R : A -> B -> Prop) l l' : Forall2 R l l' -> List.length l = List.length l'.
Proof. induction 1; cbn; auto. Qed.
Lemma Forall2_nth_l {A B} (R : A -> B -> Prop) l l' k x : Forall2 R l l' -> nth_error l k = Some x ->
  exists y, nth_error l' k = Some y /\ R x y.
Proof.
  intros H. revert k. induction H as [|a b l l' Hab H IH]; intros [|k]; cbn; try discriminate; auto. intros [= <-]. eauto.
Qed.
Lemma nth_error_firstn_lt {A} (l : list A) m k : (k < m)%nat -> nth_error (firstn m l) k = nth_error l k.
Proof. revert m k. induction l as [|x l IH]; intros [|m] [|k] H; cbn; auto; try lia. apply IH. lia. Qed.
Lemma nth_error_skipn {A} (l : list A) m k : nth_error (skipn m l) k = nth_error l (m + k).
Proof. revert m. induction l as [|x l IH]; intros [|m]; cbn; auto. now destruct k. Qed.

(** [need_gates]: the experts first and in order, then all the shared experts or none of them *)
Lemma need_gates_cases {F} (experts shared : list (expert F)) mode l : need_gates experts shared mode = Ok l ->
  l = experts ++ shared \/ l = experts.
Proof.
  unfold need_gates. destruct shared as [|s shared]; [intros [= <-]; auto|].
  destruct (negb _); [discriminate|]. destruct (_ || _); intros [= <-]; auto.
Qed.

(** Row [k] of layer [i]'s router is expert [k]'s gate vector for layer [i], whatever shared experts there are, and the
    shared gate holds the shared experts' own vectors. *)
Theorem C41_gates {F V} (vec : expert F -> list V) layers (experts shared : list (expert F)) mode l gates :
  need_gates experts shared mode = Ok l -> gate_params vec layers l = Ok gates ->
  List.length gates = layers /\
  forall i g, nth_error gates i = Some g ->
    List.length (fst (split_gates experts g)) = List.length experts /\
    (forall k e, nth_error experts k = Some e ->
       exists v, nth_error (vec e) i = Some v /\ nth_error (fst (split_gates experts g)) k = Some v) /\
    (snd (split_gates experts g) = [] /\ l = experts \/
     List.length (snd (split_gates experts g)) = List.length shared /\
     forall k e, nth_error shared k = Some e ->
       exists v, nth_error (vec e) i = Some v /\ nth_error (snd (split_gates experts g)) k = Some v).
Proof.
  intros Hl Hg. unfold gate_params in Hg. apply rmapM_Ok_Forall2 in Hg.
  assert (Hlen : List.length gates = layers) by (rewrite <- (Forall2_len _ _ _ Hg); apply seq_length).
  split; auto. intros i g Hi.
  assert (Hrow : Forall2 (fun e v => nthE (vec e) i = Ok v) l g).
  { assert (Hil : (i < layers)%nat) by (rewrite <- Hlen; apply nth_error_Some; congruence).
    assert (Hs : nth_error (seq 0 layers) i = Some i) by (rewrite nth_error_nth' with (d := 0%nat) by (rewrite seq_length; auto); now rewrite seq_nth by auto).
    destruct (Forall2_nth_l _ _ _ _ _ Hg Hs) as (g' & Hg' & Hr). rewrite Hi in Hg'. injection Hg' as <-. now apply rmapM_Ok_Forall2 in Hr. }
  assert (Hn : forall k e, nth_error l k = Some e -> exists v, nth_error (vec e) i = Some v /\ nth_error g k = Some v).
  { intros k e Hk. destruct (Forall2_nth_l _ _ _ _ _ Hrow Hk) as (v & Hv & Hr). exists v. split; auto. unfold nthE in Hr.
    destruct (nth_error (vec e) i); congruence. }
  pose proof (Forall2_len _ _ _ Hrow) as Hgl.
  assert (Hpre : exists tail, l = experts ++ tail) by (destruct (need_gates_cases _ _ _ _ Hl) as [-> | ->]; [eauto|exists []; now rewrite app_nil_r]).
  destruct Hpre as (tail & Et). unfold split_gates. cbn [fst snd].
  assert (Hge : (List.length experts <= List.length g)%nat) by (rewrite <- Hgl, Et, app_length; lia).
  split; [rewrite firstn_length; lia|]. split.
  - intros k e Hk. assert (Hkl : (k < List.length experts)%nat) by (apply nth_error_Some; congruence).
    destruct (Hn k e) as (v & Hv & Hgk); [rewrite Et, nth_error_app1 by auto; auto|]. exists v. split; auto.
    rewrite <- Hgk. now rewrite nth_error_firstn_lt by auto.
  - destruct (need_gates_cases _ _ _ _ Hl) as [E|E].
    + right. split; [rewrite skipn_length, <- Hgl, E, app_length; lia|]. intros k e Hk.
      destruct (Hn (List.length experts + k)%nat e) as (v & Hv & Hgk).
      { rewrite E, nth_error_app2 by lia. now replace (List.length experts + k - List.length experts)%nat with k by lia. }
      exists v. split; auto. now rewrite nth_error_skipn.
    + left. split; auto. apply skipn_all2. rewrite <- Hgl, E. auto.
Qed.
Print Assumptions C41_qwen2.
Print Assumptions C41_qwen2_succeeds_partial.
Print Assumptions C41_gates.
