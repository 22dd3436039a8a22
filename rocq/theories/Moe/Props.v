(** C41: the mixture-of-experts writers.

    Every theorem is about the list of [save_tensor] calls of a writer, for any number of layers and experts, any
    tensors and any noise. "Exactly" means: no name is written twice, and a (name, tensor) pair is written iff the
    specification says so. *)
From Verif.Base Require Import Py PyFacts PyStr.
From Verif.Arch Require Import Model Data ShippedProofs.
From Verif.Moe Require Import Model Spec NameProofs SplitProofs FusedProofs.
Local Open Scope string_scope.
Local Open Scope list_scope.

Section Common.
Context {T F : Type}.
Implicit Types (o : ops T F) (disk : string -> tensors T).

Definition base_copy o disk (base : string) (x : weight_info) : result (list (string * T)) :=
  match dget (disk base) (wi_name x) with
  | Some t => Ok [(wi_name x, o_cast o t)]
  | None => if wi_optional x then Ok [] else Err KeyError
  end.

Lemma base_loader disk base (experts : list (expert F)) : dget (initialize_loaders disk base experts) base = Some (disk base).
Proof. rewrite loaders_get. cbn [mem]. now rewrite eqb_refl. Qed.

Lemma copy_base o disk base sfx attn n x : sfx_ok sfx attn -> In x (dense_weights sfx n) ->
  copy_tensor_out o x (Some (disk base)) None false (wi_name x) = base_copy o disk base x.
Proof.
  intros Hk Hx. apply (dense_weights_In _ _ _ _ Hk) in Hx as [->|[->|[->|(i & s & Hi & Hs & ->)]]];
    unfold copy_tensor_out, base_copy, copy_aliases; cbn [embed_weight plain_weight head_weight w wi_name wi_aliases wi_optional wi_tied rbind use_loader get_any];
    destruct (dget (disk base) _); reflexivity.
Qed.
Lemma loader_base o disk base sfx attn n x : sfx_ok sfx attn -> In x (dense_weights sfx n) ->
  match use_loader (Some (disk base)) (wi_name x :: match wi_aliases x with Some l => l | None => [] end) with
  | Ok t => Ok [(wi_name x, o_cast o t)]
  | Err KeyError => if wi_optional x then Ok [] else Err KeyError
  | Err e => Err e
  end = base_copy o disk base x.
Proof.
  intros Hk Hx. apply (dense_weights_In _ _ _ _ Hk) in Hx as [->|[->|[->|(i & s & Hi & Hs & ->)]]];
    unfold base_copy; cbn [embed_weight plain_weight head_weight w wi_name wi_aliases wi_optional wi_tied rbind use_loader get_any];
    destruct (dget (disk base) _); reflexivity.
Qed.

Lemma base_copy_spec o disk base x r : base_copy o disk base x = Ok r ->
  (forall nm t, In (nm, t) r <-> nm = wi_name x /\ ((exists t0, dget (disk base) nm = Some t0 /\ t = o_cast o t0) \/ False)) /\
  (r = [] \/ exists t, r = [(wi_name x, t)]).
Proof.
  unfold base_copy. destruct (dget (disk base) (wi_name x)) as [t0|] eqn:E.
  - intros [= <-]. split; [|eauto]. intros nm t. cbn [In]. split.
    + intros [[= <- <-]|[]]. split; auto. left. eauto.
    + intros (-> & [(t1 & Et & ->)|[]]). left. congruence.
  - destruct (wi_optional x); [|discriminate]. intros [= <-]. split; [|auto]. intros nm t. cbn [In]. split; [tauto|].
    intros (-> & [(t1 & Et & ->)|[]]). congruence.
Qed.

(** writing the kept tensors succeeds iff the base model has them all, lm_head excepted *)
Lemma kept_ok o disk base sfx attn n : sfx_ok sfx attn ->
  (exists out, rmapM (fun x => if infix ".mlp." (wi_name x) then Ok [] else base_copy o disk base x) (dense_weights sfx n) = Ok out) <->
  base_complete disk attn n base.
Proof.
  intros Hk. rewrite rmapM_ok_iff. split.
  - intros H nm Hd Hne. assert (Hx : exists x, In x (dense_weights sfx n) /\ wi_name x = nm /\ infix ".mlp." nm = false /\ wi_optional x = false).
    { destruct Hd as [| | |i s Hi Hs].
      - exists embed_weight. split; [apply (dense_weights_In _ _ _ _ Hk); auto|]. repeat split; reflexivity.
      - exists (plain_weight "model.norm.weight"). split; [apply (dense_weights_In _ _ _ _ Hk); auto|]. repeat split; reflexivity.
      - contradiction.
      - destruct (sk_attn _ _ Hk s Hs) as [Hin Hf]. exists (plain_weight (layer_name i s)).
        split; [apply (dense_weights_In _ _ _ _ Hk); eauto 8|]. split; [reflexivity|]. rewrite infix_layer by lia. auto. }
    destruct Hx as (x & Hx & Hn & Hf & Ho). destruct (H x Hx) as (r & Hr). rewrite Hn, Hf in Hr. unfold base_copy in Hr. rewrite Ho, Hn in Hr.
    apply dget_Some_key. destruct (dget (disk base) nm); [eauto|discriminate].
  - intros H x Hx. assert (Hd : infix ".mlp." (wi_name x) = true \/ (wi_optional x = true) \/ In (wi_name x) (dkeys (disk base))).
    { apply (dense_weights_In _ _ _ _ Hk) in Hx as [->|[->|[->|(i & s & Hi & Hs & ->)]]].
      - right; right. apply H; [constructor|discriminate].
      - right; right. apply H; [constructor|discriminate].
      - auto.
      - cbn [plain_weight w wi_name]. rewrite infix_layer by lia. destruct (sk_split _ _ Hk s Hs) as [[E _]|[E Ha]]; [auto|].
        right; right. apply H; [now constructor|]. apply top_not_layer. cbn; auto. }
    destruct (infix ".mlp." (wi_name x)); [eauto|]. unfold base_copy. destruct Hd as [[=]|[Ho|Hin]].
    + rewrite Ho. destruct (dget (disk base) (wi_name x)); eauto.
    + apply dget_Some_key in Hin as (t & ->). eauto.
Qed.

Lemma routers_In o (name : Z -> string) (ws : list T) nm t :
  In (nm, t) (save_routers o name ws) <-> exists j r, nth_error ws j = Some r /\ nm = name (Z.of_nat j) /\ t = o_cast o r.
Proof.
  unfold save_routers. rewrite in_map_iff. split.
  - intros ([k r] & [= <- <-] & Hin). apply enumerate_In in Hin as (j & -> & Hj). cbn. eauto.
  - intros (j & r & Hj & -> & ->). exists (Z.of_nat j, r). split; [reflexivity|]. apply enumerate_In. eauto.
Qed.
Lemma routers_NoDup o s (ws : list T) : NoDup (map fst (save_routers o (fun i => layer_name i s) ws)).
Proof.
  unfold save_routers. rewrite map_map. cbn [fst]. rewrite <- (map_map fst (fun i => layer_name i s)).
  rewrite enumerate_fst, map_map. apply FinFun.Injective_map_NoDup; [|apply seq_NoDup]. intros x y H. apply layer_name_inj in H; lia.
Qed.
Lemma save_routers_ext o f g (ws : list T) : (forall i, f i = g i) -> save_routers o f ws = save_routers o g ws.
Proof. intros H. unfold save_routers. apply map_ext. intros [k r]. now rewrite H. Qed.

(** ** The fused writers, for any list of per-layer names *)
Lemma fused_model o disk base (experts : list (expert F)) sfx attn n qg qu qd params kept fused routers :
  sfx_ok sfx attn -> forallb (fun s => Nat.leb (List.length (split_on "."%char s)) 3) attn = true ->
  layer_params qg qu qd params -> names_ok qg qu qd -> mem "mlp.gate.weight" sfx = false ->
  rmapM (fun x => if infix ".mlp." (wi_name x) then Ok [] else base_copy o disk base x) (dense_weights sfx n) = Ok kept ->
  rmapM (write_layer o [expert_converter o [qg; qu] "gate_up_proj"; expert_converter o [qd] "down_proj"]
           (initialize_loaders disk base experts) params experts) (layer_range n) = Ok fused ->
  let saves := concat kept ++ concat fused ++ save_routers o router_name routers in
  let q p := if String.eqb p "gate_proj" then qg else if String.eqb p "up_proj" then qu else qd in
  NoDup (map fst saves) /\
  forall nm t, In (nm, t) saves <-> fused_output o disk attn q n base experts routers nm t.
Proof.
  intros Hk Hshort Hp Hn Hgate Hkept Hfused saves q.
  assert (Hk' : rmapM (fun x => if infix ".mlp." (wi_name x) then copy_experts o (initialize_loaders disk base (@nil (expert F))) [] None (".mlp." ++ "x" ++ ".")%string x
                                else base_copy o disk base x) (dense_weights sfx n) = Ok kept).
  { rewrite <- Hkept. apply rmapM_ext. intros x _. destruct (infix ".mlp." (wi_name x)); reflexivity. }
  destruct (split_model o disk base [] None "x" sfx attn n (base_copy o disk base) [] kept (fun _ _ => False) Hk eq_refl Hshort
    ltac:(intros x r _ _ Hr; exact (base_copy_spec o disk base x r Hr)) Hk' ltac:(intros ? ? [])) as (Hin & Hnd & Hor). clear Hk'.
  assert (Hbase : forall nm t, In (nm, t) (concat kept) <-> dense_name attn n nm /\ exists t0, dget (disk base) nm = Some t0 /\ t = o_cast o t0).
  { intros nm t. rewrite Hin. split.
    - intros [[]|H]. destruct H as [nm t Hd Et|i k e p t _ Hke _ _|i s p t _ Es _ _|j r Hr]; try discriminate; try (destruct k; discriminate); try (destruct j; discriminate); eauto.
    - intros (Hd & t0 & Et & ->). right. now constructor. }
  assert (Hlayer : forall nm t, In (nm, t) (concat fused) <->
     exists i, (0 <= i < n)%Z /\
     ((exists gs us, experts_in_order o disk experts i "gate_proj" qg gs /\ experts_in_order o disk experts i "up_proj" qu us /\
         nm = layer_name i "mlp.experts.gate_up_proj" /\ t = o_cast o (o_concat o [o_stack o gs; o_stack o us])) \/
      (exists ds, experts_in_order o disk experts i "down_proj" qd ds /\
         nm = layer_name i "mlp.experts.down_proj" /\ t = o_cast o (o_stack o ds)))).
  { intros nm t. rewrite (rmapM_concat_In _ _ _ Hfused). split.
    - intros (i & r & Hi & Hr & Hy). apply layer_range_In in Hi. exists i. split; auto.
      apply write_layer_spec in Hr as (gs & us & ds & Hg & Hu & Hd & ->); auto; [|lia].
      destruct Hy as [[= <- <-]|[[= <- <-]|[]]]; [left|right]; eauto 8.
    - intros (i & Hi & H). destruct (proj1 (rmapM_ok_iff _ _) (ex_intro _ _ Hfused) i) as (r & Hr); [now apply layer_range_In|].
      exists i, r. split; [now apply layer_range_In|]. split; auto. apply write_layer_spec in Hr as (gs & us & ds & Hg & Hu & Hd & ->); auto; [|lia].
      destruct H as [(gs' & us' & Hg' & Hu' & -> & ->)|(ds' & Hd' & -> & ->)].
      + rewrite (in_order_inj _ _ _ _ _ _ _ _ Hg' Hg), (in_order_inj _ _ _ _ _ _ _ _ Hu' Hu). now left.
      + rewrite (in_order_inj _ _ _ _ _ _ _ _ Hd' Hd). right. now left. }
  assert (Hrt : save_routers o router_name routers = save_routers o (fun i => layer_name i "mlp.gate.weight") routers).
  { apply save_routers_ext. apply router_layer. }
  assert (Hmlp : forall nm, dense_name attn n nm -> infix ".mlp." nm = false).
  { intros nm [| | |i s Hi Hs]; try reflexivity. rewrite infix_layer by lia. now apply (sk_attn _ _ Hk). }
  assert (Hmlp' : forall i x, (0 <= i)%Z -> infix ".mlp." (layer_name i ("mlp." ++ x)%string) = true).
  { intros i x Hi. rewrite infix_layer by auto. destruct x; reflexivity. }
  split.
  - unfold saves. rewrite !map_app. apply NoDup_app_intro; auto.
    + apply NoDup_app_intro.
      * apply (rmapM_concat_NoDup _ str_of_Z (fun nm => match split_on "."%char nm with _ :: _ :: c :: _ => c | _ => nm end) _ _ Hfused).
        -- apply FinFun.Injective_map_NoDup; [|apply layer_range_NoDup]. intros x y. apply str_of_Z_inj.
        -- intros i r Hi Hr. apply layer_range_In in Hi. apply write_layer_spec in Hr as (gs & us & ds & _ & _ & _ & ->); auto; [|lia].
           cbn [map fst]. split.
           ++ constructor; [|repeat constructor; auto]. intros [H|[]]. apply layer_name_inj in H; [|lia..]. destruct H as [_ H]. discriminate.
           ++ intros nm [<-|[<-|[]]]; unfold target; rewrite split_layer by lia; reflexivity.
      * rewrite Hrt. apply routers_NoDup.
      * intros nm H1 H2. apply in_map_iff in H1 as ([nm1 t1] & E1 & H1). apply in_map_iff in H2 as ([nm2 t2] & E2 & H2). cbn [fst] in E1, E2. subst nm1 nm2.
        apply Hlayer in H1 as (i & Hi & H1). rewrite Hrt in H2. apply routers_In in H2 as (j & r & _ & -> & _).
        destruct H1 as [(? & ? & _ & _ & H & _)|(? & _ & H & _)]; apply layer_name_inj in H; try lia; destruct H as [_ H]; discriminate.
    + intros nm H1 H2. apply in_map_iff in H1 as ([nm1 t1] & E1 & H1). cbn [fst] in E1. subst nm1. apply Hbase in H1 as (Hd & _).
      apply Hmlp in Hd. apply in_app_iff in H2 as [H2|H2]; apply in_map_iff in H2 as ([nm2 t2] & E2 & H2); cbn [fst] in E2; subst nm2.
      * apply Hlayer in H2 as (i & Hi & [(? & ? & _ & _ & -> & _)|(? & _ & -> & _)]).
        -- exact (eq_true_false_abs _ (Hmlp' i "experts.gate_up_proj" (proj1 Hi)) Hd).
        -- exact (eq_true_false_abs _ (Hmlp' i "experts.down_proj" (proj1 Hi)) Hd).
      * rewrite Hrt in H2. apply routers_In in H2 as (j & r & _ & -> & _).
        exact (eq_true_false_abs _ (Hmlp' (Z.of_nat j) "gate.weight" (Nat2Z.is_nonneg j)) Hd).
  - intros nm t. unfold saves. rewrite !in_app_iff, Hbase, Hlayer, Hrt, routers_In. split.
    + intros [(Hd & t0 & Et & ->)|[(i & Hi & [(gs & us & Hg & Hu & -> & ->)|(ds & Hd & -> & ->)])|(j & r & Hj & -> & ->)]].
      * now apply fo_base.
      * now apply fo_gate_up.
      * now apply fo_down.
      * now apply fo_router.
    + intros [nm' t' Hd Et|i gs us Hi Hg Hu|i ds Hi Hd|j r Hj].
      * left. eauto.
      * right; left. exists i. split; auto. left. exists gs, us. auto.
      * right; left. exists i. split; auto. right. exists ds. auto.
      * right; right. exists j, r. auto.
Qed.
End Common.

(** the name a projection has in Mixtral's checkpoint layout *)
Definition mixtral_name (p : string) : string :=
  if String.eqb p "gate_proj" then "w1" else if String.eqb p "up_proj" then "w3" else "w2".

Lemma mixtral_names : names_ok "w1" "w3" "w2".
Proof. constructor; reflexivity || discriminate. Qed.
Lemma qwen3_names : names_ok "gate_proj" "up_proj" "down_proj".
Proof. constructor; reflexivity || discriminate. Qed.

Section Theorems.
Context {T F : Type}.
Variables (o : ops T F) (disk : string -> tensors T) (c : cfgval) (n : Z) (base : string) (experts : list (expert F)).
Hypothesis Hc : get_config_value c "num_hidden_layers" = Ok (CVInt n).
Hypothesis Hpos : (0 <= n)%Z.

Lemma mixtral_unfold (routers : list T) :
  mixtral_write o disk c base experts routers =
  if negb (Z.eqb (Z.of_nat (List.length routers)) n) then Err AssertionError else
  let! kept := rmapM (fun x => if infix ".mlp." (wi_name x) then Ok [] else base_copy o disk base x) (dense_weights mistral_sfx n) in
  let! fused := rmapM (write_layer o (mixtral_registry o) (initialize_loaders disk base experts) mixtral_params experts) (layer_range n) in
  Ok (concat kept ++ concat fused ++ save_routers o router_name routers).
Proof.
  unfold mixtral_write. rewrite (dense_arch_num _ _ _ _ mistral_dense Hc). cbn [rbind].
  destruct (negb _); [reflexivity|]. rewrite (dense_arch_weights _ _ _ _ mistral_dense Hc). cbn [rbind]. rewrite base_loader.
  rewrite (rmapM_ext _ (fun x => if infix ".mlp." (wi_name x) then Ok [] else base_copy o disk base x)); [reflexivity|].
  intros x Hx. destruct (infix ".mlp." (wi_name x)); [reflexivity|]. eapply copy_base; eauto using mistral_ok.
Qed.
Lemma qwen3_unfold (routers : list T) :
  qwen3_write o disk c base experts routers =
  let! kept := rmapM (fun x => if infix ".mlp." (wi_name x) then Ok [] else base_copy o disk base x) (dense_weights qwen3_sfx n) in
  let! fused := rmapM (write_layer o (qwen3_registry o) (initialize_loaders disk base experts) qwen3_params experts) (layer_range n) in
  Ok (concat kept ++ concat fused ++ save_routers o router_name routers).
Proof.
  unfold qwen3_write. rewrite (dense_arch_num _ _ _ _ qwen3_dense Hc). cbn [rbind].
  rewrite (dense_arch_weights _ _ _ _ qwen3_dense Hc). cbn [rbind]. rewrite base_loader.
  rewrite (rmapM_ext _ (fun x => if infix ".mlp." (wi_name x) then Ok [] else base_copy o disk base x)); [reflexivity|].
  intros x Hx. destruct (infix ".mlp." (wi_name x)); [reflexivity|]. eapply loader_base; eauto using qwen3_ok.
Qed.

(** Mixtral output: everything outside the MLP is the base model's tensor, the fused MLP tensors of a layer are the
    experts' own (adjusted) projections stacked in expert order, and there is one router per layer. *)
Theorem C41_mixtral (routers : list T) saves :
  mixtral_write o disk c base experts routers = Ok saves ->
  NoDup (map fst saves) /\
  forall nm t, In (nm, t) saves <-> fused_output o disk mistral_attn mixtral_name n base experts routers nm t.
Proof.
  rewrite mixtral_unfold. destruct (negb _); [discriminate|].
  destruct (rmapM _ (dense_weights _ _)) as [kept|] eqn:Ek; cbn [rbind]; [|discriminate].
  destruct (rmapM _ (layer_range n)) as [fused|] eqn:Ef; cbn [rbind]; [|discriminate]. intros [= <-].
  exact (fused_model o disk base experts mistral_sfx mistral_attn n "w1" "w3" "w2" mixtral_params kept fused routers
           mistral_ok eq_refl (or_introl eq_refl) mixtral_names eq_refl Ek Ef).
Qed.

Lemma layers_ok qg qu qd params : layer_params qg qu qd params -> names_ok qg qu qd ->
  (exists out, rmapM (write_layer o [expert_converter o [qg; qu] "gate_up_proj"; expert_converter o [qd] "down_proj"]
           (initialize_loaders disk base experts) params experts) (layer_range n) = Ok out) <->
  (n = 0%Z \/ experts <> []) /\ forall e, In e experts -> mlp_complete disk n (ex_model e).
Proof.
  intros Hp Hn. rewrite rmapM_ok_iff. split.
  - intros H. split.
    + destruct (Z.eq_dec n 0) as [|Hne]; [auto|]. right. destruct (H 0%Z) as (r & Hr); [apply layer_range_In; lia|].
      apply (write_layer_ok o 0 ltac:(lia) disk base experts qg qu qd params Hp Hn); eauto.
    + intros e He i p Hi Hpr. destruct (H i) as (r & Hr); [now apply layer_range_In|].
      apply (write_layer_ok o i ltac:(lia) disk base experts qg qu qd params Hp Hn); eauto.
  - intros (Hne & He) i Hi. apply layer_range_In in Hi. apply write_layer_ok; auto; [lia|]. split; [destruct Hne; [lia|auto]|].
    intros e p Hin Hpr. now apply He.
Qed.

(** and it is produced exactly when nothing needed is missing *)
Theorem C41_mixtral_succeeds (routers : list T) :
  (exists saves, mixtral_write o disk c base experts routers = Ok saves) <->
  Z.of_nat (List.length routers) = n /\ base_complete disk mistral_attn n base /\
  (n = 0%Z \/ experts <> []) /\ forall e, In e experts -> mlp_complete disk n (ex_model e).
Proof.
  rewrite mixtral_unfold, <- (kept_ok o disk base mistral_sfx mistral_attn n mistral_ok),
    <- (layers_ok "w1" "w3" "w2" mixtral_params (or_introl eq_refl) mixtral_names).
  fold (mixtral_registry o). destruct (Z.eqb_spec (Z.of_nat (List.length routers)) n) as [E|E]; cbn [negb].
  2:{ split; [intros (? & ?); discriminate|tauto]. }
  destruct (rmapM _ (dense_weights _ _)) as [kept|]; cbn [rbind].
  2:{ split; [intros (? & ?); discriminate|]. intros (_ & (? & ?) & _). discriminate. }
  destruct (rmapM _ (layer_range n)) as [fused|]; cbn [rbind].
  2:{ split; [intros (? & ?); discriminate|]. intros (_ & _ & (? & ?)). discriminate. }
  split; eauto 6.
Qed.

(** Qwen3 MoE output *)
Theorem C41_qwen3 (routers : list T) saves :
  qwen3_write o disk c base experts routers = Ok saves ->
  NoDup (map fst saves) /\
  forall nm t, In (nm, t) saves <-> fused_output o disk qwen3_attn (fun p => p) n base experts routers nm t.
Proof.
  rewrite qwen3_unfold.
  destruct (rmapM _ (dense_weights _ _)) as [kept|] eqn:Ek; cbn [rbind]; [|discriminate].
  destruct (rmapM _ (layer_range n)) as [fused|] eqn:Ef; cbn [rbind]; [|discriminate]. intros [= <-].
  destruct (fused_model o disk base experts qwen3_sfx qwen3_attn n "gate_proj" "up_proj" "down_proj" qwen3_params kept fused routers
           qwen3_ok eq_refl (or_intror eq_refl) qwen3_names eq_refl Ek Ef) as [Hnd Hin]. split; auto.
  intros nm t. rewrite Hin. clear. split; intros [nm' t' Hd Et|i gs us Hi Hg Hu|i ds Hi Hd|j r Hj]; now constructor.
Qed.
Theorem C41_qwen3_succeeds (routers : list T) :
  (exists saves, qwen3_write o disk c base experts routers = Ok saves) <->
  base_complete disk qwen3_attn n base /\
  (n = 0%Z \/ experts <> []) /\ forall e, In e experts -> mlp_complete disk n (ex_model e).
Proof.
  rewrite qwen3_unfold, <- (kept_ok o disk base qwen3_sfx qwen3_attn n qwen3_ok),
    <- (layers_ok "gate_proj" "up_proj" "down_proj" qwen3_params (or_intror eq_refl) qwen3_names).
  fold (qwen3_registry o).
  destruct (rmapM _ (dense_weights _ _)) as [kept|]; cbn [rbind].
  2:{ split; [intros (? & ?); discriminate|]. intros ((? & ?) & _). discriminate. }
  destruct (rmapM _ (layer_range n)) as [fused|]; cbn [rbind].
  2:{ split; [intros (? & ?); discriminate|]. intros (_ & (? & ?)). discriminate. }
  split; eauto 6.
Qed.

(** ** DeepSeek *)
Lemma deepseek_unfold arch (Ha : arch = a_mistral_default \/ arch = a_llama_default) shared (routers : list T) :
  deepseek_write o disk arch c base experts shared routers =
  let! out := rmapM (fun x => if infix ".mlp." (wi_name x)
                              then copy_experts o (initialize_loaders disk base experts) experts shared (".mlp." ++ "shared_experts" ++ ".")%string x
                              else base_copy o disk base x) (dense_weights mistral_sfx n) in
  Ok (concat out ++ save_routers o router_name routers).
Proof.
  unfold deepseek_write. assert (Hw : all_weights (json_module arch) c = Ok (dense_weights mistral_sfx n)).
  { destruct Ha as [-> | ->]; [exact (dense_arch_weights _ _ _ _ mistral_dense Hc)|exact (dense_arch_weights _ _ _ _ llama_dense Hc)]. }
  rewrite Hw. cbn [rbind]. rewrite base_loader.
  erewrite rmapM_ext; [reflexivity|]. intros x Hx. cbn beta. destruct (infix ".mlp." (wi_name x)); [reflexivity|]. eapply copy_base; eauto using mistral_ok.
Qed.

Lemma split_with_routers shared sh attn extra (out : list (list (string * T))) (routers : list T) nm t :
  (forall nm t, In (nm, t) (concat out) <-> extra nm t \/ split_output o disk attn n base experts shared sh [] nm t) ->
  (In (nm, t) (concat out) \/ (exists j r, nth_error routers j = Some r /\ nm = layer_name (Z.of_nat j) "mlp.gate.weight" /\ t = o_cast o r)) <->
  extra nm t \/ split_output o disk attn n base experts shared sh routers nm t.
Proof.
  intros H. rewrite H. split.
  - intros [[He|Hs]|(j & r & Hj & -> & ->)]; auto.
    + right. destruct Hs as [nm t Hd Et|i k e p t Hi Hke Hp Et|i s p t Hi Es Hp Et|j r Hr]; [now apply so_base|now apply so_expert|now apply so_shared|destruct j; discriminate].
    + right. now apply so_router.
  - intros [He|Hs]; auto. destruct Hs as [nm t Hd Et|i k e p t Hi Hke Hp Et|i s p t Hi Es Hp Et|j r Hr].
    + left; right. now apply so_base.
    + left; right. now apply so_expert.
    + left; right. now apply so_shared.
    + right. eauto.
Qed.

(** DeepSeek output: each expert's projections under its own index, the shared expert's under its own name, the rest
    from the base model, one router per layer. *)
Theorem C41_deepseek arch shared (routers : list T) saves :
  arch = a_mistral_default \/ arch = a_llama_default ->
  deepseek_write o disk arch c base experts shared routers = Ok saves ->
  NoDup (map fst saves) /\
  forall nm t, In (nm, t) saves <-> split_output o disk mistral_attn n base experts shared "shared_experts" routers nm t.
Proof.
  intros Ha. rewrite deepseek_unfold by auto. destruct (rmapM _ (dense_weights _ _)) as [out|] eqn:Eo; cbn [rbind]; [|discriminate]. intros [= <-].
  destruct (split_model o disk base experts shared "shared_experts" mistral_sfx mistral_attn n (base_copy o disk base) [] out (fun _ _ => False)
    mistral_ok eq_refl eq_refl ltac:(intros x r _ _ Hr; exact (base_copy_spec o disk base x r Hr)) Eo ltac:(intros ? ? [])) as (Hin & Hnd & Hor).
  rewrite (save_routers_ext o _ (fun i => layer_name i "mlp.gate.weight")) by apply router_layer. split.
  - rewrite map_app. apply NoDup_app_intro; auto using routers_NoDup. intros nm H1 H2. apply Hor in H1.
    apply in_map_iff in H2 as ([nm2 t2] & E2 & H2). cbn [fst] in E2. subst nm2. apply routers_In in H2 as (j & r & _ & -> & _).
    rewrite origin_short in H1 by (lia || reflexivity). revert H1. eapply router_fresh; [apply mistral_ok|lia|reflexivity].
  - intros nm t. rewrite in_app_iff, routers_In, (split_with_routers shared "shared_experts" mistral_attn (fun _ _ => False) out routers nm t Hin). tauto.
Qed.

Lemma split_ok arch_sfx arch_attn shared sh (fb : weight_info -> result (list (string * T))) (complete : Prop) :
  sfx_ok arch_sfx arch_attn ->
  ((exists out, rmapM (fun x => if infix ".mlp." (wi_name x) then Ok [] else fb x) (dense_weights arch_sfx n) = Ok out) <-> complete) ->
  (exists out, rmapM (fun x => if infix ".mlp." (wi_name x)
                              then copy_experts o (initialize_loaders disk base experts) experts shared (".mlp." ++ sh ++ ".")%string x
                              else fb x) (dense_weights arch_sfx n) = Ok out) <->
  complete /\ (forall e, In e experts -> mlp_complete disk n (ex_model e)) /\
  (forall s, shared = Some s -> (n = 0%Z \/ In (ex_model s) (base :: map ex_model experts)) /\ mlp_complete disk n (ex_model s)).
Proof.
  intros Hk <-. rewrite !rmapM_ok_iff.
  assert (Hm : forall i p, (0 <= i < n)%Z -> In p projections -> In (plain_weight (dense_mlp i p)) (dense_weights arch_sfx n)).
  { intros i p Hi Hp. apply (dense_weights_In _ _ _ _ Hk). right; right; right. exists i, (mlp_suffix p). split; auto. split; [now apply (sk_mlp _ _ Hk)|reflexivity]. }
  assert (Hx : forall i p, (0 <= i < n)%Z -> In p projections -> infix ".mlp." (wi_name (plain_weight (dense_mlp i p))) = true).
  { intros i p Hi Hp. apply mlp_dense; auto; lia. }
  split.
  - intros H. split; [|split].
    + intros x Hin. specialize (H x Hin). destruct (infix ".mlp." (wi_name x)); eauto.
    + intros e He i p Hi Hp. specialize (H _ (Hm i p Hi Hp)). rewrite Hx in H by auto. apply copy_experts_ok in H as [H _]; auto; lia.
    + intros s Es. split.
      * destruct (Z.eq_dec n 0) as [|Hne]; [auto|]. right. specialize (H _ (Hm 0%Z "gate_proj" ltac:(lia) ltac:(cbn; auto))).
        rewrite Hx in H by (cbn; auto; lia). apply copy_experts_ok in H as [_ H]; auto; [now apply H|lia|cbn; auto].
      * intros i p Hi Hp. specialize (H _ (Hm i p Hi Hp)). rewrite Hx in H by auto. apply copy_experts_ok in H as [_ H]; auto; [now apply H|lia].
  - intros (H1 & H2 & H3) x Hin. specialize (H1 x Hin). destruct (infix ".mlp." (wi_name x)) eqn:E; auto.
    assert (Hx' : exists i p, (0 <= i < n)%Z /\ In p projections /\ x = plain_weight (dense_mlp i p)).
    { apply (dense_weights_In _ _ _ _ Hk) in Hin as [->|[->|[->|(i & s & Hi & Hs & ->)]]]; try discriminate.
      cbn [plain_weight w wi_name] in E. rewrite infix_layer in E by lia. destruct (sk_split _ _ Hk s Hs) as [[_ (p & Hp & ->)]|[E' _]]; [|congruence].
      exists i, p. auto. }
    destruct Hx' as (i & p & Hi & Hp & ->). apply copy_experts_ok; auto; [lia|]. split.
    + intros e He. now apply H2.
    + intros s Es. destruct (H3 s Es) as [Hb Hcm]. split; [destruct Hb; [lia|auto]|now apply Hcm].
Qed.

(** It is produced exactly when nothing needed is missing and the shared expert's model is also the base model or one
    of the experts. *)
Theorem C41_deepseek_succeeds_partial arch shared (routers : list T) :
  arch = a_mistral_default \/ arch = a_llama_default ->
  (exists saves, deepseek_write o disk arch c base experts shared routers = Ok saves) <->
  base_complete disk mistral_attn n base /\ (forall e, In e experts -> mlp_complete disk n (ex_model e)) /\
  (forall s, shared = Some s -> (n = 0%Z \/ In (ex_model s) (base :: map ex_model experts)) /\ mlp_complete disk n (ex_model s)).
Proof.
  intros Ha. rewrite deepseek_unfold by auto.
  rewrite <- (split_ok mistral_sfx mistral_attn shared "shared_experts" _ _ mistral_ok (kept_ok o disk base mistral_sfx mistral_attn n mistral_ok)).
  destruct (rmapM _ (dense_weights _ _)) as [out|]; cbn [rbind]; split; eauto; intros (? & ?); discriminate.
Qed.

(** Finding: a shared expert that comes from a model which is neither the base model nor an expert cannot be written:
    [initialize_io] opens no loader for it. *)
Theorem C41_shared_expert_refuted arch s (routers : list T) saves :
  arch = a_mistral_default \/ arch = a_llama_default -> (0 < n)%Z ->
  ~ In (ex_model s) (base :: map ex_model experts) ->
  deepseek_write o disk arch c base experts (Some s) routers <> Ok saves.
Proof.
  intros Ha Hn Hs H. assert (Hex : exists saves, deepseek_write o disk arch c base experts (Some s) routers = Ok saves) by eauto.
  apply C41_deepseek_succeeds_partial in Hex as (_ & _ & H3); auto. destruct (H3 s eq_refl) as [[E|E] _]; [lia|contradiction].
Qed.
End Theorems.
Print Assumptions C41_mixtral.
Print Assumptions C41_mixtral_succeeds.
Print Assumptions C41_qwen3.
Print Assumptions C41_qwen3_succeeds.
Print Assumptions C41_deepseek.
Print Assumptions C41_deepseek_succeeds_partial.
Print Assumptions C41_shared_expert_refuted.
