(** C95: the mixture of experts that mergekit-moe writes. *)
From Coq Require Import Lia.
From Verif.Base Require Import Py PyFacts PyStr.
From Verif.Arch Require Import Model Data.
From Verif.IO Require Model Spec.
From Verif.Run Require Stages PropsStages.
From Verif.Moe Require Import Model Gates Spec Props PropsQwen PropsGates NameProofs SplitProofs Examples Whole.
Local Open Scope string_scope.
Local Open Scope list_scope.

(** * Vocabulary *)
(** the model in directory [f] has the tensor [t] under the name [x] *)
Definition in_dir {T} (f : IO.Model.fs T) (x : string) (t : T) : Prop :=
  exists ix, IO.Model.from_disk f = Ok ix /\ IO.Spec.stored f ix x = Some t.
(** the per-layer names outside the MLP of the dense models an architecture is made from *)
Definition attn_of (a : arch) : list string := match a with Mixtral | DeepSeek => mistral_attn | Qwen => qwen2_attn | Qwen3 => qwen3_attn end.
(** the name of a projection inside an expert *)
Definition param_of (a : arch) (p : string) : string := match a with Mixtral => mixtral_name p | _ => p end.
Definition shared_part (a : arch) : string := match a with Qwen => "shared_expert" | _ => "shared_experts" end.
Definition shared_slot (a : arch) (i : Z) (p : string) : string := layer_name i ("mlp." ++ shared_part a ++ "." ++ p ++ ".weight").
Definition stacks (a : arch) : Prop := a = Mixtral \/ a = Qwen3.
(** the names of the tensors of a mixture with [k] experts *)
Inductive moe_name (a : arch) (n : Z) (k : nat) (shared : bool) : string -> Prop :=
| mn_dense nm : dense_name (attn_of a) n nm -> moe_name a n k shared nm
| mn_router i : (0 <= i < n)%Z -> moe_name a n k shared (layer_name i "mlp.gate.weight")
| mn_stack i s : (0 <= i < n)%Z -> stacks a -> In s ["gate_up_proj"; "down_proj"] -> moe_name a n k shared (layer_name i ("mlp.experts." ++ s))
| mn_expert i j p : (0 <= i < n)%Z -> ~ stacks a -> (j < k)%nat -> In p projections -> moe_name a n k shared (expert_slot i j p)
| mn_shared i p : (0 <= i < n)%Z -> ~ stacks a -> shared = true -> In p projections -> moe_name a n k shared (shared_slot a i p)
| mn_shared_gate i : (0 <= i < n)%Z -> a = Qwen -> moe_name a n k shared (layer_name i "mlp.shared_expert_gate.weight").

Lemma rbind_ok {A B} (r : result A) (f : A -> result B) y : rbind r f = Ok y -> exists x, r = Ok x /\ f x = Ok y.
Proof. destruct r; cbn; [eauto|discriminate]. Qed.

(** a list with one element for each element of another *)
Lemma choose_list {A B} (P : nat -> A -> B -> Prop) : forall (l : list A) j,
  (forall k e, nth_error l k = Some e -> exists x, P (j + k)%nat e x) ->
  exists xs, length xs = length l /\ forall k e, nth_error l k = Some e -> exists x, nth_error xs k = Some x /\ P (j + k)%nat e x.
Proof.
  induction l as [|a l IH]; intros j H; [exists []; split; [reflexivity|intros [|k] e [=]]|].
  destruct (H 0%nat a eq_refl) as (x & Hx). destruct (IH (S j)) as (xs & Hl & Hxs).
  { intros k e Hk. destruct (H (S k) e Hk) as (y & Hy). exists y. now rewrite <- Nat.add_succ_comm in Hy. }
  exists (x :: xs). split; [cbn; now rewrite Hl|]. intros [|k] e Hk; [injection Hk as <-; exists x; auto|].
  destruct (Hxs k e Hk) as (y & Hy & HP). exists y. split; [exact Hy|]. now rewrite <- Nat.add_succ_comm.
Qed.

(** the gates have one row per layer and one vector per expert, whatever the mode *)
Lemma gates_shape {F} draw m tk (experts : list (expert F)) mode gates :
  get_gate_params F draw m tk experts mode = Ok gates -> shape_is gates (ll_layers m) (length experts).
Proof.
  assert (D : forall f, shape_is (drawn draw m (length experts) f) (ll_layers m) (length experts)).
  { intros f. unfold drawn, shape_is. rewrite map_length, seq_length. split; [reflexivity|]. apply Forall_forall. intros row Hr.
    apply in_map_iff in Hr as (l & <- & _). now rewrite map_length, seq_length. }
  unfold get_gate_params. destruct (eqb mode "random"); [intros [= <-]; apply D|]. destruct (eqb mode "uniform_random"); [intros [= <-]; apply D|].
  intros H. cbv zeta in H. apply gates_of in H. apply H.
Qed.

Section C95.
Context {T F : Type}.
Variables (o : ops T F) (of_rows : list vec -> T) (dirs : string -> IO.Model.fs T).
Variables (cfg : cfgval) (d : dims) (dense : json_arch).
Variables (draw : nat -> nat -> nat -> Rdefinitions.R) (ty : string -> string) (available : list arch).
Variables (m : llm) (tk : tokenizer) (c : moe_config F) (allow : bool) (n : Z) (a : arch) (saves : list (string * T)).
Notation base := (c_base F c).
Notation experts := (c_experts F c).
Notation disk := (disk dirs).

(** indices agree with the shards *)
Hypothesis Hsound : forall x, Stages.sound_dir (dirs x).
(** the number of layers of the base model, as its configuration and the language model have it *)
Hypothesis Hc : get_config_value cfg "num_hidden_layers" = Ok (CVInt n).
Hypothesis Hm : Z.of_nat (ll_layers m) = n.
(** llama or mistral, where it matters (C70) *)
Hypothesis Hdense : dense = a_mistral_default \/ dense = a_llama_default.
Hypothesis Hrun : moe_run o of_rows dirs cfg d dense draw ty available m tk c allow = Ok (Go (a, saves)).

Lemma disk_get x nm t : dget (disk x) nm = Some t <-> in_dir (dirs x) nm t.
Proof.
  unfold Whole.disk, tensors_of, in_dir. pose proof (Hsound x) as Hs. unfold Stages.sound_dir in Hs.
  destruct (IO.Model.from_disk (dirs x)) as [ix|e]; cbn [rbind]; [|split; [discriminate|intros (ix & [=] & _)]].
  destruct (Hs ix eq_refl) as [Hcon _]. transitivity (IO.Spec.stored (dirs x) ix nm = Some t).
  2:{ split; [eauto|]. intros (ix' & [= <-] & H). exact H. }
  unfold IO.Spec.stored. specialize (Hcon nm). revert Hcon. generalize (IO.Model.ix_paths ix) as paths.
  induction paths as [|[k file] paths IH]; intros Hcon; [reflexivity|]. cbn [flat_map dget fst snd] in *.
  destruct (eqb_spec nm k) as [<-|Hne].
  - destruct (Hcon file eq_refl) as (dd & Hd & Hin). rewrite Hd. apply dget_Some_key in Hin as [v Hv]. rewrite Hv. cbn [app dget]. now rewrite eqb_refl.
  - rewrite <- (IH Hcon). destruct (IO.Model.open_shard (dirs x) file) as [dd|]; [|reflexivity]. destruct (dget dd k); [|reflexivity].
    cbn [app dget]. destruct (eqb_spec nm k); [contradiction|reflexivity].
Qed.
Lemma disk_key x nm : In nm (dkeys (disk x)) <-> exists t, in_dir (dirs x) nm t.
Proof. rewrite dget_Some_key. split; intros (t & H); exists t; now apply disk_get. Qed.
Lemma Hpos : (0 <= n)%Z. Proof. lia. Qed.

(** the parts of the run *)
Lemma run_parts : exists routers shared,
  build F draw ty available m tk c allow = Ok (Go (a, routers, shared)) /\
  write_model o dirs cfg d dense a c (map of_rows routers) (map of_rows shared) = Ok saves.
Proof.
  unfold moe_run in Hrun. apply rbind_ok in Hrun as ([|[[a' routers] shared]] & Hb & H); [discriminate|].
  apply rbind_ok in H as (u & _ & H). apply rbind_ok in H as (s & Hw & H). injection H as <- <-. eauto.
Qed.
(** the routers: one vector per expert *)
Lemma run_gates routers shared : build F draw ty available m tk c allow = Ok (Go (a, routers, shared)) -> exists sh gates,
  get_gate_params F draw m tk (experts ++ sh) (c_gate_mode F c) = Ok gates /\
  (sh = c_shared F c /\ ((forall e, In e (c_shared F c) -> ex_positive e <> []) \/ c_gate_mode F c = "random" \/ c_gate_mode F c = "uniform_random") \/
   sh = [] /\ (forall e, In e (c_shared F c) -> ex_positive e = [])) /\
  length routers = Z.to_nat n /\ length shared = Z.to_nat n /\
  forall i, (0 <= i < n)%Z -> exists r s, nth_error routers (Z.to_nat i) = Some r /\ nth_error shared (Z.to_nat i) = Some s /\
    length r = length experts /\ length s = length sh /\
    (forall k v, nth_error r k = Some v -> entry gates (Z.to_nat i) k v) /\
    (forall k v, nth_error s k = Some v -> entry gates (Z.to_nat i) (length experts + k) v).
Proof.
  intros Hb. destruct (C70_build _ _ _ _ _ _ _ _ _ _ Hb) as (_ & _ & sh & gates & Hg & Hsh & L1 & L2 & Hrow).
  destruct (gates_shape _ _ _ _ _ _ Hg) as [S1 S2]. exists sh, gates. split; [exact Hg|]. split; [exact Hsh|].
  assert (En : Z.to_nat n = ll_layers m) by lia. rewrite En. split; [congruence|]. split; [congruence|]. intros i Hi.
  assert (Hlt : (Z.to_nat i < length gates)%nat) by lia. destruct (nth_error gates (Z.to_nat i)) as [g|] eqn:Eg; [|apply nth_error_None in Eg; lia].
  destruct (Hrow _ _ Eg) as (r & s & Hr & Hs & E & Hl). assert (Lg : length g = (length experts + length sh)%nat).
  { rewrite Forall_forall in S2. rewrite (S2 g (nth_error_In _ _ Eg)). apply app_length. }
  assert (Lr : length r = length experts) by lia. exists r, s. repeat (split; [assumption|]).
  split; [subst g; rewrite app_length in Lg; lia|]. split; intros k v Hk; exists g; (split; [exact Eg|]); subst g.
  - rewrite nth_error_app1; [exact Hk|]. apply nth_error_Some. congruence.
  - rewrite nth_error_app2 by lia. rewrite Lr. replace (length experts + k - length experts)%nat with k by lia. exact Hk.
Qed.

(** the gate of a single shared expert *)
Lemma run_gate_shared routers shared s : build F draw ty available m tk c allow = Ok (Go (a, routers, shared)) -> c_shared F c = [s] ->
  c_gate_mode F c = "random" \/ ex_positive s <> [] -> exists gates, get_gate_params F draw m tk (experts ++ [s]) (c_gate_mode F c) = Ok gates /\
  length shared = Z.to_nat n /\
  forall i, (0 <= i < n)%Z -> exists v, nth_error shared (Z.to_nat i) = Some [v] /\ entry gates (Z.to_nat i) (length experts) v.
Proof.
  unfold build. intros Hb Es Hs. destruct (is_bad_config _ _ _ _) as [[]|]; try discriminate. cbn [rbind] in Hb. destruct (select_output_arch F ty available c); [discriminate|].
  assert (En : need_gates experts (c_shared F c) (c_gate_mode F c) = Ok (experts ++ [s])).
  { rewrite Es. unfold need_gates. cbn. destruct Hs as [->|Hp]; [destruct (ex_positive s); reflexivity|]. destruct (ex_positive s); [congruence|reflexivity]. }
  rewrite En in Hb. cbn [rbind] in Hb. destruct (get_gate_params F draw m tk (experts ++ [s]) (c_gate_mode F c)) as [gates|] eqn:Eg; [|discriminate]. injection Hb as _ _ <-.
  destruct (gates_shape _ _ _ _ _ _ Eg) as [S1 S2]. exists gates. split; [reflexivity|]. rewrite map_length. split; [lia|]. intros i Hi.
  destruct (nth_error gates (Z.to_nat i)) as [g|] eqn:Egi; [|apply nth_error_None in Egi; lia]. rewrite nth_error_map, Egi. cbn [option_map]. unfold split_gates. cbn [snd].
  rewrite Forall_forall in S2. pose proof (S2 g (nth_error_In _ _ Egi)) as Lg. rewrite app_length in Lg. cbn [length] in Lg.
  pose proof (skipn_length (length experts) g) as Lk. destruct (skipn (length experts) g) as [|v [|]] eqn:Ek; cbn [length] in Lk; try lia. exists v. split; [reflexivity|].
  exists g. split; [exact Egi|]. rewrite <- (firstn_skipn (length experts) g), Ek, nth_error_app2; rewrite firstn_length_le by lia; [|lia]. now rewrite Nat.sub_diag.
Qed.

(** what the architecture has to do with shared experts *)
Lemma run_shared_of b routers shared : build F draw ty available m tk c allow = Ok (Go (b, routers, shared)) ->
  (stacks b -> c_shared F c = []) /\ (b = Qwen -> exists e, c_shared F c = [e] /\ (c_gate_mode F c = "random" \/ ex_positive e <> [])).
Proof.
  intros Hb. destruct (C70_build _ _ _ _ _ _ _ _ _ _ Hb) as (_ & Hs & _). pose proof (C70_selected ty available c) as H. cbv zeta in H. rewrite Hs in H.
  destruct H as ((_ & _ & H) & _). destruct (C70_supported ty c) as (S1 & _ & S3 & S4). split.
  - intros [->| ->]; [apply S1 in H|apply S4 in H]; apply H.
  - intros ->. apply S3 in H. destruct H as [H _]. exact H.
Qed.
Definition run_shared := run_shared_of a.
Lemma run_gates_of b routers shared : build F draw ty available m tk c allow = Ok (Go (b, routers, shared)) ->
  length routers = Z.to_nat n /\ length shared = Z.to_nat n.
Proof.
  intros Hb. destruct (C70_build _ _ _ _ _ _ _ _ _ _ Hb) as (_ & _ & sh & gates & Hg & Hsh & L1 & L2 & _).
  destruct (gates_shape _ _ _ _ _ _ Hg) as [S1 _]. lia.
Qed.

(** the tensors of all experts are there *)
Lemma experts_complete e i p : In e experts -> (0 <= i < n)%Z -> In p projections -> exists v, dget (disk (ex_model e)) (dense_mlp i p) = Some v.
Proof.
  intros He Hi Hp. destruct run_parts as (routers & shared & Hb & Hw). assert (mlp_complete disk n (ex_model e)) as H.
  { unfold write_model in Hw. pose proof Hpos as Hp0. destruct a.
    - destruct (proj1 (C41_mixtral_succeeds o disk cfg n base experts Hc Hp0 (map of_rows routers)) (ex_intro _ saves Hw)) as (_ & H). now apply H.
    - destruct (proj1 (C41_deepseek_succeeds_partial o disk cfg n base experts Hc Hp0 dense (hd_error (c_shared F c)) (map of_rows routers) Hdense) (ex_intro _ saves Hw)) as (_ & H & _). now apply H.
    - destruct (c_shared F c) as [|s ss]; [discriminate|].
      destruct (proj1 (C41_qwen2_succeeds_partial o disk cfg n d base experts s Hc Hp0 (map of_rows routers) (map of_rows shared)) (ex_intro _ saves Hw)) as (_ & H & _). now apply H.
    - destruct (proj1 (C41_qwen3_succeeds o disk cfg n base experts Hc Hp0 (map of_rows routers)) (ex_intro _ saves Hw)) as (_ & H). now apply H. }
  apply dget_Some_key. now apply H.
Qed.

(** No name is written twice, and nothing is written but the tensors of the mixture. *)
Theorem C95_names : NoDup (map fst saves) /\
  forall nm, In nm (map fst saves) -> moe_name a n (length experts) (match c_shared F c with [] => false | _ => true end) nm.
Proof.
  destruct run_parts as (routers & shared & Hb & Hw). destruct (run_gates _ _ Hb) as (sh & gates & _ & _ & L1 & L2 & _).
  assert (HR : forall j (r : T), nth_error (map of_rows routers) j = Some r -> (0 <= Z.of_nat j < n)%Z).
  { intros j r Hj. assert (j < length (map of_rows routers))%nat as H by (apply nth_error_Some; congruence). rewrite map_length in H. lia. }
  assert (FO : forall q attn nm t, attn = attn_of a -> stacks a -> fused_output o disk attn q n base experts (map of_rows routers) nm t ->
    moe_name a n (length experts) (match c_shared F c with [] => false | _ => true end) nm).
  { intros q attn nm t -> Hst [nm' t' Hd _|i gs us Hi _ _|i ds Hi _|j r Hj].
    - now apply mn_dense.
    - apply (mn_stack a n _ _ i "gate_up_proj"); cbn; auto.
    - apply (mn_stack a n _ _ i "down_proj"); cbn; auto.
    - apply mn_router. eauto. }
  assert (SO : forall attn sd part nm t, attn = attn_of a -> part = shared_part a -> ~ stacks a -> (forall s, sd = Some s -> c_shared F c <> []) ->
    split_output o disk attn n base experts sd part (map of_rows routers) nm t ->
    moe_name a n (length experts) (match c_shared F c with [] => false | _ => true end) nm).
  { intros attn sd part nm t -> -> Hst Hsd [nm' t' Hd _|i k e p v Hi Hk Hp _|i s p v Hi Hs Hp _|j r Hj].
    - now apply mn_dense.
    - apply mn_expert; auto. apply nth_error_Some. congruence.
    - apply (mn_shared a n _ _ i p); auto. destruct (c_shared F c); [destruct (Hsd s Hs eq_refl)|reflexivity].
    - apply mn_router. eauto. }
  unfold write_model in Hw. destruct a eqn:Ea.
  - destruct (C41_mixtral o disk cfg n base experts Hc _ _ Hw) as [H1 H2]. split; [exact H1|]. intros nm Hin. apply in_map_iff in Hin as ([nm' t] & <- & Hin).
    apply H2 in Hin. eapply FO; [reflexivity|now left|exact Hin].
  - destruct (C41_deepseek o disk cfg n base experts Hc dense _ _ _ Hdense Hw) as [H1 H2]. split; [exact H1|]. intros nm Hin. apply in_map_iff in Hin as ([nm' t] & <- & Hin).
    apply H2 in Hin. eapply SO; [reflexivity|reflexivity|intros [|]; discriminate| |exact Hin]. intros s Hs E. rewrite E in Hs. discriminate.
  - destruct (c_shared F c) as [|s ss] eqn:Es; [discriminate|]. destruct (C41_qwen2 o disk cfg n d base experts s Hc _ _ _ Hw) as [H1 H2]. split; [exact H1|].
    intros nm Hin. apply in_map_iff in Hin as ([nm' t] & <- & Hin). apply H2 in Hin. cbn [fst]. destruct Hin as [Hin|[i x Hi Hx _|j r Hj Hl]].
    + eapply SO; [reflexivity|reflexivity|intros [|]; discriminate| |exact Hin]. congruence.
    + apply mn_dense, d_layer; [exact Hi|]. destruct Hx as [<-|[<-|[<-|[]]]]; cbn; tauto.
    + apply mn_shared_gate; [|reflexivity]. rewrite map_length in Hl. lia.
  - destruct (C41_qwen3 o disk cfg n base experts Hc _ _ Hw) as [H1 H2]. split; [exact H1|]. intros nm Hin. apply in_map_iff in Hin as ([nm' t] & <- & Hin).
    apply H2 in Hin. eapply FO; [reflexivity|now right|exact Hin].
Qed.

(** Everything outside the MLPs is the base model's, cast to the output type; all of it is there, but for an output
    embedding the base model does not store - and attention biases, which Qwen MoE then gets as zeros. *)
Theorem C95_base nm : dense_name (attn_of a) n nm ->
  (forall v, in_dir (dirs base) nm v -> In (nm, o_cast o v) saves) /\
  (nm <> "lm_head.weight" -> (a = Qwen -> forall i x, (0 <= i < n)%Z -> In x ["q_proj"; "k_proj"; "v_proj"] -> nm <> layer_name i ("self_attn." ++ x ++ ".bias")) ->
   exists v, in_dir (dirs base) nm v) /\
  (forall i x, a = Qwen -> (0 <= i < n)%Z -> In x ["q_proj"; "k_proj"; "v_proj"] -> nm = layer_name i ("self_attn." ++ x ++ ".bias") ->
   ~ (exists v, in_dir (dirs base) nm v) -> num_heads d <> 0%Z /\
   In (nm, o_cast o (o_zeros o ((if String.eqb x "q_proj" then num_heads d else num_kv_heads d) * (hidden_size d / num_heads d))%Z)) saves).
Proof.
  intros Hnm. destruct run_parts as (routers & shared & Hb & Hw). unfold write_model in Hw. pose proof Hpos as Hp0.
  assert (Hbc : forall attn, base_complete disk attn n base -> dense_name attn n nm -> nm <> "lm_head.weight" -> exists v, in_dir (dirs base) nm v).
  { intros attn H Hd Hne. apply disk_key. now apply (H nm). }
  destruct a eqn:Ea; cbn [attn_of] in Hnm.
  - destruct (C41_mixtral o disk cfg n base experts Hc _ _ Hw) as [_ H2]. split; [|split; [|discriminate]].
    + intros v Hv. apply disk_get in Hv. apply H2. now apply fo_base.
    + intros Hne _. apply (Hbc mistral_attn); auto. apply (proj1 (C41_mixtral_succeeds o disk cfg n base experts Hc Hp0 (map of_rows routers))). eauto.
  - destruct (C41_deepseek o disk cfg n base experts Hc dense _ _ _ Hdense Hw) as [_ H2]. split; [|split; [|discriminate]].
    + intros v Hv. apply disk_get in Hv. apply H2. now apply so_base.
    + intros Hne _. apply (Hbc mistral_attn); auto. apply (proj1 (C41_deepseek_succeeds_partial o disk cfg n base experts Hc Hp0 dense (hd_error (c_shared F c)) (map of_rows routers) Hdense)). eauto.
  - destruct (c_shared F c) as [|s ss] eqn:Es; [discriminate|]. destruct (C41_qwen2 o disk cfg n d base experts s Hc _ _ _ Hw) as [_ H2].
    destruct (proj1 (C41_qwen2_succeeds_partial o disk cfg n d base experts s Hc Hp0 (map of_rows routers) (map of_rows shared))) as ((Hq & Hz) & _); [eauto|]. split; [|split].
    + intros v Hv. apply disk_get in Hv. apply H2. left. now apply so_base.
    + intros Hne Hb'. apply disk_key. apply Hq; auto. intros i x Hi Hx. exact (Hb' eq_refl i x Hi Hx).
    + intros i x _ Hi Hx -> Hno. assert (En : dget (disk base) (bias_name i x) = None).
      { destruct (dget (disk base) (bias_name i x)) as [v|] eqn:E; [|reflexivity]. apply disk_get in E. destruct Hno. exists v. exact E. }
      split; [exact (Hz i x Hi Hx En)|]. apply H2. right. apply qe_bias; auto.
  - destruct (C41_qwen3 o disk cfg n base experts Hc _ _ Hw) as [_ H2]. split; [|split; [|discriminate]].
    + intros v Hv. apply disk_get in Hv. apply H2. now apply fo_base.
    + intros Hne _. apply (Hbc qwen3_attn); auto. apply (proj1 (C41_qwen3_succeeds o disk cfg n base experts Hc Hp0 (map of_rows routers))). eauto.
Qed.

(** The router and the experts are aligned: in every layer, row [k] of the router is the vector computed for expert [k], and the
    weights in place [k] are that expert's own, with its noise and scale. *)
Theorem C95_aligned : exists sh gates, get_gate_params F draw m tk (experts ++ sh) (c_gate_mode F c) = Ok gates /\
  forall i, (0 <= i < n)%Z ->
  (exists rows, In (layer_name i "mlp.gate.weight", o_cast o (of_rows rows)) saves /\ length rows = length experts /\
     forall k v, nth_error rows k = Some v -> entry gates (Z.to_nat i) k v) /\
  (stacks a -> exists gs us ds,
     In (layer_name i "mlp.experts.gate_up_proj", o_cast o (o_concat o [o_stack o gs; o_stack o us])) saves /\
     In (layer_name i "mlp.experts.down_proj", o_cast o (o_stack o ds)) saves /\
     forall p l, In (p, l) [("gate_proj", gs); ("up_proj", us); ("down_proj", ds)] -> length l = length experts /\
       forall k e, nth_error experts k = Some e -> exists v, in_dir (dirs (ex_model e)) (dense_mlp i p) v /\
         nth_error l k = Some (adjusted o e p (expert_slot i k (param_of a p)) v)) /\
  (~ stacks a -> forall k e p, nth_error experts k = Some e -> In p projections -> exists v, in_dir (dirs (ex_model e)) (dense_mlp i p) v /\
     In (expert_slot i k p, o_cast o (adjusted o e p (expert_slot i k p) v)) saves).
Proof.
  destruct run_parts as (routers & shared & Hb & Hw). destruct (run_gates _ _ Hb) as (sh & gates & Hg & _ & L1 & L2 & Hrow).
  exists sh, gates. split; [exact Hg|]. intros i Hi. destruct (Hrow i Hi) as (r & s & Hr & Hs & Lr & _ & Er & _).
  assert (Hr' : nth_error (map of_rows routers) (Z.to_nat i) = Some (of_rows r)) by (rewrite nth_error_map, Hr; reflexivity).
  assert (Hzi : Z.of_nat (Z.to_nat i) = i) by lia.
  assert (HE : forall p q, In p projections -> exists ts, experts_in_order o disk experts i p q ts).
  { intros p q Hp. destruct (choose_list (fun k e x => exists t, dget (disk (ex_model e)) (dense_mlp i p) = Some t /\ x = adjusted o e p (expert_slot i k q) t) experts 0%nat) as (ts & Hl & Hts).
    - intros k e Hk. destruct (experts_complete e i p (nth_error_In _ _ Hk) Hi Hp) as (v & Hv). eauto.
    - exists ts. split; [exact Hl|]. intros k e Hk. destruct (Hts k e Hk) as (x & Hx & t & Ht & ->). eauto. }
  assert (HO : forall p q ts, experts_in_order o disk experts i p q ts -> length ts = length experts /\ forall k e, nth_error experts k = Some e ->
    exists v, in_dir (dirs (ex_model e)) (dense_mlp i p) v /\ nth_error ts k = Some (adjusted o e p (expert_slot i k q) v)).
  { intros p q ts [Hl H]. split; [exact Hl|]. intros k e Hk. destruct (H k e Hk) as (t & Ht & Hn). exists t. split; [now apply disk_get|exact Hn]. }
  assert (FO : forall q, (forall p, q p = param_of a p) ->
    (forall nm t, In (nm, t) saves <-> fused_output o disk (attn_of a) q n base experts (map of_rows routers) nm t) ->
    In (layer_name i "mlp.gate.weight", o_cast o (of_rows r)) saves /\
    exists gs us ds, In (layer_name i "mlp.experts.gate_up_proj", o_cast o (o_concat o [o_stack o gs; o_stack o us])) saves /\
     In (layer_name i "mlp.experts.down_proj", o_cast o (o_stack o ds)) saves /\
     forall p l, In (p, l) [("gate_proj", gs); ("up_proj", us); ("down_proj", ds)] -> length l = length experts /\
       forall k e, nth_error experts k = Some e -> exists v, in_dir (dirs (ex_model e)) (dense_mlp i p) v /\
         nth_error l k = Some (adjusted o e p (expert_slot i k (param_of a p)) v)).
  { intros q Hq H. split; [apply H; rewrite <- Hzi; now apply fo_router|].
    destruct (HE "gate_proj" (q "gate_proj")) as (gs & Hgs); [cbn; tauto|]. destruct (HE "up_proj" (q "up_proj")) as (us & Hus); [cbn; tauto|].
    destruct (HE "down_proj" (q "down_proj")) as (ds & Hds); [cbn; tauto|]. exists gs, us, ds.
    split; [apply H; now apply fo_gate_up|]. split; [apply H; now apply fo_down|]. intros p l [[= <- <-]|[[= <- <-]|[[= <- <-]|[]]]]; rewrite <- Hq; now apply HO. }
  assert (SO : forall sd part attn, (forall nm t, split_output o disk attn n base experts sd part (map of_rows routers) nm t -> In (nm, t) saves) ->
    In (layer_name i "mlp.gate.weight", o_cast o (of_rows r)) saves /\
    forall k e p, nth_error experts k = Some e -> In p projections -> exists v, in_dir (dirs (ex_model e)) (dense_mlp i p) v /\
     In (expert_slot i k p, o_cast o (adjusted o e p (expert_slot i k p) v)) saves).
  { intros sd part attn H. split; [apply H; rewrite <- Hzi; now apply so_router|]. intros k e p Hk Hp.
    destruct (experts_complete e i p (nth_error_In _ _ Hk) Hi Hp) as (v & Hv). exists v. split; [now apply disk_get|]. apply H. now apply so_expert with (1 := Hi). }
  assert (Fin : forall X : Prop, (In (layer_name i "mlp.gate.weight", o_cast o (of_rows r)) saves /\ X) ->
    (exists rows, In (layer_name i "mlp.gate.weight", o_cast o (of_rows rows)) saves /\ length rows = length experts /\
     forall k v, nth_error rows k = Some v -> entry gates (Z.to_nat i) k v) /\ X).
  { intros X [H1 H2]. split; [|exact H2]. exists r. auto. }
  unfold write_model in Hw. destruct a eqn:Ea.
  - destruct (C41_mixtral o disk cfg n base experts Hc _ _ Hw) as [_ H2]. destruct (Fin _ (FO mixtral_name (fun _ => eq_refl) H2)) as [F1 F2]. split; [exact F1|].
    split; [intros _; exact F2|]. intros Hn. destruct Hn. now left.
  - destruct (C41_deepseek o disk cfg n base experts Hc dense _ _ _ Hdense Hw) as [_ H2]. destruct (Fin _ (SO _ _ _ (fun nm t => proj2 (H2 nm t)))) as [F1 F2].
    split; [exact F1|]. split; [intros [|]; discriminate|]. intros _. exact F2.
  - destruct (c_shared F c) as [|s0 ss] eqn:Es; [discriminate|]. destruct (C41_qwen2 o disk cfg n d base experts s0 Hc _ _ _ Hw) as [_ H2].
    destruct (Fin _ (SO _ _ _ (fun nm t H => proj2 (H2 nm t) (or_introl H)))) as [F1 F2]. split; [exact F1|]. split; [intros [|]; discriminate|]. intros _. exact F2.
  - destruct (C41_qwen3 o disk cfg n base experts Hc _ _ Hw) as [_ H2]. destruct (Fin _ (FO (fun p => p) (fun _ => eq_refl) H2)) as [F1 F2]. split; [exact F1|].
    split; [intros _; exact F2|]. intros Hn. destruct Hn. now right.
Qed.

(** The shared expert, if there is one: its weights are its own; for Qwen MoE, which always has one, its gate is the one row
    computed for it. *)
Theorem C95_shared : (stacks a -> c_shared F c = []) /\
  forall s ss, c_shared F c = s :: ss -> ~ stacks a /\
    (forall i p, (0 <= i < n)%Z -> In p projections -> exists v, in_dir (dirs (ex_model s)) (dense_mlp i p) v /\
       In (shared_slot a i p, o_cast o (adjusted o s p (shared_slot a i p) v)) saves) /\
    (a = Qwen -> ss = [] /\ exists gates, get_gate_params F draw m tk (experts ++ [s]) (c_gate_mode F c) = Ok gates /\
       forall i, (0 <= i < n)%Z -> exists v, entry gates (Z.to_nat i) (length experts) v /\
         In (layer_name i "mlp.shared_expert_gate.weight", o_cast o (of_rows [v])) saves).
Proof.
  destruct run_parts as (routers & shared & Hb & Hw). destruct (run_shared _ _ Hb) as [S1 S2]. split; [exact S1|]. intros s ss Es.
  destruct (run_gates _ _ Hb) as (_ & _ & _ & _ & L1 & _). pose proof (run_gate_shared _ _ s Hb) as HG.
  assert (Hst : ~ stacks a) by (intros H; apply S1 in H; congruence). split; [exact Hst|]. unfold write_model in Hw. pose proof Hpos as Hp0.
  assert (SO : forall attn, mlp_complete disk n (ex_model s) ->
    (forall nm t, split_output o disk attn n base experts (Some s) (shared_part a) (map of_rows routers) nm t -> In (nm, t) saves) ->
    forall i p, (0 <= i < n)%Z -> In p projections -> exists v, in_dir (dirs (ex_model s)) (dense_mlp i p) v /\
       In (shared_slot a i p, o_cast o (adjusted o s p (shared_slot a i p) v)) saves).
  { intros attn Hcomp H i p Hi Hp. pose proof (Hcomp i p Hi Hp) as Hk. apply dget_Some_key in Hk as (v & Hv). exists v. split; [now apply disk_get|].
    apply H. now apply so_shared with (1 := Hi). }
  destruct a eqn:Ea; try (exfalso; apply Hst; (now left) || (now right)).
  - rewrite Es in Hw. cbn [hd_error] in Hw. destruct (C41_deepseek o disk cfg n base experts Hc dense _ _ _ Hdense Hw) as [_ H2]. split; [|discriminate].
    apply (SO mistral_attn); [|intros nm t H; now apply H2].
    destruct (proj1 (C41_deepseek_succeeds_partial o disk cfg n base experts Hc Hp0 dense (Some s) (map of_rows routers) Hdense) (ex_intro _ saves Hw)) as (_ & _ & H). now apply H.
  - rewrite Es in Hw. destruct (C41_qwen2 o disk cfg n d base experts s Hc _ _ _ Hw) as [_ H2].
    destruct (proj1 (C41_qwen2_succeeds_partial o disk cfg n d base experts s Hc Hp0 (map of_rows routers) (map of_rows shared))) as (_ & _ & _ & Hcomp & _); [eauto|].
    split; [apply (SO qwen2_attn Hcomp); intros nm t H; apply H2; now left|]. intros _. destruct (S2 eq_refl) as (e & Ee & Hgate). rewrite Es in Ee. injection Ee as <- ->.
    split; [reflexivity|]. destruct (HG Es Hgate) as (gates & Hg & L2 & Hrow).
    exists gates. split; [exact Hg|]. intros i Hi. destruct (Hrow i Hi) as (v & Hv & He). exists v. split; [exact He|].
    apply H2. right. replace i with (Z.of_nat (Z.to_nat i)) at 1 by lia. apply qe_gate.
    + rewrite nth_error_map, Hv. reflexivity.
    + rewrite map_length. lia.
Qed.

(** Written to a new directory with shards of any size and any writer, a fresh loader finds exactly these tensors. *)
Theorem C95_directory nbytes safe max f' :
  IO.Model.async_run nbytes safe None max saves [] (Ok (f', None)) -> Stages.holds f' saves.
Proof.
  intros Hr. apply (PropsStages.written_holds nbytes safe max saves f'); auto; [| |exact (proj1 C95_names)].
  - intros E. destruct (C95_base "model.embed_tokens.weight" (d_embed _ _)) as (H1 & H2 & _). destruct H2 as (v & Hv); [discriminate| |].
    + intros _ i x _ _. unfold layer_name. discriminate.
    + apply H1 in Hv. rewrite E in Hv. destruct Hv.
  - right. intros Hin. apply (proj2 C95_names) in Hin.
    assert (H : forall nm, moe_name a n (length experts) (match c_shared F c with [] => false | _ => true end) nm -> nm <> "state_dict").
    { intros nm [x []|i _|i s _ _ _|i j p _ _ _ _|i p _ _ _ _|i _ _]; try discriminate. }
    now apply (H _ Hin).
Qed.

(** Once the gates are computed, what is missing for the run to finish: directories that can be opened, the tensors of the base
    model, those of the experts, and a shared expert that is also the base model or one of the experts - no other is opened. *)
Lemma opened : (exists u, open_all dirs base experts = Ok u) <-> forall x, x = base \/ (exists e, In e experts /\ x = ex_model e) -> exists ix, IO.Model.from_disk (dirs x) = Ok ix.
Proof.
  unfold open_all. assert (H : (exists l, rmapM (fun m => tensors_of (dirs m)) (base :: map (@ex_model F) experts) = Ok l) <->
    forall x, In x (base :: map (@ex_model F) experts) -> exists ix, IO.Model.from_disk (dirs x) = Ok ix).
  { generalize (base :: map (@ex_model F) experts) as l. induction l as [|x l IH]; cbn [rmapM]; [split; [easy|eauto]|].
    unfold tensors_of at 1. destruct (IO.Model.from_disk (dirs x)) as [ix|] eqn:E; cbn [rbind].
    - destruct (rmapM _ l) as [r|]; cbn [rbind].
      + split; [|eauto]. intros _ y [<-|Hy]; [eauto|]. apply IH; eauto.
      + split; [intros (? & [=])|]. intros H. destruct (proj2 IH) as (r & [=]). intros y Hy. apply H. now right.
    - split; [intros (? & [=])|]. intros H. destruct (H x (or_introl eq_refl)) as (? & ?). congruence. }
  destruct (rmapM _ _) as [r|]; cbn [rbind].
  - split; [|eauto]. intros _ x Hx. apply H; [eauto|]. destruct Hx as [->|(e & He & ->)]; [now left|right; now apply in_map].
  - split; [intros (? & [=])|]. intros Hx. destruct (proj2 H) as (r & [=]). intros x [<-|Hin]; apply Hx; [now left|]. apply in_map_iff in Hin as (e0 & <- & He). right. eauto.
Qed.
Definition complete_mlp (x : string) : Prop := forall i p, (0 <= i < n)%Z -> In p projections -> exists v, in_dir (dirs x) (dense_mlp i p) v.
Lemma complete_mlp_iff x : complete_mlp x <-> mlp_complete disk n x.
Proof. unfold complete_mlp, mlp_complete. split; intros H i p Hi Hp; apply disk_key; now apply H. Qed.
Definition is_bias (nm : string) : Prop := exists i x, (0 <= i < n)%Z /\ In x ["q_proj"; "k_proj"; "v_proj"] /\ nm = layer_name i ("self_attn." ++ x ++ ".bias").
Theorem C95_finishes b routers shared : build F draw ty available m tk c allow = Ok (Go (b, routers, shared)) ->
  (exists sv, moe_run o of_rows dirs cfg d dense draw ty available m tk c allow = Ok (Go (b, sv))) <->
  ((forall x, x = base \/ (exists e, In e experts /\ x = ex_model e) -> exists ix, IO.Model.from_disk (dirs x) = Ok ix) /\
   (forall nm, dense_name (attn_of b) n nm -> nm <> "lm_head.weight" -> b <> Qwen \/ ~ is_bias nm -> exists v, in_dir (dirs base) nm v) /\
   (forall nm, b = Qwen -> is_bias nm -> (exists v, in_dir (dirs base) nm v) \/ num_heads d <> 0%Z) /\
   (forall e, In e experts -> complete_mlp (ex_model e)) /\ (stacks b -> n = 0%Z \/ experts <> []) /\
   (forall s ss, c_shared F c = s :: ss -> (n = 0%Z \/ ex_model s = base \/ exists e, In e experts /\ ex_model s = ex_model e) /\ complete_mlp (ex_model s))).
Proof.
  intros Hb. rewrite <- opened. pose proof Hpos as Hp0.
  assert (Hw : (exists sv, moe_run o of_rows dirs cfg d dense draw ty available m tk c allow = Ok (Go (b, sv))) <->
    (exists u, open_all dirs base experts = Ok u) /\ exists sv, write_model o dirs cfg d dense b c (map of_rows routers) (map of_rows shared) = Ok sv).
  { unfold moe_run. rewrite Hb. cbn [rbind]. destruct (open_all dirs base experts) as [u|]; cbn [rbind]; [|split; [intros (? & [=])|intros ((? & [=]) & _)]].
    destruct (write_model _ _ _ _ _ _ _ _ _) as [sv|]; cbn [rbind]; [split; eauto|split; [intros (? & [=])|intros (_ & ? & [=])]]. }
  rewrite Hw. clear Hw. apply and_iff_compat_l.
  destruct (run_gates_of b routers shared Hb) as (L1 & L2). destruct (run_shared_of b routers shared Hb) as [S1 S2].
  assert (HS : forall x, In x (base :: map (@ex_model F) experts) <-> x = base \/ exists e, In e experts /\ x = ex_model e).
  { intros x. cbn [In]. rewrite in_map_iff. split; intros [H|(e0 & H1 & H2)]; auto; right; exists e0; auto. }
  assert (HE : (forall e, In e experts -> complete_mlp (ex_model e)) <-> (forall e, In e experts -> mlp_complete disk n (ex_model e))).
  { split; intros H e He; apply complete_mlp_iff; now apply H. }
  assert (HB : b <> Qwen -> base_complete disk (attn_of b) n base <->
    (forall nm, dense_name (attn_of b) n nm -> nm <> "lm_head.weight" -> b <> Qwen \/ ~ is_bias nm -> exists v, in_dir (dirs base) nm v)).
  { intros Hq. unfold base_complete. split; intros H nm Hn Hne; [intros _; apply disk_key; now apply H|]. apply disk_key. apply H; auto. }
  unfold write_model. destruct b eqn:Eb.
  - rewrite (C41_mixtral_succeeds o disk cfg n base experts Hc Hp0 (map of_rows routers)). rewrite (S1 (or_introl eq_refl)).
    rewrite map_length, <- HE, (HB ltac:(discriminate)). split; [intros (_ & H1 & H3 & H2); split; [exact H1|]; split; [discriminate|]; split; [exact H2|]; split; [auto|discriminate]|].
    intros (H1 & _ & H2 & H3 & _). split; [lia|]. split; [exact H1|]. split; [apply H3; now left|exact H2].
  - rewrite (C41_deepseek_succeeds_partial o disk cfg n base experts Hc Hp0 dense (hd_error (c_shared F c)) (map of_rows routers) Hdense).
    rewrite <- HE, (HB ltac:(discriminate)). apply and_iff_compat_l.
    assert (HX : (forall s, hd_error (c_shared F c) = Some s -> (n = 0%Z \/ In (ex_model s) (base :: map (@ex_model F) experts)) /\ mlp_complete disk n (ex_model s)) <->
      (forall s ss, c_shared F c = s :: ss -> (n = 0%Z \/ ex_model s = base \/ exists e, In e experts /\ ex_model s = ex_model e) /\ complete_mlp (ex_model s))).
    { destruct (c_shared F c) as [|s ss]; cbn [hd_error]; [split; discriminate|].
      split; [intros H s' ss' [= <- <-]|intros H s' [= <-]]; [specialize (H s eq_refl)|specialize (H s ss eq_refl)]; rewrite <- complete_mlp_iff in *; rewrite HS in *; exact H. }
    rewrite HX. split; [intros [H1 H2]; split; [discriminate|]; split; [exact H1|]; split; [intros [|]; discriminate|exact H2]|tauto].
  - destruct (S2 eq_refl) as (s & Es & _). rewrite Es.
    rewrite (C41_qwen2_succeeds_partial o disk cfg n d base experts s Hc Hp0 (map of_rows routers) (map of_rows shared)), !map_length, HS, <- HE, <- complete_mlp_iff.
    split.
    + intros ((Hq & Hz) & H1 & H2 & H3 & _). split; [|split; [|split; [exact H1|split; [intros [|]; discriminate|intros s' ss' [= <- <-]; auto]]]].
      * intros nm Hn Hne [Hx|Hx]; [congruence|]. apply disk_key. apply Hq; auto. intros i x Hi Hin ->. apply Hx. exists i, x. auto.
      * intros nm _ (i & x & Hi & Hx & ->). destruct (dget (disk base) (bias_name i x)) as [v|] eqn:E; [left; exists v; now apply disk_get|right; eauto].
    + intros (H1 & H2 & H3 & _ & H4). destruct (H4 s [] eq_refl) as [H5 H6]. split; [split|].
      * intros nm Hn Hne Hx. apply disk_key. apply H1; auto. right. intros (i & x & Hi & Hin & ->). now apply (Hx i x).
      * intros i x Hi Hx En. destruct (H2 (bias_name i x) eq_refl) as [(v & Hv)|H]; [exists i, x; auto| |exact H]. apply disk_get in Hv. congruence.
      * repeat (split; [assumption|]). lia.
  - rewrite (C41_qwen3_succeeds o disk cfg n base experts Hc Hp0 (map of_rows routers)). rewrite (S1 (or_intror eq_refl)).
    rewrite <- HE, (HB ltac:(discriminate)). split; [intros (H1 & H3 & H2); split; [exact H1|]; split; [discriminate|]; split; [exact H2|]; split; [auto|discriminate]|].
    intros (H1 & _ & H2 & H3 & _). split; [exact H1|]. split; [apply H3; now right|exact H2].
Qed.
End C95.

(** * A concrete case: two experts for Qwen MoE, the first of them shared as well, random gates *)
Definition ex_dirs (x : string) : IO.Model.fs sym := [("model.safetensors", IO.Model.FShard true (leafs mistral_sfx x))].
Definition ex_rows (rows : list vec) : sym := Leaf "rows" (str_of_Z (Z.of_nat (length rows))).
Definition ex_moe : moe_config Z :=
  {| c_base := "base"; c_experts := [an_expert 0; an_expert 1]; c_gate_mode := "random"; c_per_token := 2; c_shared := [an_expert 0]; c_architecture := None |}.
Definition ex_dims := {| hidden_size := 32; num_heads := 8; num_kv_heads := 2 |}.
Lemma one_file_sound (l : tensors sym) : NoDup (map fst l) -> Stages.sound_dir [("model.safetensors", IO.Model.FShard true l)].
Proof.
  intros Hl ix Ei.
  assert (E : IO.Model.from_disk [("model.safetensors", IO.Model.FShard true l)] = Ok {| IO.Model.ix_paths := map (fun kv => (fst kv, "model.safetensors")) l |}) by reflexivity.
  rewrite E in Ei. injection Ei as <-. clear E.
  assert (Hget : forall k (file : string), dget (map (fun kv : string * sym => (fst kv, "model.safetensors")) l) k = Some file -> file = "model.safetensors" /\ In k (map fst l)).
  { intros k file H. apply dget_In in H. apply in_map_iff in H as (kv & [= <- <-] & Hin). split; [reflexivity|now apply in_map]. }
  split; cbn [IO.Model.ix_paths].
  - intros k file H. destruct (Hget _ _ H) as [-> Hin]. exists l. split; [reflexivity|exact Hin].
  - intros k file dd y H Ho Hx. destruct (Hget _ _ H) as [-> _]. injection Ho as <-. apply dget_In_NoDup.
    + unfold dkeys. rewrite map_map. exact Hl.
    + apply in_map_iff. apply in_map_iff in Hx as (kv & <- & Hin). exists kv. auto.
Qed.
Example C95_nonvacuous draw :
  (forall x, Stages.sound_dir (ex_dirs x)) /\ Z.of_nat (ll_layers ex_llm) = 2%Z /\ get_config_value two_layers "num_hidden_layers" = Ok (CVInt 2) /\
  match moe_run sym_ops ex_rows ex_dirs two_layers ex_dims a_llama_default draw (fun _ => "qwen2") [Mixtral; DeepSeek; Qwen; Qwen3] ex_llm letters ex_moe false with
  | Ok (Go (Qwen, saves)) => length saves = 42%nat /\
      dget saves "model.layers.1.mlp.gate.weight" = Some (Leaf "rows" "2") /\ dget saves "model.layers.1.mlp.shared_expert_gate.weight" = Some (Leaf "rows" "1") /\
      dget saves "model.layers.1.mlp.experts.1.up_proj.weight" = Some (Leaf "m1" "model.layers.1.mlp.up_proj.weight")
  | _ => False
  end.
Proof.
  split; [|split; [reflexivity|split; [reflexivity|vm_compute; auto]]].
  intros x. apply one_file_sound. vm_compute. repeat constructor; cbn [In]; intuition discriminate.
Qed.

Print Assumptions C95_names.
Print Assumptions C95_base.
Print Assumptions C95_aligned.
Print Assumptions C95_shared.
Print Assumptions C95_directory.
Print Assumptions C95_finishes.
