(** Facts about tensor names. *)
From Coq Require Import Sorted.
From Verif.Base Require Import Py PyFacts PyStr.
From Verif.Arch Require Import Model Spec Proofs Data ShippedProofs.
From Verif.Moe Require Import Model Spec.
Local Open Scope string_scope.
Local Open Scope list_scope.

Lemma digit_not c x : is_digit c = true -> is_digit x = false -> c <> x.
Proof. intros H1 H2 ->. congruence. Qed.

Lemma str_nat_head i : (0 <= i)%Z -> exists c s, str_of_Z i = String c s /\ is_digit c = true /\ all_chars is_digit s = true.
Proof.
  intros Hi. pose proof (str_of_Z_digits i Hi) as H. pose proof (str_of_Z_nonempty i) as Hne.
  destruct (str_of_Z i) as [|c s]; [contradiction|]. cbn in H. apply andb_true_iff in H as [Hc Hs]. eauto.
Qed.

(** a match cannot start in a run of characters different from its first one *)
Lemma infix_skip c pat a r : all_chars (fun x => negb (Ascii.eqb x c)) a = true -> infix (String c pat) (a ++ r)%string = infix (String c pat) r.
Proof.
  induction a as [|x a IH]; cbn [all_chars]; intros H; [reflexivity|]. apply andb_true_iff in H as [Hx Ha].
  cbn [append infix]. rewrite IH by auto. cbn [String.prefix]. destruct (ascii_dec c x) as [->|]; [|reflexivity].
  rewrite Ascii.eqb_refl in Hx. discriminate.
Qed.
Lemma digits_avoid c s : is_digit c = false -> all_chars is_digit s = true -> all_chars (fun x => negb (Ascii.eqb x c)) s = true.
Proof.
  intros Hc. induction s as [|x s IH]; cbn; auto. intros H. apply andb_true_iff in H as [Hx Hs]. rewrite IH by auto.
  rewrite andb_true_r. destruct (Ascii.eqb_spec x c) as [->|]; auto. congruence.
Qed.

Lemma prefix_neq c x p s : c <> x -> String.prefix (String c p) (String x s) = false.
Proof. intros H. cbn [String.prefix]. destruct (ascii_dec c x); congruence. Qed.
Lemma infix_step pat x s : String.prefix pat (String x s) = false -> infix pat (String x s) = infix pat s.
Proof. intros H. cbn [infix]. now rewrite H. Qed.

(** the part of a pattern test that happens inside "model.layers.<i>" *)
Lemma infix_layer i s : (0 <= i)%Z -> infix ".mlp." (layer_name i s) = infix ".mlp." ("." ++ s)%string.
Proof.
  intros Hi. destruct (str_nat_head i Hi) as (d & ds & E & Hd & Hds).
  assert (Hm : "m"%char <> d) by (intros <-; discriminate).
  unfold layer_name. rewrite E.
  change ("model.layers." ++ String d ds ++ "." ++ s)%string with ("model" ++ String "." ("layers" ++ String "." (String d ds ++ "." ++ s)))%string.
  rewrite infix_skip by reflexivity. rewrite infix_step by reflexivity. rewrite infix_skip by reflexivity.
  rewrite infix_step by (apply (prefix_neq "m" d "lp." (ds ++ "." ++ s)%string Hm)).
  apply infix_skip. apply digits_avoid; auto. cbn. now rewrite Hd.
Qed.
Lemma infix_down i s : (0 <= i)%Z -> infix "down_proj" (layer_name i s) = infix "down_proj" s.
Proof.
  intros Hi. unfold layer_name.
  change ("model.layers." ++ str_of_Z i ++ "." ++ s)%string with ("mo" ++ String "d" ("el.layers." ++ str_of_Z i ++ "." ++ s))%string.
  rewrite infix_skip by reflexivity. rewrite infix_step by reflexivity. rewrite infix_skip by reflexivity.
  rewrite infix_skip by (apply digits_avoid; auto using str_of_Z_digits). now rewrite infix_skip by reflexivity.
Qed.

(** [replace] passes over characters where no match starts *)
Lemma replace_skip c pat new a r f : all_chars (fun x => negb (Ascii.eqb x c)) a = true ->
  replace_fuel (String.length a + f) (String c pat) new (a ++ r)%string = (a ++ replace_fuel f (String c pat) new r)%string.
Proof.
  induction a as [|x a IH]; cbn [all_chars]; intros H; [reflexivity|]. apply andb_true_iff in H as [Hx Ha].
  cbn [append String.length Nat.add replace_fuel]. cbn [String.prefix]. destruct (ascii_dec c x) as [->|].
  - rewrite Ascii.eqb_refl in Hx. discriminate.
  - now rewrite IH.
Qed.
Lemma replace_step pat new x s f : String.prefix pat (String x s) = false ->
  replace_fuel (S f) pat new (String x s) = String x (replace_fuel f pat new s).
Proof. intros H. cbn [replace_fuel]. now rewrite H. Qed.
Lemma replace_layer i s new : (0 <= i)%Z ->
  replace ".mlp." new (layer_name i s) = ("model.layers." ++ str_of_Z i ++ replace ".mlp." new ("." ++ s))%string.
Proof.
  intros Hi. unfold layer_name, replace. destruct (str_nat_head i Hi) as (d & ds & E & Hd & Hds). rewrite E.
  assert (Hm : "m"%char <> d) by (intros <-; discriminate).
  change ("model.layers." ++ String d ds ++ "." ++ s)%string with ("model" ++ String "." ("layers" ++ String "." (String d ds ++ "." ++ s)))%string.
  rewrite len_app. rewrite replace_skip by reflexivity. cbn [String.length]. rewrite replace_step by reflexivity.
  rewrite len_app. rewrite replace_skip by reflexivity. cbn [String.length].
  rewrite replace_step by (apply (prefix_neq "m" d "lp." (ds ++ "." ++ s)%string Hm)).
  rewrite len_app. rewrite replace_skip; [reflexivity|]. apply digits_avoid; auto. cbn. now rewrite Hd.
Qed.

Lemma layer_name_inj i j x y : (0 <= i)%Z -> (0 <= j)%Z -> layer_name i x = layer_name j y -> i = j /\ x = y.
Proof.
  intros Hi Hj H. unfold layer_name in H. apply app_str_inj_l in H. apply str_index_inj in H; auto; [|cbn; auto..].
  destruct H as [-> H]. split; auto. now injection H.
Qed.

(** ** Splitting at dots *)
Lemma split_on_app c a b : all_chars (fun x => negb (Ascii.eqb x c)) a = true ->
  split_on c (a ++ String c b)%string = a :: split_on c b.
Proof.
  induction a as [|x a IH]; cbn; intros H.
  - now rewrite Ascii.eqb_refl.
  - apply andb_true_iff in H as [Hx Ha]. apply negb_true_iff in Hx. now rewrite Hx, IH.
Qed.
Lemma split_layer i s : (0 <= i)%Z -> split_on "."%char (layer_name i s) = "model" :: "layers" :: str_of_Z i :: split_on "."%char s.
Proof.
  intros Hi. unfold layer_name.
  change ("model.layers." ++ str_of_Z i ++ "." ++ s)%string with ("model" ++ String "." ("layers" ++ String "." (str_of_Z i ++ String "." s)))%string.
  rewrite !split_on_app; auto. apply digits_avoid; auto using str_of_Z_digits.
Qed.
Lemma split_slot i k q : (0 <= i)%Z -> all_chars (fun x => negb (Ascii.eqb x ".")) q = true ->
  split_on "."%char (expert_slot i k q) = ["model"; "layers"; str_of_Z i; "mlp"; "experts"; str_of_Z (Z.of_nat k); q; "weight"].
Proof.
  intros Hi Hq. unfold expert_slot. rewrite split_layer by auto.
  change ("mlp.experts." ++ str_of_Z (Z.of_nat k) ++ "." ++ q ++ ".weight")%string
    with ("mlp" ++ String "." ("experts" ++ String "." (str_of_Z (Z.of_nat k) ++ String "." (q ++ String "." "weight"))))%string.
  rewrite !split_on_app; auto. apply digits_avoid; auto. apply str_of_Z_digits. lia.
Qed.

Lemma expert_slot_inj i j k l q r : (0 <= i)%Z -> (0 <= j)%Z ->
  all_chars (fun x => negb (Ascii.eqb x ".")) q = true -> all_chars (fun x => negb (Ascii.eqb x ".")) r = true ->
  expert_slot i k q = expert_slot j l r -> i = j /\ k = l /\ q = r.
Proof.
  intros Hi Hj Hq Hr H. apply (f_equal (split_on "."%char)) in H. rewrite !split_slot in H by auto.
  injection H as H1 H2 H3. apply str_of_Z_inj in H1, H2. lia || auto. split; auto. split; auto. lia.
Qed.

(** the two ways of writing the same name *)
Lemma mlp_source_layer i p : mlp_source i p = dense_mlp i p.
Proof. unfold mlp_source, layer_prefix, dense_mlp, layer_name. rewrite !app_str_assoc. reflexivity. Qed.
Lemma expert_name_slot i k q : expert_name i (Z.of_nat k) q = expert_slot i k q.
Proof. unfold expert_name, layer_prefix, expert_slot, layer_name. rewrite !app_str_assoc. reflexivity. Qed.
Lemma router_layer i : router_name i = layer_name i "mlp.gate.weight".
Proof. unfold router_name, layer_prefix, layer_name. rewrite !app_str_assoc. reflexivity. Qed.
Lemma shared_gate_layer i : shared_gate_name i = layer_name i "mlp.shared_expert_gate.weight".
Proof. unfold shared_gate_name, layer_prefix, layer_name. rewrite !app_str_assoc. reflexivity. Qed.
Lemma fused_layer i s : (layer_prefix i ++ ".experts." ++ s)%string = layer_name i ("mlp.experts." ++ s).
Proof. unfold layer_prefix, layer_name. rewrite !app_str_assoc. reflexivity. Qed.

(** ** The weights of the dense architectures *)
Definition plain_weight (nm : string) : weight_info := w nm false false None None None.
Definition head_weight : weight_info := w "lm_head.weight" true true None None (Some ["model.embed_tokens.weight"]).
Definition embed_weight : weight_info := w "model.embed_tokens.weight" true false None None None.
Definition dense_weights (sfx : list string) (n : Z) : list weight_info :=
  embed_weight :: flat_map (fun i => map (fun s => plain_weight (layer_name i s)) sfx) (layer_range n)
    ++ [plain_weight "model.norm.weight"; head_weight].

Lemma layer_subst i n s : all_chars plain s = true ->
  template_substitution ("model.layers.${layer_index}." ++ s)%string n (Some i) = Ok (layer_name i s).
Proof.
  intros Hs. pose proof (substitution_meaning [Text "model.layers."; LayerIndex Zero; Text ("." ++ s)%string] n i) as H.
  unfold template, name_at in H. cbn [map written meaning cat fold_right shift_syntax shift_by] in H.
  rewrite !app_str_nil_r in H. apply H. repeat constructor; cbn; auto.
Qed.

Lemma rmapM_ok {A B} (f : A -> result B) (g : A -> B) l : (forall x, In x l -> f x = Ok (g x)) -> rmapM f l = Ok (map g l).
Proof.
  induction l as [|x l IH]; cbn; intros H; auto. rewrite H by auto. cbn. rewrite IH by auto. reflexivity.
Qed.

Definition dense_arch (a : json_arch) (sfx : list string) : Prop :=
  ja_pre a = [embed_weight] /\
  ja_layer a = map (fun s => plain_weight ("model.layers.${layer_index}." ++ s)%string) sfx /\
  ja_post a = [plain_weight "model.norm.weight"; head_weight] /\
  ja_key a = Some "num_hidden_layers" /\ ja_override a = None /\
  forallb (all_chars plain) sfx = true.

Lemma dense_arch_num a sfx c n : dense_arch a sfx -> get_config_value c "num_hidden_layers" = Ok (CVInt n) -> ja_num a c = Ok n.
Proof. intros (_ & _ & _ & Hk & Ho & _) Hc. unfold ja_num. rewrite Ho, Hk, Hc. reflexivity. Qed.

Lemma dense_arch_weights a sfx c n : dense_arch a sfx -> get_config_value c "num_hidden_layers" = Ok (CVInt n) ->
  all_weights (json_module a) c = Ok (dense_weights sfx n).
Proof.
  intros Ha Hc. pose proof (dense_arch_num _ _ _ _ Ha Hc) as Hn. destruct Ha as (Hp & Hl & Ho & _ & _ & Hs).
  unfold all_weights. cbn [json_module ma_num ma_pre ma_layer ma_post]. rewrite Hn. cbn [rbind]. rewrite Hp, Hl, Ho.
  assert (Epre : rmapM (substitute a c None) [embed_weight] = Ok [embed_weight]).
  { cbn [rmapM]. unfold substitute. rewrite Hn. reflexivity. }
  assert (Epost : rmapM (substitute a c None) [plain_weight "model.norm.weight"; head_weight] = Ok [plain_weight "model.norm.weight"; head_weight]).
  { cbn [rmapM]. unfold substitute. rewrite Hn. reflexivity. }
  rewrite Epre, Epost. cbn [rbind].
  rewrite (rmapM_ok _ (fun i => map (fun s => plain_weight (layer_name i s)) sfx)).
  - cbn [rbind]. unfold dense_weights. rewrite flat_map_concat_map. reflexivity.
  - intros i _. rewrite <- (map_map (fun s => "model.layers.${layer_index}." ++ s)%string plain_weight).
    rewrite map_map.
    assert (Hx : forall x, In x (map (fun s => plain_weight ("model.layers.${layer_index}." ++ s)%string) sfx) -> True) by auto.
    clear Hx. rewrite forallb_forall in Hs.
    assert (G : forall l, (forall s, In s l -> In s sfx) -> rmapM (substitute a c (Some i)) (map (fun s => plain_weight ("model.layers.${layer_index}." ++ s)%string) l)
              = Ok (map (fun s => plain_weight (layer_name i s)) l)).
    { induction l as [|s l IH]; intros Hl'; [reflexivity|]. cbn [map rmapM]. unfold substitute at 1. rewrite Hn. cbn [rbind].
      cbn [plain_weight w wi_name wi_embed wi_optional wi_aliases wi_dtype wi_tied]. rewrite layer_subst by (apply Hs, Hl'; now left).
      cbn [rbind subst_names subst_opt]. rewrite IH by (intros; apply Hl'; now right). reflexivity. }
    apply G. auto.
Qed.

Definition mistral_sfx : list string :=
  ["input_layernorm.weight"; "self_attn.q_proj.weight"; "self_attn.k_proj.weight"; "self_attn.v_proj.weight";
   "self_attn.o_proj.weight"; "post_attention_layernorm.weight"; "mlp.up_proj.weight"; "mlp.gate_proj.weight"; "mlp.down_proj.weight"].
Definition qwen2_sfx : list string :=
  ["input_layernorm.weight"; "mlp.down_proj.weight"; "mlp.gate_proj.weight"; "mlp.up_proj.weight";
   "post_attention_layernorm.weight"; "self_attn.k_proj.bias"; "self_attn.k_proj.weight"; "self_attn.o_proj.weight";
   "self_attn.q_proj.bias"; "self_attn.q_proj.weight"; "self_attn.v_proj.bias"; "self_attn.v_proj.weight"].
Definition qwen3_sfx : list string :=
  ["input_layernorm.weight"; "mlp.down_proj.weight"; "mlp.gate_proj.weight"; "mlp.up_proj.weight";
   "post_attention_layernorm.weight"; "self_attn.k_norm.weight"; "self_attn.k_proj.weight"; "self_attn.q_norm.weight";
   "self_attn.q_proj.weight"; "self_attn.v_proj.weight"; "self_attn.o_proj.weight"].
Lemma mistral_dense : dense_arch a_mistral_default mistral_sfx. Proof. repeat split; reflexivity. Qed.
Lemma llama_dense : dense_arch a_llama_default mistral_sfx. Proof. repeat split; reflexivity. Qed.
Lemma qwen2_dense : dense_arch a_qwen2_default qwen2_sfx. Proof. repeat split; reflexivity. Qed.
Lemma qwen3_dense : dense_arch a_qwen3_default qwen3_sfx. Proof. repeat split; reflexivity. Qed.

(** what is checked of a list of per-layer names: the MLP ones are the three projections, the others [attn] *)
Definition mlp_suffix (p : string) : string := ("mlp." ++ p ++ ".weight")%string.
Record sfx_ok (sfx attn : list string) : Prop := {
  sk_split : forall s, In s sfx -> (infix ".mlp." ("." ++ s)%string = true /\ exists p, In p projections /\ s = mlp_suffix p)
                               \/ (infix ".mlp." ("." ++ s)%string = false /\ In s attn);
  sk_mlp : forall p, In p projections -> In (mlp_suffix p) sfx;
  sk_attn : forall s, In s attn -> In s sfx /\ infix ".mlp." ("." ++ s)%string = false;
  sk_nodup : NoDup sfx }.

Definition sfx_check (sfx attn : list string) : bool :=
  forallb (fun s => if infix ".mlp." ("." ++ s)%string then mem s (map mlp_suffix projections) else mem s attn) sfx &&
  forallb (fun p => mem (mlp_suffix p) sfx) projections &&
  forallb (fun s => mem s sfx && negb (infix ".mlp." ("." ++ s)%string)) attn &&
  Nat.eqb (List.length (dedup sfx)) (List.length sfx).
Lemma dedup_acc_len {A} `{Eqb A} (l acc : list A) : (List.length (dedup_acc acc l) <= List.length acc + List.length l)%nat.
Proof.
  revert acc; induction l as [|x l IH]; intros acc; cbn; [lia|]. etransitivity; [apply IH|].
  unfold set_add. destruct (mem x acc); [lia|]. rewrite app_length; cbn; lia.
Qed.
Lemma NoDup_of_dedup {A} `{Eqb A} (l : list A) : List.length (dedup l) = List.length l -> NoDup l.
Proof.
  intros Hl. apply NoDup_incl_NoDup with (l := dedup l); [apply dedup_NoDup|lia|]. intros x Hx. now apply (proj1 (dedup_In _ _)) in Hx.
Qed.
Lemma sfx_check_ok sfx attn : sfx_check sfx attn = true -> sfx_ok sfx attn.
Proof.
  unfold sfx_check. rewrite !andb_true_iff, !forallb_forall. intros (((H1 & H2) & H3) & H4). apply Nat.eqb_eq in H4. constructor.
  - intros s Hs. specialize (H1 s Hs). destruct (infix ".mlp." ("." ++ s)%string) eqn:E; [left|right]; split; auto; apply mem_In in H1; auto.
    apply in_map_iff in H1 as (p & <- & Hp). eauto.
  - intros p Hp. now apply mem_In, H2.
  - intros s Hs. specialize (H3 s Hs). apply andb_true_iff in H3 as [H3 H5]. apply mem_In in H3. apply negb_true_iff in H5. auto.
  - now apply NoDup_of_dedup.
Qed.
Lemma mistral_ok : sfx_ok mistral_sfx mistral_attn. Proof. apply sfx_check_ok. vm_compute. reflexivity. Qed.
Lemma qwen2_ok : sfx_ok qwen2_sfx qwen2_attn. Proof. apply sfx_check_ok. vm_compute. reflexivity. Qed.
Lemma qwen3_ok : sfx_ok qwen3_sfx qwen3_attn. Proof. apply sfx_check_ok. vm_compute. reflexivity. Qed.

Lemma top_not_layer i s nm : In nm ["model.embed_tokens.weight"; "model.norm.weight"; "lm_head.weight"] -> layer_name i s <> nm.
Proof. intros [<-|[<-|[<-|[]]]]; unfold layer_name; cbn; discriminate. Qed.

Lemma dense_weights_In sfx attn n x : sfx_ok sfx attn ->
  In x (dense_weights sfx n) <->
  (x = embed_weight \/ x = plain_weight "model.norm.weight" \/ x = head_weight \/
   exists i s, (0 <= i < n)%Z /\ In s sfx /\ x = plain_weight (layer_name i s)).
Proof.
  intros _. unfold dense_weights. cbn [In]. rewrite in_app_iff, in_flat_map. cbn [In]. split.
  - intros [<-|[(i & Hi & Hx)|[<-|[<-|[]]]]]; auto. apply in_map_iff in Hx as (s & <- & Hs). apply layer_range_In in Hi.
    right; right; right. eauto.
  - intros [->|[->|[->|(i & s & Hi & Hs & ->)]]]; auto. right. left. exists i. split; [now apply layer_range_In|]. exact (in_map (fun s => plain_weight (layer_name i s)) _ _ Hs).
Qed.

Lemma dense_weights_NoDup sfx attn n : sfx_ok sfx attn -> NoDup (map wi_name (dense_weights sfx n)).
Proof.
  intros Hk. unfold dense_weights. cbn [map]. rewrite map_app. cbn [map plain_weight head_weight embed_weight w wi_name].
  assert (Hin : forall x, In x (map wi_name (flat_map (fun i => map (fun s => plain_weight (layer_name i s)) sfx) (layer_range n))) ->
                exists i s, x = layer_name i s).
  { intros x Hx. apply in_map_iff in Hx as (y & <- & Hy). apply in_flat_map in Hy as (i & _ & Hy). apply in_map_iff in Hy as (s & <- & _). cbn. eauto. }
  constructor.
  - rewrite in_app_iff. intros [H|[H|[H|[]]]]; try discriminate. apply Hin in H as (i & s & H). symmetry in H. revert H. apply top_not_layer. cbn; auto.
  - apply NoDup_app_intro.
    + rewrite flat_map_concat_map, concat_map, map_map. apply NoDup_concat_map.
      * apply layer_range_NoDup.
      * intros i Hi. rewrite map_map. cbn. apply layer_range_In in Hi. apply FinFun.Injective_map_NoDup; [|apply (sk_nodup _ _ Hk)].
        intros s t Hst. apply layer_name_inj in Hst; tauto || lia.
      * intros i j y Hi Hj Hne Hy Hy'. apply layer_range_In in Hi, Hj. rewrite map_map in Hy, Hy'. cbn in Hy, Hy'.
        apply in_map_iff in Hy as (s & <- & _). apply in_map_iff in Hy' as (t & Hst & _). apply layer_name_inj in Hst; lia.
    + repeat constructor; cbn; intuition discriminate.
    + intros x Hx Hx'. apply Hin in Hx as (i & s & ->). cbn in Hx'. destruct Hx' as [H|[H|[]]]; symmetry in H; revert H; apply top_not_layer; cbn; auto.
Qed.

(** ** Natural order *)
Lemma natural_text text lit rest : all_chars (fun c => negb (is_digit c)) lit = true ->
  natural_key_from text None (lit ++ rest)%string = natural_key_from (text ++ lit)%string None rest.
Proof.
  revert text; induction lit as [|c lit IH]; intros text; cbn [all_chars append]; intros H; [now rewrite app_str_nil_r|].
  apply andb_true_iff in H as [Hc Hl]. apply negb_true_iff in Hc. cbn [natural_key_from]. rewrite Hc, IH by auto.
  rewrite app_str_assoc. reflexivity.
Qed.
Lemma natural_digits text acc ds rest : all_chars is_digit ds = true ->
  natural_key_from text (Some acc) (ds ++ rest)%string = natural_key_from text (Some (digits_value acc ds)) rest.
Proof.
  revert acc; induction ds as [|c ds IH]; intros acc; cbn [all_chars append]; intros H; [reflexivity|].
  apply andb_true_iff in H as [Hc Hl]. cbn [natural_key_from]. rewrite Hc, IH by auto. reflexivity.
Qed.
Lemma natural_number text lit z rest : (0 <= z)%Z -> all_chars (fun c => negb (is_digit c)) lit = true ->
  match rest with "" => False | String c _ => is_digit c = false end ->
  natural_key_from text None (lit ++ str_of_Z z ++ rest)%string = ((text ++ lit)%string, Some z) :: natural_key_from "" None rest.
Proof.
  intros Hz Hl Hr. rewrite natural_text by auto. pose proof (digits_value_str z Hz) as Hv.
  destruct (str_nat_head z Hz) as (d & ds & E & Hd & Hds). rewrite E in *. cbn [append natural_key_from]. rewrite Hd, natural_digits by auto.
  cbn [digits_value] in Hv. change (0 * 10 + (Z.of_nat (nat_of_ascii d) - 48))%Z with (Z.of_nat (nat_of_ascii d) - 48)%Z.
  change (0 * 10 + (Z.of_nat (nat_of_ascii d) - 48))%Z with (Z.of_nat (nat_of_ascii d) - 48)%Z in Hv. rewrite Hv.
  destruct rest as [|c rest]; [contradiction|]. cbn [natural_key_from]. rewrite Hr. reflexivity.
Qed.
Lemma natural_slot i k q : (0 <= i)%Z ->
  natural_key (expert_slot i k q) =
  [("model.layers.", Some i); (".mlp.experts.", Some (Z.of_nat k))] ++ natural_key ("." ++ q ++ ".weight")%string.
Proof.
  intros Hi. unfold natural_key, expert_slot, layer_name. rewrite natural_number by (auto; cbn; auto).
  change ("." ++ "mlp.experts." ++ str_of_Z (Z.of_nat k) ++ "." ++ q ++ ".weight")%string
    with (".mlp.experts." ++ str_of_Z (Z.of_nat k) ++ "." ++ q ++ ".weight")%string.
  rewrite natural_number by (auto; try lia; cbn; auto). reflexivity.
Qed.

Lemma slot_le_same i k q r : (0 <= i)%Z -> name_le ("." ++ q ++ ".weight")%string ("." ++ r ++ ".weight")%string = true ->
  name_le (expert_slot i k q) (expert_slot i k r) = true.
Proof.
  intros Hi H. unfold name_le in *. rewrite !natural_slot by auto. cbn [app key_le]. cbn. rewrite !Z.eqb_refl. exact H.
Qed.
Lemma slot_le_next i k l q r : (0 <= i)%Z -> (k < l)%nat -> name_le (expert_slot i k q) (expert_slot i l r) = true.
Proof.
  intros Hi H. unfold name_le in *. rewrite !natural_slot by auto. cbn [app key_le]. cbn. rewrite !Z.eqb_refl.
  destruct (Z.eqb_spec (Z.of_nat k) (Z.of_nat l)); [lia|]. apply Z.leb_le. lia.
Qed.

Lemma sort_sorted l : Sorted (fun x y => name_le x y = true) l -> sort_names l = l.
Proof.
  induction l as [|x l IH]; intros H; [reflexivity|]. inversion H as [|? ? Hs Hh]; subst. cbn. fold (sort_names l). rewrite IH by auto.
  destruct l as [|y l]; [reflexivity|]. inversion Hh; subst. cbn. match goal with E : name_le x y = true |- _ => now rewrite E end.
Qed.
