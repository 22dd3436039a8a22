(** C70: accepting a MoE configuration, choosing its architecture and computing its routers. *)
From Coq Require Import Reals Lra Lia.
From Verif.Base Require Import Py PyFacts.
From Verif.Moe Require Import Model Gates PropsQwen.
Local Open Scope string_scope.
Local Open Scope list_scope.
Local Open Scope R_scope.

(** ** Specification *)
(** [v] is [raw] scaled to length one; a vector too short for that is scaled by 10^8 *)
Definition scaled (raw v : vec) : Prop :=
  (/ 100000000 <= vnorm raw /\ vnorm v = 1 /\ exists c, 0 < c /\ v = map (fun x => c * x) raw) \/
  (vnorm raw < / 100000000 /\ v = map (fun x => 100000000 * x) raw).
(** sum of the [i]-th coordinates *)
Definition total (vs : list vec) (i : nat) : R := fold_right (fun v s => nth i v 0 + s) 0 vs.
(** the tokens of a prompt, which starts with the bos token if there is one *)
Definition prompt_tokens (tk : tokenizer) (p : string) : list Z :=
  match tk_bos tk with Some b => tk_encode tk (b ++ p)%string | None => tk_encode tk p end.
Lemma row_of_tokens tk p : row_of tk p = prompt_tokens tk p.
Proof. unfold row_of, prompt_tokens. now destruct (tk_bos tk). Qed.
(** [raw] is the sum of the embeddings of all tokens of all prompts *)
Definition token_sum (m : llm) (tk : tokenizer) (prompts : list string) (raw : vec) : Prop :=
  length raw = ll_hidden m /\
  forall i, (i < ll_hidden m)%nat ->
    nth i raw 0 = total (map (fun t => nth (Z.to_nat t) (ll_embed m) []) (flat_map (prompt_tokens tk) prompts)) i.
(** a language model in which states do not depend on masked positions to their left *)
Definition unmasked (toks : list Z) : list (Z * bool) := map (fun t => (t, true)) toks.
Definition causal (m : llm) : Prop :=
  forall pad k toks l, (l < ll_layers m)%nat -> exists junk st : list vec,
    length junk = k /\ length st = length toks /\ Forall (fun v : vec => length v = ll_hidden m) (junk ++ st) /\
    nth_error (ll_forward m (unmasked toks)) l = Some st /\
    nth_error (ll_forward m (repeat (pad, false) k ++ unmasked toks)) l = Some (junk ++ st).
(** the state of the last token of a prompt, computed without padding *)
Definition last_state (m : llm) (tk : tokenizer) (l : nat) (p : string) (v : vec) : Prop :=
  exists before, nth_error (ll_forward m (unmasked (prompt_tokens tk p))) l = Some (before ++ [v]).
Definition mean_last (m : llm) (tk : tokenizer) (l : nat) (prompts : list string) (raw : vec) : Prop :=
  exists vs, Forall2 (last_state m tk l) prompts vs /\ length raw = ll_hidden m /\
  forall i, (i < ll_hidden m)%nat -> nth i raw 0 = total vs i / INR (length prompts).
(** entry of a tensor (layer x expert x hidden) *)
Definition entry (gates : list (list vec)) (l k : nat) (v : vec) : Prop :=
  exists row, nth_error gates l = Some row /\ nth_error row k = Some v.
Definition shape_is (gates : list (list vec)) (layers experts : nat) : Prop :=
  length gates = layers /\ Forall (fun row => length row = experts) gates.
(** all models are of one of the allowed types *)
Definition same_type (allowed types : list string) : Prop := exists t, In t allowed /\ forall u, In u types -> u = t.
Definition types_of {F} (ty : string -> string) (c : moe_config F) : list string :=
  map ty (c_base F c :: map (@ex_model F) (c_experts F c) ++ map (@ex_model F) (c_shared F c)).

(** ** Vectors *)
Lemma vnorm_pos a : 0 <= vnorm a. Proof. apply sqrt_pos. Qed.
Lemma sumsq_pos a : 0 <= fold_right (fun x s => x * x + s) 0 a.
Proof. induction a as [|x a IH]; cbn; [lra|]. pose proof (Rle_0_sqr x) as H. unfold Rsqr in H. lra. Qed.
Lemma vnorm_scale c a : 0 <= c -> vnorm (map (fun x => c * x) a) = c * vnorm a.
Proof.
  intros Hc. unfold vnorm. assert (E : fold_right (fun x s => x * x + s) 0 (map (fun x => c * x) a) = (c * c) * fold_right (fun x s => x * x + s) 0 a).
  { induction a as [|x a IH]; cbn [map fold_right]; [lra|]. rewrite IH. ring. }
  rewrite E, sqrt_mult; [|nra|apply sumsq_pos]. f_equal. apply sqrt_square. exact Hc.
Qed.
Lemma vdiv_scale a c : vdiv a c = map (fun x => / c * x) a.
Proof. unfold vdiv. apply map_ext. intros x. unfold Rdiv. ring. Qed.
Lemma scaled_normalised raw : scaled raw (normalised raw).
Proof.
  unfold scaled, normalised. rewrite vdiv_scale. assert (H8 : 0 < / 100000000) by lra.
  destruct (Rle_lt_dec (/ 100000000) (vnorm raw)) as [H|H].
  - left. rewrite Rmax_left by lra. assert (Hp : 0 < vnorm raw) by lra. split; [exact H|]. split.
    + rewrite vnorm_scale by (left; now apply Rinv_0_lt_compat). apply Rinv_l. lra.
    + exists (/ vnorm raw). split; [now apply Rinv_0_lt_compat|reflexivity].
  - right. rewrite Rmax_right by lra. split; [exact H|]. apply map_ext. intros x. lra.
Qed.
Lemma length_vadd a b : length a = length b -> length (vadd a b) = length a.
Proof. revert b. induction a as [|x a IH]; intros [|y b] H; cbn in *; try lia. now rewrite IH by lia. Qed.
Lemma nth_vadd a : forall b i, length a = length b -> nth i (vadd a b) 0 = nth i a 0 + nth i b 0.
Proof.
  induction a as [|x a IH]; intros [|y b] i H; cbn in *; try lia; [destruct i; lra|]. destruct i; [reflexivity|]. now rewrite IH by lia.
Qed.
Lemma vsum_spec h vs : Forall (fun v : vec => length v = h) vs -> length (vsum h vs) = h /\ forall i, (i < h)%nat -> nth i (vsum h vs) 0 = total vs i.
Proof.
  unfold vsum, total, vzero. induction 1 as [|v vs Hv Hvs [IHl IHn]]; cbn [fold_right].
  - split; [apply repeat_length|]. intros i Hi. now rewrite nth_repeat.
  - split; [rewrite length_vadd; lia|]. intros i Hi. rewrite nth_vadd by lia. now rewrite IHn.
Qed.
Lemma nth_vdiv a c i : (i < length a)%nat -> nth i (vdiv a c) 0 = nth i a 0 / c.
Proof. intros H. unfold vdiv. rewrite nth_indep with (d' := (fun x => x / c) 0) by (now rewrite map_length). apply (map_nth (fun x => x / c)). Qed.
Lemma total_app a b i : total (a ++ b) i = total a i + total b i.
Proof. unfold total. induction a as [|v a IH]; cbn; [lra|]. rewrite IH. lra. Qed.
Lemma map_seq_nth {A} (f : nat -> A) n i : (i < n)%nat -> nth_error (map f (seq 0 n)) i = Some (f i).
Proof. intros H. rewrite nth_error_map, (nth_error_nth' _ 0%nat) by (now rewrite seq_length). cbn. now rewrite seq_nth. Qed.

(** ** Rows of the result *)
Lemma nthE_ok {A} (l : list A) i x : nthE l i = Ok x <-> nth_error l i = Some x.
Proof. unfold nthE. destruct (nth_error l i); split; congruence. Qed.
Lemma rmapM_seq {B} (f : nat -> result B) n ys : rmapM f (seq 0 n) = Ok ys -> length ys = n /\ forall i, (i < n)%nat -> exists y, nth_error ys i = Some y /\ f i = Ok y.
Proof.
  intros H. apply rmapM_Ok_Forall2 in H. split; [rewrite <- (Forall2_len _ _ _ H); apply seq_length|]. intros i Hi.
  apply (Forall2_nth_l _ _ _ i i H). rewrite (nth_error_nth' _ 0%nat) by (now rewrite seq_length). now rewrite seq_nth.
Qed.
(** the tensor is put together from the vectors of the experts *)
Lemma gates_of {F} (f : expert F -> result (list vec)) layers experts gates :
  (let! vs := rmapM f experts in stack_permute layers vs) = Ok gates ->
  shape_is gates layers (length experts) /\
  forall k e, nth_error experts k = Some e -> exists vs, f e = Ok vs /\ forall l, (l < layers)%nat -> exists v, nth_error vs l = Some v /\ entry gates l k v.
Proof.
  intros H. destruct (rmapM f experts) as [vss|] eqn:E; [|discriminate]. cbn [rbind] in H. apply rmapM_Ok_Forall2 in E.
  pose proof (Forall2_len _ _ _ E) as Hl. assert (H' : rmapM (fun l => rmapM (fun v => nthE v l) vss) (seq 0 layers) = Ok gates) by (unfold stack_permute in H; destruct vss; [discriminate|exact H]).
  clear H. apply rmapM_seq in H' as (Hlen & Hrow). split; [split; [exact Hlen|]|].
  - apply Forall_forall. intros row Hin. apply In_nth_error in Hin as (i & Hi). assert (Hlt : (i < layers)%nat) by (rewrite <- Hlen; apply nth_error_Some; congruence).
    destruct (Hrow i Hlt) as (y & Hy & Hr). rewrite Hi in Hy. injection Hy as <-. apply rmapM_Ok_Forall2 in Hr. rewrite <- (Forall2_len _ _ _ Hr). lia.
  - intros k e Hk. destruct (Forall2_nth_l _ _ _ _ _ E Hk) as (vs & Hvs & Hf). exists vs. split; [exact Hf|]. intros l Hlt.
    destruct (Hrow l Hlt) as (row & Hr & Hm). apply rmapM_Ok_Forall2 in Hm. destruct (Forall2_nth_l _ _ _ _ _ Hm Hvs) as (v & Hv & Hn).
    exists v. split; [now apply nthE_ok|]. exists row. auto.
Qed.
(** the vectors of one expert *)
Lemma expert_vecs_spec {F} do_it tk (e : expert F) vs l v : expert_vecs F do_it tk e = Ok vs -> nth_error vs l = Some v ->
  (forall b x, do_it b = Ok x -> exists n, length x = n) ->
  exists pos p, (let! b := tokenize_prompts tk (ex_positive e) in do_it b) = Ok pos /\ nth_error pos l = Some p /\
  (ex_negative e = [] /\ scaled p v \/
   ex_negative e <> [] /\ exists neg n, (let! b := tokenize_prompts tk (ex_negative e) in do_it b) = Ok neg /\ nth_error neg l = Some n /\ scaled (vsub p n) v).
Proof.
  intros H Hv _. unfold expert_vecs in H. destruct (tokenize_prompts tk (ex_positive e)) as [b|]; [|discriminate]. cbn [rbind] in *.
  destruct (do_it b) as [pos|]; [|discriminate]. cbn [rbind] in *. exists pos.
  destruct (ex_negative e) as [|s ns] eqn:En.
  - injection H as <-. rewrite nth_error_map in Hv. destruct (nth_error pos l) as [p|]; [|discriminate]. injection Hv as <-. exists p. split; [reflexivity|]. split; [reflexivity|].
    left. split; [reflexivity|apply scaled_normalised].
  - destruct (tokenize_prompts tk (s :: ns)) as [b'|]; [|discriminate]. cbn [rbind] in *. destruct (do_it b') as [neg|]; [|discriminate]. cbn [rbind] in *.
    injection H as <-. rewrite !nth_error_map in Hv. destruct (nth_error (combine pos neg) l) as [[p n]|] eqn:Ec; [|discriminate]. injection Hv as <-. cbn [fst snd].
    assert (Hc : nth_error pos l = Some p /\ nth_error neg l = Some n).
    { clear -Ec. revert neg l Ec. induction pos as [|x pos IH]; intros [|y neg] [|l] Ec; try discriminate; cbn in *; [now injection Ec as <- <-|now apply IH]. }
    exists p. split; [reflexivity|]. split; [apply Hc|]. right. split; [discriminate|]. exists neg, n. split; [reflexivity|]. split; [apply Hc|apply scaled_normalised].
Qed.

(** ** The configuration *)
Theorem C70_accepted {F} k (experts : list (expert F)) mode allow :
  (exists b, is_bad_config k experts mode allow = Ok b) /\
  (is_bad_config k experts mode allow = Ok false <->
   (1 <= k <= Z.of_nat (length experts))%Z /\
   (mode = "random" \/
    (forall e, In e experts -> ex_positive e <> []) /\
    (exists e e', In e experts /\ In e' experts /\ (ex_positive e, ex_negative e) <> (ex_positive e', ex_negative e')) /\
    (allow = true \/ exists e e', In e experts /\ In e' experts /\ ex_model e <> ex_model e'))).
Proof.
  assert (Hpe : forall a b : list string * list string, prompts_eqb a b = true <-> a = b).
  { assert (L : forall x y, (fix leq (x y : list string) := match x, y with [], [] => true | a :: x, b :: y => String.eqb a b && leq x y | _, _ => false end) x y = true <-> x = y).
    { induction x as [|a x IH]; intros [|b y]; cbn; try (split; congruence). rewrite Bool.andb_true_iff, IH, String.eqb_eq. split; [intros (-> & ->); reflexivity|intros [= -> ->]; auto]. }
    intros [a1 a2] [b1 b2]. unfold prompts_eqb. cbn [fst snd]. rewrite Bool.andb_true_iff, !L. split; [intros (-> & ->); reflexivity|intros [= -> ->]; auto]. }
  assert (Hsame : forall {A} (f : expert F -> A) (eqA : A -> A -> bool) e0 es, (forall a b, eqA a b = true <-> a = b) ->
    forallb (fun e => eqA (f e) (f e0)) es = true <-> ~ exists e e', In e (e0 :: es) /\ In e' (e0 :: es) /\ f e <> f e').
  { intros A f eqA e0 es Heq. rewrite forallb_forall. split.
    - intros H (e & e' & He & He' & Hne). apply Hne. assert (X : forall x, In x (e0 :: es) -> f x = f e0) by (intros x [<-|Hx]; [reflexivity|now apply Heq, H]).
      rewrite (X e He), (X e' He'). reflexivity.
    - intros H x Hx. destruct (eqA (f x) (f e0)) eqn:E; [reflexivity|]. exfalso. apply H. exists x, e0. split; [now right|]. split; [now left|]. intros E'. apply Heq in E'. congruence. }
  unfold is_bad_config. destruct (Z.ltb_spec k 1) as [|Hk]; [split; [eauto|split; [discriminate|lia]]|].
  destruct (Z.ltb_spec (Z.of_nat (List.length experts)) k) as [|Hk']; [split; [eauto|split; [discriminate|lia]]|].
  destruct (String.eqb_spec mode "random") as [->|Hm]; [split; [eauto|split; [intros _; split; [lia|now left]|reflexivity]]|].
  destruct (existsb _ experts) eqn:Ex.
  - split; [eauto|]. split; [discriminate|]. intros (_ & [H|(H & _)]); [congruence|]. apply existsb_exists in Ex as (e & He & Hp). specialize (H e He). destruct (ex_positive e); congruence.
  - assert (Hp : forall e, In e experts -> ex_positive e <> []).
    { intros e He E. assert (X : existsb (fun e => match ex_positive e with [] => true | _ => false end) experts = true) by (apply existsb_exists; exists e; rewrite E; auto). congruence. }
    destruct experts as [|e0 es]; [cbn in Hk'; lia|].
    pose proof (Hsame _ prompt_tup prompts_eqb e0 es Hpe) as S1. pose proof (Hsame _ (@ex_model F) String.eqb e0 es String.eqb_eq) as S2.
    destruct (forallb (fun e => prompts_eqb (prompt_tup e) (prompt_tup e0)) es) eqn:E1.
    + split; [eauto|]. split; [discriminate|]. intros (_ & [H|(_ & H & _)]); [congruence|]. exfalso. now apply (proj1 S1 eq_refl).
    + assert (X1 : exists e e', In e (e0 :: es) /\ In e' (e0 :: es) /\ (ex_positive e, ex_negative e) <> (ex_positive e', ex_negative e')).
      { clear -E1 Hpe. assert (Hn : forallb (fun e => prompts_eqb (prompt_tup e) (prompt_tup e0)) es <> true) by congruence. clear E1.
        induction es as [|e es IH]; [exfalso; now apply Hn|]. cbn in Hn. destruct (prompts_eqb (prompt_tup e) (prompt_tup e0)) eqn:E.
        - destruct IH as (a & b & Ha & Hb & Hab); [exact Hn|]. exists a, b. split; [destruct Ha; [left|right; right]; auto|]. split; [destruct Hb; [left|right; right]; auto|exact Hab].
        - exists e, e0. split; [right; now left|]. split; [now left|]. intros E'. assert (prompts_eqb (prompt_tup e) (prompt_tup e0) = true) by (apply Hpe; exact E'). congruence. }
      destruct (negb allow && forallb (fun e => String.eqb (ex_model e) (ex_model e0)) es) eqn:E2.
      * split; [eauto|]. split; [discriminate|]. apply Bool.andb_true_iff in E2 as (E2 & E3). intros (_ & [H|(_ & _ & [H|H])]); [congruence|subst; discriminate|].
        exfalso. now apply (proj1 S2 E3).
      * split; [eauto|]. split; [intros _|reflexivity]. split; [lia|]. right. split; [exact Hp|]. split; [exact X1|].
        destruct allow; [now left|]. right. cbn [negb andb] in E2. clear -E2. assert (Hn : forallb (fun e => String.eqb (ex_model e) (ex_model e0)) es <> true) by congruence. clear E2.
        induction es as [|e es IH]; [exfalso; now apply Hn|]. cbn in Hn. destruct (String.eqb_spec (ex_model e) (ex_model e0)) as [E|E].
        -- destruct IH as (a & b & Ha & Hb & Hab); [exact Hn|]. exists a, b. split; [destruct Ha; [left|right; right]; auto|]. split; [destruct Hb; [left|right; right]; auto|exact Hab].
        -- exists e, e0. split; [right; now left|]. split; [now left|exact E].
Qed.

Lemma one_type_spec ts allowed : ts <> [] -> one_type_of ts allowed = true <-> same_type allowed ts.
Proof.
  destruct ts as [|t ts]; [congruence|]. intros _. unfold one_type_of, same_type. rewrite Bool.andb_true_iff, forallb_forall, mem_In. split.
  - intros (H & Hi). exists t. split; [exact Hi|]. intros u [<-|Hu]; [reflexivity|]. apply eqb_iff. now apply H.
  - intros (t' & Hi & H). rewrite (H t (or_introl eq_refl)) in *. split; [|exact Hi]. intros u Hu. apply eqb_iff. apply H. now right.
Qed.
(** Which architectures a configuration can be written as. *)
Theorem C70_supported {F} ty (c : moe_config F) :
  (supports_config F ty Mixtral c = true <-> c_shared F c = [] /\ same_type ["llama"; "mistral"] (types_of ty c)) /\
  (supports_config F ty DeepSeek c = true <->
     (c_shared F c = [] \/ exists e, c_shared F c = [e] /\ ex_positive e = [] /\ ex_negative e = []) /\ same_type ["llama"; "mistral"] (types_of ty c)) /\
  (supports_config F ty Qwen c = true <->
     (exists e, c_shared F c = [e] /\ (c_gate_mode F c = "random" \/ ex_positive e <> [])) /\ same_type ["llama"; "mistral"; "qwen2"] (types_of ty c)) /\
  (supports_config F ty Qwen3 c = true <-> c_shared F c = [] /\ same_type ["qwen3"] (types_of ty c)).
Proof.
  assert (HT : map ty (c_base F c :: map (@ex_model F) (c_experts F c)) ++ map ty (map (@ex_model F) (c_shared F c)) = types_of ty c).
  { unfold types_of. rewrite <- map_app. reflexivity. }
  assert (Hne : types_of ty c <> []) by discriminate.
  unfold supports_config. rewrite HT. split; [|split; [|split]].
  - destruct (c_shared F c) as [|e l] eqn:E; [|split; [discriminate|intros (? & _); discriminate]].
    rewrite app_nil_r in HT. rewrite HT, one_type_spec by exact Hne. tauto.
  - destruct (c_shared F c) as [|e [|e' l]] eqn:E.
    + rewrite one_type_spec by exact Hne. tauto.
    + destruct (ex_positive e) eqn:Ep; cbn [orb].
      * destruct (ex_negative e) eqn:En; [rewrite one_type_spec by exact Hne|].
        -- split; [intros H; split; [right; eauto|exact H]|tauto].
        -- split; [discriminate|]. intros ([H|(e' & [= <-] & _ & H)] & _); [discriminate|congruence].
      * split; [discriminate|]. intros ([H|(e' & [= <-] & H & _)] & _); [discriminate|congruence].
    + split; [discriminate|]. intros ([H|(? & H & _)] & _); discriminate.
  - destruct (c_shared F c) as [|e [|e' l]] eqn:E.
    + split; [discriminate|]. intros ((? & ? & _) & _); discriminate.
    + destruct (eqb_spec (c_gate_mode F c) "random") as [Er|Er]; cbn [negb andb].
      * rewrite one_type_spec by exact Hne. split; [intros H; split; [exists e; auto|exact H]|tauto].
      * destruct (ex_positive e) eqn:Ep; cbn [negb].
        -- split; [discriminate|]. intros ((e' & [= <-] & [H|H]) & _); congruence.
        -- rewrite one_type_spec by exact Hne. split; [intros H; split; [exists e; split; [reflexivity|right; congruence]|exact H]|tauto].
    + split; [discriminate|]. intros ((? & ? & _) & _); discriminate.
  - destruct (c_shared F c) as [|e l] eqn:E; [|split; [discriminate|intros (? & _); discriminate]].
    rewrite forallb_forall. unfold same_type. split.
    + intros H. split; [reflexivity|]. exists "qwen3". split; [now left|]. intros u Hu. apply eqb_iff. now apply H.
    + intros (_ & t & [<-|[]] & H) u Hu. apply eqb_iff. now apply H.
Qed.
(** The architecture is a supported one with the given prefix: Mixtral if that is possible, else the first. *)
Theorem C70_selected {F} ty available (c : moe_config F) :
  let wanted a := In a available /\
    (c_architecture F c = None \/ c_architecture F c = Some "" \/
     exists p, c_architecture F c = Some p /\ String.prefix (lower p) (lower (arch_name a)) = true) /\
    supports_config F ty a c = true in
  match select_output_arch F ty available c with
  | Exit => forall a, ~ wanted a
  | Go a => wanted a /\ (wanted Mixtral -> a = Mixtral) /\
            (a <> Mixtral -> exists l l', available = l ++ a :: l' /\ forall b, In b l -> ~ wanted b)
  end.
Proof.
  cbv zeta. unfold select_output_arch.
  set (ci := match c_architecture F c with Some a => if eqb a "" then available else filter (fun x => String.prefix (lower a) (lower (arch_name x))) available | None => available end).
  set (ok := fun a => (match c_architecture F c with Some p => eqb p "" || String.prefix (lower p) (lower (arch_name a)) | None => true end) && supports_config F ty a c).
  assert (Hcand : filter (fun a => supports_config F ty a c) ci = filter ok available).
  { unfold ci, ok. destruct (c_architecture F c) as [p|]; [|reflexivity]. destruct (eqb p ""); [reflexivity|]. cbn [orb].
    induction available as [|a l IH]; [reflexivity|]. cbn [filter]. destruct (String.prefix _ _); cbn [filter andb]; rewrite IH; reflexivity. }
  assert (Hok : forall a, In a available /\ (c_architecture F c = None \/ c_architecture F c = Some "" \/
     exists p, c_architecture F c = Some p /\ String.prefix (lower p) (lower (arch_name a)) = true) /\ supports_config F ty a c = true <-> In a (filter ok available)).
  { intros a. rewrite filter_In. unfold ok. rewrite Bool.andb_true_iff. destruct (c_architecture F c) as [p|].
    - rewrite Bool.orb_true_iff, eqb_iff. split.
      + intros (H1 & [H|[H|(p' & [= <-] & H)]] & H3); try discriminate; [injection H as ->; tauto|tauto].
      + intros (H1 & [->|H] & H3); (split; [exact H1|]; split; [|exact H3]); [auto|right; right; eauto].
    - tauto. }
  destruct ci as [|c0 ci'] eqn:Eci.
  - intros a Ha. apply Hok in Ha. rewrite <- Hcand in Ha. destruct Ha.
  - rewrite Hcand. destruct (filter ok available) as [|a cs] eqn:Ef.
    + intros a Ha. now apply Hok in Ha.
    + destruct (find _ (a :: cs)) as [x|] eqn:Efind.
      * apply find_some in Efind as (Hx & Hn). apply eqb_iff in Hn. assert (x = Mixtral) by (destruct x; try discriminate; reflexivity). subst x.
        split; [now apply Hok|]. split; [auto|]. congruence.
      * split; [apply Hok; now left|]. split.
        -- intros H. apply Hok in H. pose proof (find_none _ _ Efind _ H) as X. discriminate.
        -- intros _. clear -Ef Hok. assert (Hg : exists l l', available = l ++ a :: l' /\ forall b, In b l -> ok b = false).
           { clear Hok. induction available as [|x l IH]; [discriminate|]. cbn in Ef. destruct (ok x) eqn:Ex.
             - injection Ef as -> _. exists [], l. split; [reflexivity|easy].
             - destruct (IH Ef) as (l1 & l2 & -> & H). exists (x :: l1), l2. split; [reflexivity|]. intros b [<-|Hb]; auto. }
           destruct Hg as (l1 & l2 & E & H). exists l1, l2. split; [exact E|]. intros b Hb Hw. apply Hok in Hw. rewrite <- Ef in Hw. apply filter_In in Hw as (_ & Hw). rewrite H in Hw by exact Hb. discriminate.
Qed.

(** ** The gates *)
Lemma mode_gates {F} draw m tk (experts : list (expert F)) mode f gates :
  get_gate_params F draw m tk experts mode = Ok gates -> eqb mode "random" = false -> eqb mode "uniform_random" = false ->
  (if eqb mode "cheap_embed" then Some (get_cheap_embedding (ll_hidden m) (ll_layers m) (ll_vocab m) (ll_embed m))
      else if eqb mode "hidden" || eqb mode "hidden_avg" || eqb mode "hidden_last"
      then Some (get_hidden_states (ll_hidden m) (ll_layers m) (ll_forward m) (eqb mode "hidden_avg"))
      else None) = Some f ->
  (let! vs := rmapM (expert_vecs F f tk) experts in stack_permute (ll_layers m) vs) = Ok gates.
Proof.
  unfold get_gate_params. intros H E1 E2 Ef. rewrite E1, E2 in H. cbv zeta in H. rewrite Ef in H. exact H.
Qed.

(** Mode cheap_embed: every layer gets the direction of the sum of the embeddings of the tokens of the positive prompts, minus that of
    the negative ones; padding does not matter. *)
Theorem C70_cheap_embed {F} draw m tk (experts : list (expert F)) gates :
  Forall (fun v : vec => length v = ll_hidden m) (ll_embed m) ->
  get_gate_params F draw m tk experts "cheap_embed" = Ok gates ->
  shape_is gates (ll_layers m) (length experts) /\
  forall k e l, nth_error experts k = Some e -> (l < ll_layers m)%nat -> exists v, entry gates l k v /\
  exists raw p, token_sum m tk (ex_positive e) raw /\ scaled raw p /\
  (ex_negative e = [] /\ scaled p v \/
   ex_negative e <> [] /\ exists raw' n, token_sum m tk (ex_negative e) raw' /\ scaled raw' n /\ scaled (vsub p n) v).
Proof.
  intros Hd H. apply (mode_gates draw m tk experts "cheap_embed" (get_cheap_embedding (ll_hidden m) (ll_layers m) (ll_vocab m) (ll_embed m)) gates) in H; [|reflexivity..|reflexivity].
  apply gates_of in H as (Hs & Hg). split; [exact Hs|]. intros k e l Hk Hl. destruct (Hg k e Hk) as (vs & Hvs & Hall). destruct (Hall l Hl) as (v & Hv & Hent). exists v. split; [exact Hent|].
  assert (Hraw : forall ps x y, (let! b := tokenize_prompts tk ps in get_cheap_embedding (ll_hidden m) (ll_layers m) (ll_vocab m) (ll_embed m) b) = Ok x ->
    nth_error x l = Some y -> exists raw, token_sum m tk ps raw /\ scaled raw y).
  { intros ps x y Hx Hy. unfold tokenize_prompts in Hx. destruct (pad_id tk) as [pad|]; [|discriminate]. cbn [rbind] in Hx. cbv zeta in Hx.
    unfold get_cheap_embedding in Hx. set (rows := map (row_of tk) ps) in *. set (nn := longest rows) in *.
    destruct (existsb _ _) eqn:Eb; [discriminate|]. destruct (Z.eqb_spec (Z.of_nat (length (ll_embed m))) (ll_vocab m)) as [Hv'|]; [|discriminate]. cbn [negb] in Hx. injection Hx as <-.
    assert (Hy' := Hy). apply nth_error_In in Hy'. apply repeat_spec in Hy'. subst y. eexists. split; [|apply scaled_normalised].
    assert (Hrange : forall row t, In row rows -> In t row -> (0 <= t < ll_vocab m)%Z).
    { intros row t Hrow Ht. destruct (Z_lt_dec t 0) as [Hn|Hn]; [|destruct (Z_le_dec (ll_vocab m) t) as [Hn'|Hn']; [|lia]].
      all: exfalso; assert (X : existsb (fun row => existsb (fun t => (fst t <? 0)%Z || (ll_vocab m <=? fst t)%Z) row) (map (pad_left pad nn) rows) = true);
        [apply existsb_exists; exists (pad_left pad nn row); split; [now apply in_map|]; apply existsb_exists; exists (t, true); split;
          [unfold pad_left; apply in_or_app; right; apply in_map_iff; eauto|cbn [fst]; apply Bool.orb_true_iff; rewrite Z.ltb_lt, Z.leb_le; lia]|congruence]. }
    assert (Hat : forall t, length (nth (Z.to_nat t) (ll_embed m) (vzero (ll_hidden m))) = ll_hidden m).
    { intros t. destruct (nth_in_or_default (Z.to_nat t) (ll_embed m) (vzero (ll_hidden m))) as [Hi | ->]; [|apply repeat_length].
      rewrite Forall_forall in Hd. now apply Hd. }
    set (masked := fun t : Z * bool => map (fun x => x * (if snd t then 1 else 0)) (nth (Z.to_nat (fst t)) (ll_embed m) (vzero (ll_hidden m)))).
    assert (Hml : forall row, Forall (fun v : vec => length v = ll_hidden m) (map masked row)) by (intros row; apply Forall_forall; intros x Hx; apply in_map_iff in Hx as (t & <- & _); unfold masked; now rewrite map_length).
    assert (Hbl : forall b, Forall (fun v : vec => length v = ll_hidden m) (map (fun row => vsum (ll_hidden m) (map masked row)) b)) by (intros b; apply Forall_forall; intros x Hx; apply in_map_iff in Hx as (row & <- & _); apply vsum_spec; apply Hml).
    split; [apply vsum_spec; apply Hbl|]. intros i Hi. rewrite (proj2 (vsum_spec _ _ (Hbl _)) i Hi).
    assert (Hmasked : forall t b, nth i (masked (t, b)) 0 = if b then nth i (nth (Z.to_nat t) (ll_embed m) (vzero (ll_hidden m))) 0 else 0).
    { intros t b. unfold masked. cbn [fst snd]. rewrite nth_indep with (d' := (fun x => x * (if b then 1 else 0)) 0) by (rewrite map_length, Hat; exact Hi).
      rewrite (map_nth (fun x => x * (if b then 1 else 0))). destruct b; ring. }
    assert (Hnth : forall t, (0 <= t < ll_vocab m)%Z -> nth (Z.to_nat t) (ll_embed m) (vzero (ll_hidden m)) = nth (Z.to_nat t) (ll_embed m) []) by (intros t Ht; apply nth_indep; lia).
    rewrite (flat_map_ext _ _ (fun p => eq_sym (row_of_tokens tk p))). clear Eb Hy. subst nn. generalize (longest rows) as nn. intros nn. rewrite flat_map_concat_map. fold rows. clearbody rows.
    induction rows as [|row rows IH]; [reflexivity|]. cbn [map concat]. rewrite map_app, total_app, <- IH by (intros r t Hr Ht; apply (Hrange r t); [now right|exact Ht]).
    unfold total at 1. cbn [fold_right]. fold (total (map (fun row0 => vsum (ll_hidden m) (map masked row0)) (map (pad_left pad nn) rows)) i). f_equal.
    rewrite (proj2 (vsum_spec _ _ (Hml _)) i Hi). unfold pad_left. rewrite map_app, total_app.
    assert (Z0 : forall q, total (map masked (repeat (pad, false) q)) i = 0) by (intros q; unfold total; induction q as [|q IHq]; cbn [repeat map fold_right]; [reflexivity|]; rewrite Hmasked, IHq; ring).
    rewrite Z0, Rplus_0_l. assert (Hr : forall t, In t row -> (0 <= t < ll_vocab m)%Z) by (intros t Ht; apply (Hrange row t); [now left|exact Ht]).
    clear -Hmasked Hnth Hr. unfold total. induction row as [|t row IH]; [reflexivity|]. cbn [map fold_right]. rewrite Hmasked, Hnth by (apply Hr; now left). f_equal. apply IH. intros t' Ht'. apply Hr. now right. }
  destruct (expert_vecs_spec _ _ _ _ _ _ Hvs Hv ltac:(eauto)) as (pos & p & Hp & Hpl & Hcase). destruct (Hraw _ _ _ Hp Hpl) as (raw & Hr1 & Hr2).
  exists raw, p. split; [exact Hr1|]. split; [exact Hr2|]. destruct Hcase as [Hc|(Hne & neg & n & Hn & Hnl & Hsc)]; [now left|]. right. split; [exact Hne|].
  destruct (Hraw _ _ _ Hn Hnl) as (raw' & Hr1' & Hr2'). exists raw', n. auto.
Qed.

(** Modes hidden and hidden_last: layer [l] gets the direction of the mean, over the positive prompts, of the state in front of
    layer [l] at the last token, minus the same mean for the negative prompts; padding does not matter. *)
Theorem C70_hidden_last {F} draw m tk (experts : list (expert F)) mode gates :
  causal m -> mode = "hidden" \/ mode = "hidden_last" ->
  (forall e p, In e experts -> In p (ex_positive e ++ ex_negative e) -> prompt_tokens tk p <> []) ->
  get_gate_params F draw m tk experts mode = Ok gates ->
  shape_is gates (ll_layers m) (length experts) /\
  forall k e l, nth_error experts k = Some e -> (l < ll_layers m)%nat -> exists v, entry gates l k v /\
  exists raw, mean_last m tk l (ex_positive e) raw /\
  (ex_negative e = [] /\ scaled raw v \/
   ex_negative e <> [] /\ exists raw', mean_last m tk l (ex_negative e) raw' /\ scaled (vsub raw raw') v).
Proof.
  intros Hc Hm Hnon H. apply (mode_gates draw m tk experts mode (get_hidden_states (ll_hidden m) (ll_layers m) (ll_forward m) false) gates) in H; [|destruct Hm as [-> | ->]; reflexivity..].
  apply gates_of in H as (Hs & Hg). split; [exact Hs|]. intros k e l Hk Hl. destruct (Hg k e Hk) as (vs & Hvs & Hall). destruct (Hall l Hl) as (v & Hv & Hent). exists v. split; [exact Hent|].
  assert (Hraw : forall ps x y, (forall p, In p ps -> row_of tk p <> []) -> (let! b := tokenize_prompts tk ps in get_hidden_states (ll_hidden m) (ll_layers m) (ll_forward m) false b) = Ok x ->
    nth_error x l = Some y -> mean_last m tk l ps y).
  { intros ps x y Hne Hx Hy. unfold tokenize_prompts in Hx. destruct (pad_id tk) as [pad|]; [|discriminate]. cbn [rbind] in Hx. cbv zeta in Hx.
    unfold get_hidden_states in Hx. apply rmapM_seq in Hx as (_ & Hx). destruct (Hx l Hl) as (y' & Hy' & Hf). rewrite Hy in Hy'. injection Hy' as <-.
    destruct (rmapM _ (map _ _)) as [ws|] eqn:Ew; [|discriminate]. cbn [rbind] in Hf. apply rmapM_Ok_Forall2 in Ew.
    set (nn := longest (map (row_of tk) ps)) in *. clearbody nn.
    assert (HF : Forall2 (last_state m tk l) ps ws /\ Forall (fun v : vec => length v = ll_hidden m) ws).
    { clear -Ew Hc Hl Hne. revert ws Ew. induction ps as [|p ps IH]; intros ws Ew; cbn [map] in Ew; inversion Ew as [|? w ? ws' Hw Hws]; subst; [auto|].
      destruct (IH ltac:(intros q Hq; apply Hne; now right) _ Hws) as (IH1 & IH2). destruct (Hc pad (nn - length (row_of tk p))%nat (row_of tk p) l Hl) as (junk & st & Hj & Hst & Hd & H1 & H2).
      unfold pad_left in Hw. fold (unmasked (row_of tk p)) in Hw. unfold nthE in Hw. rewrite H2 in Hw. cbn [rbind] in Hw. unfold reduce_row in Hw.
      destruct (rev (junk ++ st)) as [|u r] eqn:Er; [discriminate|]. injection Hw as <-. assert (E : junk ++ st = rev r ++ [u]) by (rewrite <- (rev_involutive (junk ++ st)), Er; reflexivity).
      split; [constructor; [|exact IH1]|constructor; [|exact IH2]].
      - destruct st as [|s0 st'].
        + (* an empty prompt: the last position is a masked one, so there is no token state *)
          exfalso. destruct (row_of tk p) eqn:Erow; [|discriminate]. now apply (Hne p (or_introl eq_refl)).
        + destruct (exists_last (l := s0 :: st')) as (b & z & Ez); [discriminate|]. exists b. rewrite <- row_of_tokens, H1, Ez. rewrite Ez, app_assoc in E. apply app_inj_tail in E as (_ & ->). reflexivity.
      - rewrite E in Hd. apply Forall_app in Hd as (_ & Hd). now inversion Hd. }
    destruct HF as (HF & Hdim). exists ws. split; [exact HF|]. assert (Ey : y = vdiv (vsum (ll_hidden m) ws) (INR (length ws))) by (unfold batch_mean in Hf; destruct ws; congruence). subst y.
    destruct (vsum_spec _ _ Hdim) as (Hvl & Hvn). split; [unfold vdiv; now rewrite map_length|]. intros i Hi. rewrite nth_vdiv by (rewrite Hvl; exact Hi). rewrite Hvn by exact Hi. now rewrite (Forall2_len _ _ _ HF). }
  destruct (expert_vecs_spec _ _ _ _ _ _ Hvs Hv ltac:(eauto)) as (pos & p & Hp & Hpl & Hcase). pose proof (nth_error_In _ _ Hk) as Hin.
  exists p. split; [eapply Hraw; eauto; intros q Hq; rewrite row_of_tokens; apply (Hnon e q Hin), in_or_app; now left|].
  destruct Hcase as [Hcs|(Hne & neg & n & Hn & Hnl & Hsc)]; [now left|]. right. split; [exact Hne|]. exists n.
  split; [eapply Hraw; eauto; intros q Hq; rewrite row_of_tokens; apply (Hnon e q Hin), in_or_app; now right|exact Hsc].
Qed.

(** The random modes: shape and size of the entries. *)
Theorem C70_random {F} draw m tk (experts : list (expert F)) :
  (exists gates, get_gate_params F draw m tk experts "random" = Ok gates /\ shape_is gates (ll_layers m) (length experts) /\
     forall l k i, (l < ll_layers m)%nat -> (k < length experts)%nat -> (i < ll_hidden m)%nat ->
       exists v, entry gates l k v /\ length v = ll_hidden m /\ nth i v 0 = draw l k i) /\
  (exists gates, get_gate_params F draw m tk experts "uniform_random" = Ok gates /\ shape_is gates (ll_layers m) (length experts) /\
     forall l k i, (l < ll_layers m)%nat -> (k < length experts)%nat -> (i < ll_hidden m)%nat ->
       exists v, entry gates l k v /\ length v = ll_hidden m /\
         (0 <= draw l k i <= 1 -> - / sqrt (INR (ll_hidden m)) <= nth i v 0 <= / sqrt (INR (ll_hidden m)))).
Proof.
  assert (G : forall f, shape_is (drawn draw m (length experts) f) (ll_layers m) (length experts) /\
    forall l k i, (l < ll_layers m)%nat -> (k < length experts)%nat -> (i < ll_hidden m)%nat ->
      exists v, entry (drawn draw m (length experts) f) l k v /\ length v = ll_hidden m /\ nth i v 0 = f (draw l k i)).
  { intros f. unfold drawn. split; [split|].
    - now rewrite map_length, seq_length.
    - apply Forall_forall. intros row Hr. apply in_map_iff in Hr as (l & <- & _). now rewrite map_length, seq_length.
    - intros l k i Hl Hk Hi. exists (map (fun i => f (draw l k i)) (seq 0 (ll_hidden m))). split; [|split].
      + exists (map (fun e => map (fun i => f (draw l e i)) (seq 0 (ll_hidden m))) (seq 0 (length experts))).
        split; [apply (map_seq_nth (fun l => map (fun e => map (fun i => f (draw l e i)) (seq 0 (ll_hidden m))) (seq 0 (length experts)))); exact Hl|].
        apply (map_seq_nth (fun e => map (fun i => f (draw l e i)) (seq 0 (ll_hidden m)))). exact Hk.
      + now rewrite map_length, seq_length.
      + apply nth_error_nth. now apply (map_seq_nth (fun i => f (draw l k i))). }
  split.
  - eexists. split; [reflexivity|]. apply (G (fun x => x)).
  - eexists. split; [reflexivity|]. destruct (G (fun x => x * 2 * sqrt (1 / INR (ll_hidden m)) - sqrt (1 / INR (ll_hidden m)))) as (Gs & Gn). split; [exact Gs|].
    intros l k i Hl Hk Hi. destruct (Gn l k i Hl Hk Hi) as (v & Hv & Hlen & Hnth). exists v. split; [exact Hv|]. split; [exact Hlen|]. intros Hd. rewrite Hnth.
    assert (Hh : 0 < INR (ll_hidden m)) by (apply lt_0_INR; lia).
    assert (E : sqrt (1 / INR (ll_hidden m)) = / sqrt (INR (ll_hidden m))) by (unfold Rdiv; rewrite Rmult_1_l; apply sqrt_inv).
    rewrite E. assert (Hs : 0 < / sqrt (INR (ll_hidden m))) by (apply Rinv_0_lt_compat, sqrt_lt_R0; exact Hh). set (s := / sqrt (INR (ll_hidden m))) in *. clearbody s. nra.
Qed.

(** The whole command: the writer gets, for every layer, one row per expert followed by one row per shared expert, if these need gates. *)
Theorem C70_build {F} draw ty available m tk (c : moe_config F) allow a routers shared :
  build F draw ty available m tk c allow = Ok (Go (a, routers, shared)) ->
  is_bad_config (c_per_token F c) (c_experts F c) (c_gate_mode F c) allow = Ok false /\
  select_output_arch F ty available c = Go a /\
  exists sh gates, get_gate_params F draw m tk (c_experts F c ++ sh) (c_gate_mode F c) = Ok gates /\
  (sh = c_shared F c /\ ((forall e, In e (c_shared F c) -> ex_positive e <> []) \/ c_gate_mode F c = "random" \/ c_gate_mode F c = "uniform_random") \/
   sh = [] /\ (forall e, In e (c_shared F c) -> ex_positive e = [])) /\
  length routers = length gates /\ length shared = length gates /\
  forall l g, nth_error gates l = Some g -> exists r s, nth_error routers l = Some r /\ nth_error shared l = Some s /\ g = r ++ s /\
    length r = Nat.min (length (c_experts F c)) (length g).
Proof.
  unfold build. destruct (is_bad_config _ _ _ _) as [[]|] eqn:Eb; try discriminate. cbn [rbind]. destruct (select_output_arch F ty available c) as [|a'] eqn:Es; [discriminate|].
  destruct (need_gates _ _ _) as [need|] eqn:En; [|discriminate]. cbn [rbind]. destruct (get_gate_params F draw m tk need (c_gate_mode F c)) as [gates|] eqn:Eg; [|discriminate]. cbn [rbind].
  intros [= <- <- <-]. split; [reflexivity|]. split; [reflexivity|].
  assert (Hsh : exists sh, need = c_experts F c ++ sh /\
    (sh = c_shared F c /\ ((forall e, In e (c_shared F c) -> ex_positive e <> []) \/ c_gate_mode F c = "random" \/ c_gate_mode F c = "uniform_random") \/
     sh = [] /\ (forall e, In e (c_shared F c) -> ex_positive e = []))).
  { unfold need_gates in En. destruct (c_shared F c) as [|s0 ss]; [injection En as <-; exists []; rewrite app_nil_r; split; [reflexivity|right; easy]|]. cbv zeta in En.
    set (has := existsb _ _) in En. destruct (forallb (fun e => Bool.eqb _ has) (s0 :: ss)) eqn:Ea; [|discriminate]. cbn [negb] in En. rewrite forallb_forall in Ea.
    destruct (has || String.eqb (c_gate_mode F c) "random" || String.eqb (c_gate_mode F c) "uniform_random") eqn:Eo; injection En as <-.
    - exists (s0 :: ss). split; [reflexivity|]. left. split; [reflexivity|]. apply Bool.orb_true_iff in Eo as [Eo|Eo]; [apply Bool.orb_true_iff in Eo as [Eo|Eo]|].
      + left. intros e He Hp. specialize (Ea e He). rewrite Eo, Hp in Ea. discriminate.
      + right. left. now apply String.eqb_eq.
      + right. right. now apply String.eqb_eq.
    - exists []. rewrite app_nil_r. split; [reflexivity|]. right. split; [reflexivity|]. apply Bool.orb_false_iff in Eo as (Eo & _). apply Bool.orb_false_iff in Eo as (Eo & _).
      intros e He. specialize (Ea e He). rewrite Eo in Ea. destruct (ex_positive e); [reflexivity|discriminate]. }
  destruct Hsh as (sh & -> & Hsh). exists sh, gates. split; [exact Eg|]. split; [exact Hsh|]. rewrite !map_length. split; [reflexivity|]. split; [reflexivity|].
  intros l g Hg. exists (fst (split_gates (c_experts F c) g)), (snd (split_gates (c_experts F c) g)). rewrite !nth_error_map, Hg. split; [reflexivity|]. split; [reflexivity|].
  unfold split_gates. cbn [fst snd]. split; [symmetry; apply firstn_skipn|apply firstn_length].
Qed.

(** ** What is wrong *)
(** One expert is refused in every mode but random, whatever its prompts: "all others have the same prompts" holds of no others. *)
Theorem C70_single_expert_refuted {F} k (e : expert F) mode allow : mode <> "random" -> is_bad_config k [e] mode allow = Ok true.
Proof.
  intros Hm. destruct (C70_accepted k [e] mode allow) as (([|] & Hb) & Hi); [exact Hb|]. apply Hi in Hb as (_ & [H|(_ & (x & y & [<-|[]] & [<-|[]] & H) & _)]); congruence.
Qed.
(** uniform_random does not look at prompts, but the configuration is refused without them. *)
Theorem C70_uniform_prompts_refuted {F} k (experts : list (expert F)) allow e : In e experts -> ex_positive e = [] ->
  is_bad_config k experts "uniform_random" allow = Ok true.
Proof.
  intros He Hp. destruct (C70_accepted k experts "uniform_random" allow) as (([|] & Hb) & Hi); [exact Hb|]. apply Hi in Hb as (_ & [H|(H & _)]); [discriminate|]. now apply H in He.
Qed.
(** random accepts experts that are all the same model without being told to. *)
Theorem C70_random_same_refuted {F} k (experts : list (expert F)) : (1 <= k <= Z.of_nat (length experts))%Z ->
  is_bad_config k experts "random" false = Ok false.
Proof. intros Hk. apply C70_accepted. auto. Qed.
(** A misspelt mode passes the checks and fails with a TypeError. *)
Theorem C70_unknown_mode_refuted {F} draw m tk (experts : list (expert F)) mode :
  experts <> [] -> ~ In mode ["random"; "uniform_random"; "cheap_embed"; "hidden"; "hidden_avg"; "hidden_last"] ->
  get_gate_params F draw m tk experts mode = Err TypeError.
Proof.
  intros He Hm. unfold get_gate_params. assert (E : forall s, In s ["random"; "uniform_random"; "cheap_embed"; "hidden"; "hidden_avg"; "hidden_last"] -> eqb mode s = false) by (intros s Hs; apply eqb_neq; intros ->; now apply Hm).
  rewrite !E by (cbn; tauto). cbn [orb]. destruct experts; [congruence|]. reflexivity.
Qed.
(** hidden_avg averages over the padding as well: every token of every prompt has the state [1], but the gate points the other way. *)
Definition odd_llm : llm :=
  {| ll_layers := 1; ll_hidden := 1; ll_vocab := 10; ll_embed := [];
     ll_forward := fun row => let st := map (fun t : Z * bool => if snd t then [1] else [-10]) row in [st; st] |}.
Definition letters : tokenizer :=
  {| tk_bos := None; tk_bos_id := Some 0%Z; tk_eos_id := None; tk_encode := fun s => map (fun c => Z.of_nat (Ascii.nat_of_ascii c)) (list_ascii_of_string s) |}.
Lemma odd_causal : causal odd_llm.
Proof.
  intros pad k toks l Hl. cbn in Hl. assert (l = 0%nat) by lia. subst l. exists (repeat [-10] k), (map (fun _ => [1]) toks).
  split; [apply repeat_length|]. split; [apply map_length|]. cbn [ll_forward odd_llm ll_hidden nth_error]. split; [|split].
  - apply Forall_app. split; apply Forall_forall; intros v Hv; [apply repeat_spec in Hv; now subst|apply in_map_iff in Hv as (? & <- & _); reflexivity].
  - unfold unmasked. rewrite map_map. reflexivity.
  - unfold unmasked. rewrite map_app, map_map. f_equal. f_equal. induction k as [|k IH]; cbn; [reflexivity|]. now f_equal.
Qed.
Theorem C70_padding_refuted {F} draw : causal odd_llm /\
  (forall toks v, In v (concat (ll_forward odd_llm (unmasked toks))) -> v = [1]) /\
  forall e : expert F, ex_positive e = ["a"; "bbb"] -> ex_negative e = [] ->
  get_gate_params F draw odd_llm letters [e] "hidden_avg" = Ok [[[-1]]].
Proof.
  split; [apply odd_causal|]. split.
  - intros toks v Hv. cbn in Hv. rewrite app_nil_r in Hv. apply in_app_or in Hv. assert (H : In v (map (fun t : Z * bool => if snd t then [1] else [-10]) (unmasked toks))) by tauto.
    apply in_map_iff in H as ((t & b) & <- & H). unfold unmasked in H. apply in_map_iff in H as (? & [= <- <-] & _). reflexivity.
  - intros [em ep en e1 e2] Hp Hn. cbn [ex_positive ex_negative] in Hp, Hn. subst ep en. cbv -[normalised Rplus Rdiv IZR].
    assert (E : forall x, x < -1 -> normalised [x] = [-1]).
    { intros x Hx. unfold normalised, vdiv, vnorm. cbn [fold_right map]. replace (x * x + 0) with ((- x) * (- x)) by ring. rewrite sqrt_square by lra. rewrite Rmax_left by lra. f_equal. field. lra. }
    rewrite E by lra. reflexivity.
Qed.

(** ** Examples *)
Definition ex_llm : llm :=
  {| ll_layers := 2; ll_hidden := 2; ll_vocab := 128; ll_embed := repeat [3; 4] 128;
     ll_forward := fun row => let st := map (fun t : Z * bool => [3; 4]) row in [st; st; st] |}.
Definition ex_expert (name : string) : expert unit :=
  {| ex_model := name; ex_positive := [name]; ex_negative := []; ex_noise := None; ex_residual := None |}.
Definition ex_config : moe_config unit :=
  {| c_base := "m"; c_experts := [ex_expert "a"; ex_expert "bcd"]; c_gate_mode := "hidden"; c_per_token := 2; c_shared := []; c_architecture := None |}.
Example C70_build_nonvacuous : causal ex_llm /\
  build unit (fun _ _ _ => 0) (fun _ => "llama") [Mixtral; DeepSeek; Qwen; Qwen3] ex_llm letters ex_config false
  = Ok (Go (Mixtral, [[[3/5; 4/5]; [3/5; 4/5]]; [[3/5; 4/5]; [3/5; 4/5]]], [[]; []])).
Proof.
  split.
  - intros pad k toks l Hl. cbn in Hl. exists (repeat [3; 4] k), (map (fun _ => [3; 4]) toks). split; [apply repeat_length|]. split; [apply map_length|]. cbn [ll_forward ex_llm ll_hidden]. split; [|split].
    + apply Forall_app. split; apply Forall_forall; intros v Hv; [apply repeat_spec in Hv; now subst|apply in_map_iff in Hv as (? & <- & _); reflexivity].
    + unfold unmasked. rewrite map_map. destruct l as [|[|l]]; [reflexivity|reflexivity|lia].
    + unfold unmasked. rewrite map_app, map_map. assert (E : map (fun _ : Z * bool => [3; 4]) (repeat (pad, false) k) = repeat [3; 4] k) by (clear; induction k as [|k IH]; cbn; [reflexivity|]; now f_equal).
      rewrite E. destruct l as [|[|l]]; [reflexivity|reflexivity|lia].
  - assert (E : normalised (vdiv (vadd [3; 4] [0; 0]) 1) = [3/5; 4/5]).
    { cbn [vadd]. unfold vdiv. cbn [map]. replace ((3 + 0) / 1) with 3 by field. replace ((4 + 0) / 1) with 4 by field.
      unfold normalised, vdiv, vnorm. cbn [fold_right map]. replace (3 * 3 + (4 * 4 + 0)) with (5 * 5) by ring. rewrite sqrt_square by lra. rewrite Rmax_left by lra. reflexivity. }
    cbv -[normalised Rplus Rdiv IZR]. cbv [vdiv vadd map] in E. rewrite E. reflexivity.
Qed.
(* a cheap_embed configuration with a negative prompt *)
Example C70_cheap_nonvacuous : exists gates,
  get_gate_params unit (fun _ _ _ => 0) ex_llm letters
    [{| ex_model := "a"; ex_positive := ["a"]; ex_negative := ["b"]; ex_noise := None; ex_residual := None |}] "cheap_embed" = Ok gates /\
  Forall (fun v : vec => length v = 2%nat) (ll_embed ex_llm).
Proof. eexists. split; [reflexivity|]. apply Forall_forall. intros v Hv. apply repeat_spec in Hv. now subst. Qed.

Print Assumptions C70_accepted.
Print Assumptions C70_supported.
Print Assumptions C70_selected.
Print Assumptions C70_cheap_embed.
Print Assumptions C70_hidden_last.
Print Assumptions C70_random.
Print Assumptions C70_build.
Print Assumptions C70_single_expert_refuted.
Print Assumptions C70_uniform_prompts_refuted.
Print Assumptions C70_random_same_refuted.
Print Assumptions C70_unknown_mode_refuted.
Print Assumptions C70_padding_refuted.
