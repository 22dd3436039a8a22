(** Concrete instances of the hypotheses of the C42 theorems. *)
From Coq Require Import QArith Qabs Lqa.
From Verif.Base Require Import Py PyFacts.
From Verif.Config Require Import Model Spec Proofs.
From Verif.Evo Require Import Model Spec PropsGenome.
Local Open Scope string_scope.
Local Open Scope list_scope.

(** [torch.topk(row, 2)]: the first maximum and the first maximum of the rest *)
Fixpoint argmax (l : list Q) (skip : option nat) (k : nat) (best : option (nat * Q)) : nat :=
  match l with
  | [] => match best with Some (i, _) => i | None => 0%nat end
  | x :: l' =>
      let best' := if eqb skip (Some k) then best
                   else match best with Some (_, b) => if Qle_bool x b then best else Some (k, x) | None => Some (k, x) end in
      argmax l' skip (S k) best'
  end.
Definition ex_topk (l : list Q) : nat * nat := let i := argmax l None 0 None in (i, argmax l (Some i) 0 None).
Definition ex_softmax (_ _ : Q) : Q := (1 # 4)%Q.

(** it picks the largest entry that is not skipped *)
Lemma argmax_spec l skip k best :
  (forall i b, best = Some (i, b) -> i <> k /\ (i < k)%nat /\ skip <> Some i) ->
  (best <> None \/ exists j, (j < List.length l)%nat /\ skip <> Some (k + j)%nat) ->
  let r := argmax l skip k best in
  skip <> Some r /\
  ((exists b, best = Some (r, b) /\ forall j, (j < List.length l)%nat -> skip <> Some (k + j)%nat -> (nth j l 0 <= b)%Q) \/
   (exists j, r = (k + j)%nat /\ (j < List.length l)%nat /\
      (forall i b, best = Some (i, b) -> (b <= nth j l 0)%Q) /\
      forall j', (j' < List.length l)%nat -> skip <> Some (k + j')%nat -> (nth j' l 0 <= nth j l 0)%Q)).
Proof.
  revert k best. induction l as [|x l IH]; intros k best Hb Hex; cbn [argmax].
  - destruct best as [[i b]|]; [|destruct Hex as [H|(j & H & _)]; [congruence|cbn in H; lia]].
    destruct (Hb i b eq_refl) as (_ & _ & Hs). split; [exact Hs|]. left. exists b. split; auto. cbn. lia.
  - set (best' := if eqb skip (Some k) then _ else _).
    assert (Hb' : forall i b, best' = Some (i, b) -> i <> S k /\ (i < S k)%nat /\ skip <> Some i).
    { intros i b. unfold best'. destruct (eqb skip (Some k)) eqn:Ee.
      - intros E. destruct (Hb i b E) as (? & ? & ?). repeat split; auto; lia.
      - apply eqb_neq in Ee. destruct best as [[i0 b0]|].
        + destruct (Qle_bool x b0).
          * intros E. destruct (Hb i b E) as (? & ? & ?). repeat split; auto; lia.
          * intros [= <- <-]. repeat split; auto; lia.
        + intros [= <- <-]. repeat split; auto; lia. }
    assert (Hex' : best' <> None \/ exists j, (j < List.length l)%nat /\ skip <> Some (S k + j)%nat).
    { unfold best'. destruct (eqb skip (Some k)) eqn:Ee.
      - destruct Hex as [H|(j & Hj & Hs)]; [auto|]. right. apply eqb_iff in Ee. destruct j as [|j]; [rewrite Nat.add_0_r in Hs; congruence|].
        exists j. cbn in Hj. split; [lia|]. now replace (S k + j)%nat with (k + S j)%nat by lia.
      - left. destruct best as [[i0 b0]|]; [destruct (Qle_bool x b0)|]; discriminate. }
    specialize (IH (S k) best' Hb' Hex'). cbv zeta in IH |- *. set (r := argmax l skip (S k) best') in *. clearbody r. destruct IH as [Hs IH]. split; [exact Hs|]. clear Hb' Hex'.
    destruct IH as [(b & Eb & Hall)|(j & Er & Hj & Hge & Hall)].
    + assert (Hx : eqb skip (Some k) = false -> (x <= b)%Q /\ (forall i0 b0, best = Some (i0, b0) -> b0 <= b)%Q).
      { intros Ee. unfold best' in Eb. rewrite Ee in Eb. destruct best as [[i0 b0]|].
        - destruct (Qle_bool x b0) eqn:El.
          + injection Eb as _ <-. split; [now apply Qle_bool_iff|]. intros ? ? [= <- <-]. lra.
          + injection Eb as _ <-. split; [lra|]. intros ? ? [= <- <-]. destruct (Qlt_le_dec b0 x); [lra|]. apply Qle_bool_iff in q. congruence.
        - injection Eb as _ <-. split; [lra|discriminate]. }
      assert (Hall' : forall j, (j < S (List.length l))%nat -> skip <> Some (k + j)%nat -> (nth j (x :: l) 0 <= b)%Q).
      { intros [|j] Hj Hsj; cbn [nth].
        - rewrite Nat.add_0_r in Hsj. apply Hx. now apply eqb_neq.
        - apply Hall; [lia|]. now replace (S k + j)%nat with (k + S j)%nat by lia. }
      unfold best' in Eb. destruct (eqb skip (Some k)) eqn:Ee.
      * left. exists b. split; auto.
      * destruct (Hx eq_refl) as [Hxb Hprev]. destruct best as [[i0 b0]|].
        -- destruct (Qle_bool x b0) eqn:El.
           ++ left. exists b. split; auto.
           ++ injection Eb as Er Exb. right. exists 0%nat. rewrite <- Er, Nat.add_0_r. cbn [nth List.length]. subst b. split; [auto|]. split; [lia|]. split; [auto|exact Hall'].
        -- injection Eb as Er Exb. right. exists 0%nat. rewrite <- Er, Nat.add_0_r. cbn [nth List.length]. subst b. split; [auto|]. split; [lia|]. split; [auto|exact Hall'].
    + right. exists (S j). cbn [nth List.length]. repeat split; [lia|lia| |].
      * intros i b E. unfold best' in Hge. destruct (eqb skip (Some k)); [eauto|]. rewrite E in Hge.
        destruct (Qle_bool x b) eqn:El; [eauto|]. specialize (Hge k x eq_refl). destruct (Qlt_le_dec b x); [lra|]. apply Qle_bool_iff in q. congruence.
      * intros [|j'] Hj' Hs'; cbn [nth].
        -- rewrite Nat.add_0_r in Hs'. apply eqb_neq in Hs'. unfold best' in Hge. rewrite Hs' in Hge. destruct best as [[i0 b0]|]; [|eauto].
           destruct (Qle_bool x b0) eqn:El; [|eauto]. specialize (Hge _ _ eq_refl). apply Qle_bool_iff in El. lra.
        -- apply Hall; [lia|]. now replace (S k + j')%nat with (k + S j')%nat by lia.
Qed.

Lemma ex_topk_ok : topk_ok ex_topk.
Proof.
  intros row Hl. unfold ex_topk.
  destruct (argmax_spec row None 0 None) as [_ [(b & [=] & _)|(i & -> & Hi & _ & Hmax)]]; [discriminate|right; exists 0%nat; split; [lia|discriminate]|].
  cbn [Nat.add]. set (i' := i) in *.
  destruct (argmax_spec row (Some i') 0 None) as [Hs [(b & [=] & _)|(j & Ej & Hj & _ & Hmax2)]].
  - discriminate.
  - right. destruct i' as [|k] eqn:Ei; [exists 1%nat|exists 0%nat]; (split; [lia|intros [= H]; lia]).
  - rewrite Ej. rewrite Ej in Hs. cbn [Nat.add] in *. split; [congruence|]. split; [auto|]. split; [auto|]. split; [apply Hmax; [auto|discriminate]|].
    intros k Hk Hki. apply Hmax2; auto. intros [= H]. auto.
Qed.

Definition ex_genome : genome nat :=
  {| g_models := [10; 11; 12]%nat; g_method := "ties"; g_base := Some 9%nat; g_tokenizer := false; g_granularity := 2; g_normalize := None;
     g_negative := false; g_filters := Some ["mlp"]; g_smooth := false; g_layers := 4 |}.
(** 2 groups x 3 models x 2 sets x 2 parameters *)
Definition ex_flat : list Q := map (fun k => (Z.of_nat k - 7 # 5)%Q) (seq 0 24).
Example C42_nonvacuous : exists c slices,
  validate ex_genome = Ok tt /\ genotype_merge_config ex_topk ex_softmax ex_genome (Flat ex_flat) = Ok c /\
  mc_slices c = Some slices /\ List.length slices = 2%nat /\
  (exists v, model_setting c 11%nat "density" v) /\ set_for (filters ex_genome) (Some "model.layers.1.self_attn.q_proj.weight") 1.
Proof.
  do 2 eexists. split; [reflexivity|]. split; [vm_compute; reflexivity|]. split; [reflexivity|]. split; [reflexivity|]. split.
  - eexists. left. do 4 eexists. split; [reflexivity|]. split; [now left|]. split; [right; now left|]. split; [reflexivity|]. split; [reflexivity|]. right. now left.
  - split; [|now right]. intros [|i] f Hi; [|lia]. intros [= <-]. intros H. apply filter_matches_spec in H. vm_compute in H. discriminate.
Qed.
Definition ex_smooth : genome nat :=
  {| g_models := [10; 11]%nat; g_method := "task_arithmetic"; g_base := Some 9%nat; g_tokenizer := false; g_granularity := 1; g_normalize := None;
     g_negative := false; g_filters := None; g_smooth := true; g_layers := 3 |}.
Example C42_smooth_nonvacuous : exists c ms,
  validate ex_smooth = Ok tt /\ genotype_merge_config ex_topk ex_softmax ex_smooth (Flat [1; -2; 3; -4; 5; -6]%Q) = Ok c /\
  mc_models c = Some ms /\ model_setting c 11%nat "weight" (PList [PNum 2; PNum 4; PNum 6]).
Proof.
  do 2 eexists. split; [reflexivity|]. split; [vm_compute; reflexivity|]. split; [reflexivity|].
  right. do 3 eexists. split; [reflexivity|]. split; [right; now left|]. split; [reflexivity|]. split; [reflexivity|]. now left.
Qed.
Definition ex_slerp : genome nat :=
  {| g_models := [10; 11; 12]%nat; g_method := "slerp"; g_base := Some 11%nat; g_tokenizer := true; g_granularity := 2; g_normalize := None;
     g_negative := false; g_filters := None; g_smooth := false; g_layers := 4 |}.
Example C42_slerp_nonvacuous : exists c slices,
  validate ex_slerp = Ok tt /\ extra_base ex_slerp = None /\
  genotype_merge_config ex_topk ex_softmax ex_slerp (Flat [1; 3; 2; -1; -2; -3]%Q) = Ok c /\
  mc_slices c = Some slices /\ map os_base slices = [Some 11; Some 10]%nat /\
  map (fun s => map is_model (os_sources s)) slices = [[11; 12]; [10; 11]]%nat.
Proof. do 2 eexists. split; [reflexivity|]. split; [reflexivity|]. split; [vm_compute; reflexivity|]. repeat split. Qed.
Example C42_slerp_base_nonvacuous : exists (g : genome nat) x c,
  validate g = Ok tt /\ extra_base g = Some 9%nat /\ g_method g = "slerp" /\ genotype_merge_config ex_topk ex_softmax g x = Ok c.
Proof.
  exists {| g_models := [10; 11]%nat; g_method := "slerp"; g_base := Some 9%nat; g_tokenizer := false; g_granularity := 0; g_normalize := None;
     g_negative := false; g_filters := None; g_smooth := false; g_layers := 4 |}, (Flat [1; 2]%Q).
  eexists. split; [reflexivity|]. split; [reflexivity|]. split; [reflexivity|]. vm_compute. reflexivity.
Qed.
