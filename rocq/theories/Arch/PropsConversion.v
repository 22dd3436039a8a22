(** C66: converting checkpoints of an older layout. *)
From Coq Require Import Permutation Sorting.Sorted.
From Verif.Base Require Import Py PyFacts PyStr.
From Verif.Arch Require Import Conversion ConversionSpec ConversionProofs.
Local Open Scope string_scope.
Local Open Scope list_scope.

(** Sorting the names never fails: numbers are only compared with numbers and text with text. *)
Theorem C66_sorting_total keys : exists r, natural_sorted [] keys = Ok r /\ Permutation r keys.
Proof. destruct (sorted_keys keys) as (r & H1 & H2 & _). eauto. Qed.

(** Numbered names are compared by their number, not by its digits. *)
Theorem C66_numeric p r i j : starts_plain r -> natural_lt (numbered p r i) (numbered p r j) = Ok (i <? j)%nat.
Proof. intros Hr. now rewrite natural_lt_ok, numbered_order. Qed.

(** The tensors of a numbered pattern reach the transform in the order of their numbers, whatever the order of the
    checkpoint: expert [i] of the combined tensor is expert [i] of the checkpoint. *)
Theorem C66_experts_in_order {T} (tr : transform T) target (avail : dict string (result T)) ms l pat p r n :
  starts_plain r -> NoDup (dkeys avail) -> matches tr (dkeys avail) = Ok ms -> In target (expanded l (tr_targets tr)) ->
  (forall k, In k (dkeys avail) /\ tr_rename tr k = (l, Some pat) <-> exists i, (i < n)%nat /\ k = numbered p r i) ->
  filter (fun a => eqb (ad_pattern a) pat) (collected avail (filter (relevant tr target) ms) l) =
  map (fun i => {| ad_key := numbered p r i; ad_pattern := pat; ad_value := source_of avail (numbered p r i) |}) (seq 0 n).
Proof.
  intros Hr HN Hms Ht Hk. pose proof Hms as Hms'. unfold matches in Hms'. destruct (sorted_keys (dkeys avail)) as (srt & Es & Hp & Hs). rewrite Es in Hms'. cbn [rbind] in Hms'.
  assert (Ems : ms = flat_map (fun k => match tr_rename tr k with
                         | (r, Some p) => [{| tm_source := k; tm_renamed := r; tm_pattern := p; tm_wild := wildcard_values p k |}]
                         | (_, None) => []
                         end) srt) by congruence.
  set (isx := fun k => match tr_rename tr k with (l', Some p') => eqb l' l && eqb p' pat | _ => false end).
  assert (Hx : forall k, isx k = true <-> tr_rename tr k = (l, Some pat)).
  { intros k. unfold isx. destruct (tr_rename tr k) as [l' [p'|]]; [|split; discriminate]. rewrite andb_true_iff, !eqb_iff. split; [intros [-> ->]; reflexivity|intros [= -> ->]; auto]. }
  assert (E1 : filter (fun a => eqb (ad_pattern a) pat) (collected avail (filter (relevant tr target) ms) l) =
               map (fun k => {| ad_key := k; ad_pattern := pat; ad_value := source_of avail k |}) (filter isx srt)).
  { rewrite Ems. clear Ems Hms Hms' Es Hp Hs. unfold collected. induction srt as [|k srt IH]; [reflexivity|]. cbn [flat_map filter].
    unfold isx at 1. destruct (tr_rename tr k) as [l' [p'|]] eqn:E; cbn [app]; [|exact IH]. cbn [filter]. unfold relevant at 1. cbn [tm_renamed].
    destruct (eqb_spec l' l) as [->|Hl].
    - rewrite (proj2 (mem_In _ _) Ht). cbn [filter tm_renamed]. rewrite eqb_refl. cbn [map filter ad_pattern tm_pattern tm_source].
      destruct (eqb_spec p' pat) as [->|Hpp]; cbn [andb]; [|exact IH]. cbn [map]. f_equal. exact IH.
    - cbn [andb]. destruct (mem target (expanded l' (tr_targets tr))); [|exact IH]. cbn [filter tm_renamed].
      destruct (eqb_spec l' l); [contradiction|]. exact IH. }
  rewrite E1.
  assert (HNs : NoDup (filter isx srt)) by (apply NoDup_filter; eapply Permutation_NoDup; [symmetry; exact Hp|exact HN]).
  assert (Hss : StronglySorted no_later (filter isx srt)).
  { clear -Hs. induction Hs as [|x srt Hs IH Hx]; cbn [filter]; [constructor|]. destruct (isx x); [|exact IH]. constructor; [exact IH|].
    rewrite Forall_forall in *. intros y Hy. apply filter_In in Hy as [Hy _]. now apply Hx. }
  assert (Hin : forall k, In k (filter isx srt) <-> exists i, (i < n)%nat /\ k = numbered p r i).
  { intros k. rewrite filter_In, Hx, <- Hk. split; intros [H1 H2]; (split; [|exact H2]); [exact (Permutation_in _ Hp H1)|exact (Permutation_in _ (Permutation_sym Hp) H1)]. }
  generalize dependent (filter isx srt). intros ks _ HNs Hss Hin.
  assert (Hidx : exists is, ks = map (numbered p r) is).
  { assert (Ha : forall k, In k ks -> exists i, k = numbered p r i) by (intros k H; apply Hin in H as (i & _ & ->); eauto). clear -Ha.
    induction ks as [|k ks IH]; [now exists []|]. destruct (Ha k (or_introl eq_refl)) as (i & ->). destruct IH as (is & ->); [intros; apply Ha; now right|].
    now exists (i :: is). }
  destruct Hidx as (is & ->). rewrite map_map. f_equal.
  apply sorted_seq.
  - clear -Hss Hr. induction is as [|i is IH]; [constructor|]. cbn [map] in Hss. inversion Hss as [|? ? H1 H2]; subst. constructor; [auto|].
    rewrite Forall_forall in *. intros j Hj. specialize (H2 (numbered p r j)). unfold no_later in H2. rewrite numbered_order in H2 by exact Hr.
    apply Nat.ltb_ge, H2. now apply in_map.
  - now apply NoDup_map_inv in HNs.
  - intros i. split.
    + intros Hi. assert (H : In (numbered p r i) (map (numbered p r) is)) by now apply in_map. apply Hin in H as (j & Hj & E). apply numbered_inj in E. now subst.
    + intros Hi. assert (H : In (numbered p r i) (map (numbered p r) is)) by (apply Hin; eauto). apply in_map_iff in H as (j & E & Hj). apply numbered_inj in E. now subst.
Qed.

(** If the names say that a weight can be had, loading it succeeds: the transforms keep their promise for complete groups,
    and the weight is not made in two ways. *)
Theorem C66_promise_kept {T} iter (registry : string -> list (transform T)) model_type sources target :
  (forall l, Permutation (iter l) l) -> loadable sources ->
  (forall mt, model_type = Some mt ->
     (forall tr, In tr (registry mt) -> tr_renaming tr = false -> honours tr) /\ unambiguous (dkeys sources) (registry mt) target) ->
  can_convert registry model_type (dkeys sources) target = Ok true ->
  exists t, load iter registry model_type sources target = Ok (Some t).
Proof.
  intros Hiter Hl Hh. unfold can_convert, load, convert_checkpoint.
  destruct (dget sources target) as [r|] eqn:E.
  - intros _. destruct (Hl _ _ E) as (t & ->). cbn. eauto.
  - apply dget_None in E. rewrite (proj2 (mem_nIn _ _) E). destruct model_type as [[|c mt]|]; try discriminate.
    destruct (Hh _ eq_refl) as [Hh' Hu]. destruct (registry (String c mt)) as [|tr trs]; [discriminate|].
    intros H. eapply can_convert_sound; eauto.
Qed.

(** With renamings only, the tensor is one whose name turns into the wanted one, and there is one whenever such a name exists. *)
Theorem C66_renamed {T} iter (trs : list (transform T)) sources target :
  (forall l, Permutation (iter l) l) -> (forall tr, In tr trs -> tr_renaming tr = true) ->
  (forall t, convert_from iter trs target sources = Ok (Some t) -> exists s, renames trs s target /\ dget sources s = Some (Ok t)) /\
  (loadable sources -> (exists s, renames trs s target /\ In s (dkeys sources)) -> exists t, convert_from iter trs target sources = Ok (Some t)).
Proof.
  intros Hiter Hr. split.
  - intros t. now apply renaming_from.
  - intros Hl (s & Hs & Hk). eapply renaming_to; eauto.
Qed.

(** ** A transform like Mixtral's: rename the block, then stack the experts' two projections *)
Definition block : transform (list nat) :=
  {| tr_renaming := true;
     tr_rename := fun k => match partition_at ".block_sparse_moe." k with Some (a, b) => ((a ++ ".mlp." ++ b)%string, Some ".block_sparse_moe.") | None => (k, None) end;
     tr_sources := [".block_sparse_moe."]; tr_targets := [".mlp."]; tr_convert := fun _ _ => Ok [] |}.
Definition projection (k : string) : option (string * string) :=
  match partition_at "experts." k with
  | None => None
  | Some (a, _) => if infix ".w1.weight" k then Some (a, "experts.*.w1.weight") else if infix ".w3.weight" k then Some (a, "experts.*.w3.weight") else None
  end.
Fixpoint values (l : list (added (list nat))) : result (list nat) :=
  match l with [] => Ok [] | a :: l => let! x := ad_value a in let! r := values l in Ok (x ++ r) end.
Definition gate_up : transform (list nat) :=
  {| tr_renaming := false;
     tr_rename := fun k => match projection k with Some (a, p) => ((a ++ "experts.gate_up_proj")%string, Some p) | None => (k, None) end;
     tr_sources := ["experts.*.w1.weight"; "experts.*.w3.weight"]; tr_targets := ["experts.gate_up_proj"];
     tr_convert := fun l adds => let! a := values (filter (fun x => eqb (ad_pattern x) "experts.*.w1.weight") adds) in
                                 let! b := values (filter (fun x => eqb (ad_pattern x) "experts.*.w3.weight") adds) in Ok [(l, a ++ b)] |}.
Definition a_registry (mt : string) : list (transform (list nat)) := [block; gate_up].
(** a checkpoint with twelve experts, in the order of a file sorted by name *)
Definition expert (w : string) (i : nat) : string := numbered "model.layers.0.block_sparse_moe.experts" ("." ++ w ++ ".weight") i.
Definition by_name : list nat := [0; 1; 10; 11; 2; 3; 4; 5; 6; 7; 8; 9].
Definition a_checkpoint : dict string (result (list nat)) :=
  map (fun i => (expert "w1" i, Ok [i])) by_name ++ map (fun i => (expert "w3" i, Ok [100 + i])) by_name.
Definition a_target : string := "model.layers.0.mlp.experts.gate_up_proj".

Lemma values_ok l : (forall a, In a l -> exists t, ad_value a = Ok t) -> exists r, values l = Ok r.
Proof.
  induction l as [|a l IH]; intros H; cbn; [eauto|]. destruct (H a (or_introl eq_refl)) as (t & ->). destruct IH as (r & ->); [intros; apply H; now right|]. cbn. eauto.
Qed.
Lemma gate_up_honours : honours gate_up.
Proof.
  intros l adds Hne Ha _. assert (Hf : forall f, exists r, values (filter f adds) = Ok r).
  { intros f. apply values_ok. intros a Hin. apply filter_In in Hin as [Hin _]. now apply Ha. }
  cbn [tr_convert gate_up]. destruct (Hf (fun x => eqb (ad_pattern x) "experts.*.w1.weight")) as (a & ->).
  destruct (Hf (fun x => eqb (ad_pattern x) "experts.*.w3.weight")) as (b & ->). cbn [rbind]. eexists. split; [reflexivity|].
  intros t Ht. cbn [tr_targets gate_up] in Ht. rewrite expanded_one in Ht. destruct Ht as [<-|[]]. cbn [dget]. rewrite eqb_refl. eauto.
Qed.
Lemma a_unambiguous : unambiguous (dkeys a_checkpoint) [block; gate_up] a_target.
Proof.
  assert (Hg : forall k r, makes gate_up a_target k r -> r = a_target).
  { intros k r (p & _ & H). cbn [tr_renaming gate_up tr_targets] in H. rewrite expanded_one in H. now destruct H as [<-|[]]. }
  assert (Hb : ~ produces (dkeys a_checkpoint) [] block a_target).
  { intros (s & k & r & Hs & Hp & (p & E & Hr)). inversion Hp; subst. cbn [tr_renaming block] in Hr. subst r.
    assert (Hx : forallb (fun k => negb (eqb (fst (tr_rename block k)) a_target)) (dkeys a_checkpoint) = true) by (vm_compute; reflexivity).
    rewrite forallb_forall in Hx. specialize (Hx _ Hs). rewrite E in Hx. cbn [fst] in Hx. now rewrite eqb_refl in Hx. }
  split.
  - intros pre tr post s k r s' k' r' E Hr _ _ Hm _ _ Hm'. assert (Hin : In tr [block; gate_up]) by (rewrite E; apply in_app_iff; right; now left).
    destruct Hin as [<-|[<-|[]]]; [discriminate|]. apply Hg in Hm, Hm'. congruence.
  - intros pre tr mid tr' post E Hp. exfalso. destruct pre as [|x pre].
    + injection E as <- _. contradiction.
    + exfalso. injection E as _ E. destruct pre as [|y pre]; cbn in E; [|injection E as _ E; now destruct pre]. injection E as _ E. now destruct mid.
Qed.

Lemma a_keys : NoDup (dkeys a_checkpoint).
Proof. assert (E : dedup (dkeys a_checkpoint) = dkeys a_checkpoint) by (vm_compute; reflexivity). rewrite <- E. apply dedup_NoDup. Qed.
Definition expert_block : string := "model.layers.0.block_sparse_moe.experts.gate_up_proj".
Example C66_order_nonvacuous : exists ms,
  starts_plain ".w1.weight" /\ matches gate_up (dkeys a_checkpoint) = Ok ms /\ In expert_block (expanded expert_block (tr_targets gate_up)) /\
  (forall k, In k (dkeys a_checkpoint) /\ tr_rename gate_up k = (expert_block, Some "experts.*.w1.weight") <-> exists i, (i < 12)%nat /\ k = expert "w1" i).
Proof.
  eexists. split; [reflexivity|]. split; [vm_compute; reflexivity|]. split; [cbn [tr_targets gate_up]; rewrite expanded_one; now left|]. intros k. split.
  - intros [Hk E]. unfold a_checkpoint in Hk. unfold dkeys in Hk. rewrite map_app, !map_map in Hk. apply in_app_iff in Hk as [Hk|Hk]; apply in_map_iff in Hk as (i & <- & Hi); cbn [fst] in *.
    + exists i. split; [|reflexivity]. assert (Hx : forallb (fun i => i <? 12)%nat by_name = true) by reflexivity. rewrite forallb_forall in Hx. now apply Nat.ltb_lt, Hx.
    + exfalso. assert (Hx : forallb (fun i => negb (eqb (snd (tr_rename gate_up (expert "w3" i))) (Some "experts.*.w1.weight"))) by_name = true) by (vm_compute; reflexivity).
      rewrite forallb_forall in Hx. specialize (Hx _ Hi). rewrite E in Hx. cbn [snd] in Hx. now rewrite eqb_refl in Hx.
  - intros (i & Hi & ->). split.
    + unfold a_checkpoint, dkeys. rewrite map_app, !map_map. apply in_app_iff. left. apply (in_map (fun i => expert "w1" i)).
      do 12 (destruct i as [|i]; [cbn; tauto|]). lia.
    + do 12 (destruct i as [|i]; [vm_compute; reflexivity|]). lia.
Qed.
Example C66_experts_nonvacuous :
  exists iter, (forall l : list string, Permutation (iter l) l) /\ loadable a_checkpoint /\ NoDup (dkeys a_checkpoint) /\
  (forall tr, In tr (a_registry "mixtral") -> tr_renaming tr = false -> honours tr) /\ unambiguous (dkeys a_checkpoint) (a_registry "mixtral") a_target /\
  can_convert a_registry (Some "mixtral") (dkeys a_checkpoint) a_target = Ok true /\
  load iter a_registry (Some "mixtral") a_checkpoint a_target = Ok (Some (seq 0 12 ++ seq 100 12)).
Proof.
  exists (fun l => l). split; [reflexivity|]. split; [|split; [|split; [|split; [exact a_unambiguous|split; vm_compute; reflexivity]]]].
  2: exact a_keys.
  2: { intros tr [<-|[<-|[]]] Hr; [discriminate|exact gate_up_honours]. }
  intros k r Hr. apply dget_In in Hr. unfold a_checkpoint in Hr. apply in_app_iff in Hr as [Hr|Hr]; apply in_map_iff in Hr as (i & E & _); injection E as _ <-; eauto.
Qed.
Example C66_renamed_nonvacuous :
  convert_from (fun l => l) [block] "model.layers.0.mlp.experts.11.w1.weight" a_checkpoint = Ok (Some [11]).
Proof. vm_compute. reflexivity. Qed.

(** ** The weights a combination stands for *)
Lemma prefix_split_iff p s : String.prefix p s = true <-> exists r, s = (p ++ r)%string.
Proof.
  revert s. induction p as [|c p IH]; intros s; cbn [String.prefix String.append].
  - split; [eauto|intros _; now destruct s].
  - destruct s as [|c' s]; [split; [discriminate|intros (r & E); discriminate]|]. cbn [String.prefix]. destruct (Ascii.ascii_dec c c') as [<-|Hc].
    + rewrite IH. split; intros (r & E); exists r; [now rewrite E|now injection E].
    + split; [discriminate|]. intros (r & E). injection E as E _. congruence.
Qed.
Lemma partition_first sep s : match partition_at sep s with
  | Some (u, _) => forall u' v', s = (u' ++ sep ++ v')%string -> (String.length u <= String.length u')%nat
  | None => forall u v, s <> (u ++ sep ++ v)%string
  end.
Proof.
  induction s as [|c s IH]; cbn [partition_at]; (destruct (String.prefix sep _) eqn:E; [intros u' v' _; apply Nat.le_0_l|]).
  - intros [|d u] v H; cbn in H; [|discriminate]. assert (String.prefix sep "" = true) by (apply prefix_split_iff; eauto). congruence.
  - assert (H0 : forall v, String c s <> (sep ++ v)%string) by (intros v H; assert (String.prefix sep (String c s) = true) by (apply prefix_split_iff; eauto); congruence).
    destruct (partition_at sep s) as [[u v]|].
    + intros [|d u'] v' H; [now elim (H0 v')|]. cbn in H. injection H as _ H. cbn. apply le_n_S, (IH _ _ H).
    + intros [|d u'] v' H; [now elim (H0 v')|]. cbn in H. injection H as _ H. exact (IH _ _ H).
Qed.
(** A renamed tensor stands for one weight for every target pattern: the first occurrence of the first pattern is replaced
    by each of them. Without an occurrence it stands for itself. *)
Theorem C66_targets renamed t0 ts x :
  In x (expanded renamed (t0 :: ts)) <->
  (exists u v t, renamed = (u ++ t0 ++ v)%string /\
     (forall u' v', renamed = (u' ++ t0 ++ v')%string -> (String.length u <= String.length u')%nat) /\
     In t (t0 :: ts) /\ x = (u ++ t ++ v)%string) \/
  ((forall u v, renamed <> (u ++ t0 ++ v)%string) /\ x = renamed).
Proof.
  unfold expanded. pose proof (partition_first t0 renamed) as Hf. destruct (partition_at t0 renamed) as [[u v]|] eqn:E.
  - apply partition_parts in E. rewrite in_map_iff. split.
    + intros (t & <- & Ht). left. exists u, v, t. auto.
    + intros [(u' & v' & t & E' & Hm & Ht & ->)|[H _]]; [|now elim (H u v)].
      assert (Hl : String.length u = String.length u') by (apply Nat.le_antisymm; [eapply Hf; eauto|eapply Hm; eauto]).
      rewrite E in E'. clear -E' Hl Ht. exists t. split; [|exact Ht].
      enough (Hu : u = u' /\ v = v') by (destruct Hu as [-> ->]; reflexivity).
      revert u' E' Hl. induction u as [|c u IH]; intros [|d u'] E Hl; try discriminate; cbn in E.
      * split; [reflexivity|]. now apply app_str_inj_l in E.
      * injection E as -> E. cbn in Hl. destruct (IH u' E) as [-> ->]; auto.
  - cbn. split.
    + intros [<-|[]]. auto.
    + intros [(u & v & t & H & _)|[_ ->]]; [now elim (Hf u v)|auto].
Qed.
Example C66_targets_nonvacuous :
  In "layers.0.mlp.up_proj.weight" (expanded "layers.0.mlp.gate_proj.weight" ["gate_proj"; "up_proj"]).
Proof. apply C66_targets. left. exists "layers.0.mlp.", ".weight", "up_proj". cbn. repeat split; auto.
  intros u' v' H. do 13 (destruct u' as [|? u']; [discriminate H|injection H as _ H]). cbn. lia. Qed.

(** What a combination makes without making the weight that is asked for is there for the transforms after it, and hides
    what had its name before. *)
Theorem C66_chained {T} iter (tr : transform T) trs target (avail : dict string (result T)) ms l conv :
  (forall l, Permutation (iter l) l) ->
  tr_renaming tr = false -> matches tr (dkeys avail) = Ok ms ->
  (exists m, In m ms /\ relevant tr target m = true) ->
  (forall m, In m ms -> relevant tr target m = true -> tm_renamed m = l) ->
  tr_convert tr l (collected avail (filter (relevant tr target) ms) l) = Ok conv -> NoDup (dkeys conv) -> dget conv target = None ->
  exists avail', convert_from iter (tr :: trs) target avail = convert_from iter trs target avail' /\
    forall k, dget avail' k = match dget conv k with Some t => Some (Ok t) | None => dget avail k end.
Proof.
  intros Hiter Hr Hms (m & Hm & Hrel) Hone Hc HN Ht. cbn [convert_from]. rewrite Hms. cbn [rbind]. rewrite Hr.
  assert (E : dedup (map tm_renamed (filter (relevant tr target) ms)) = [l]).
  { assert (Hall : forall x, In x (dedup (map tm_renamed (filter (relevant tr target) ms))) -> x = l).
    { intros x Hx. apply dedup_In, in_map_iff in Hx as (m' & <- & Hm'). apply filter_In in Hm' as [H1 H2]. auto. }
    assert (Hl : In l (dedup (map tm_renamed (filter (relevant tr target) ms)))).
    { apply dedup_In, in_map_iff. exists m. split; [auto|]. now apply filter_In. }
    pose proof (dedup_NoDup (map tm_renamed (filter (relevant tr target) ms))) as Hd.
    destruct (dedup (map tm_renamed (filter (relevant tr target) ms))) as [|x [|y r]]; [destruct Hl|..].
    - now rewrite (Hall x (or_introl eq_refl)).
    - exfalso. inversion Hd as [|? ? H1 _]; subst. apply H1. left. rewrite (Hall x), (Hall y); cbn; auto. }
  rewrite E. assert (Ei : iter [l] = [l]) by (apply Permutation_length_1_inv; symmetry; apply Hiter). rewrite Ei.
  cbn [run_layers]. rewrite Hc. cbn [rbind]. rewrite Ht. eexists. split; [reflexivity|]. intros k. clear -HN.
  revert avail. induction conv as [|[k' t] conv IH]; intros avail; cbn [fold_left dget fst snd]; [reflexivity|].
  unfold dkeys in HN. cbn [map fst] in HN. inversion HN as [|? ? H1 H2]; subst. rewrite IH by exact H2.
  destruct (eqb_spec k k') as [->|Hk].
  - assert (dget conv k' = None) as -> by (apply dget_None; exact H1). now rewrite dget_dset_eq.
  - destruct (dget conv k); [reflexivity|]. now rewrite dget_dset_neq.
Qed.
(** first the halves are joined, then the joined tensor is turned over *)
Definition joined : transform (list nat) :=
  {| tr_renaming := false; tr_rename := fun k => if infix "half" k then ("both", Some "half.*") else (k, None);
     tr_sources := ["half.*"]; tr_targets := ["both"; "whole"];
     tr_convert := fun l adds => let! r := values adds in Ok [("joined", r)] |}.
Definition turned : transform (list nat) :=
  {| tr_renaming := false; tr_rename := fun k => if eqb k "joined" then ("whole", Some "joined") else (k, None);
     tr_sources := ["joined"]; tr_targets := ["whole"];
     tr_convert := fun l adds => let! r := values adds in Ok [(l, rev r)] |}.
Example C66_chained_nonvacuous :
  let avail := [("half.0", Ok [1; 2]); ("half.1", Ok [3])] in
  exists ms, matches joined (dkeys avail) = Ok ms /\ (exists m, In m ms /\ relevant joined "whole" m = true) /\
  (forall m, In m ms -> relevant joined "whole" m = true -> tm_renamed m = "both") /\
  tr_convert joined "both" (collected avail (filter (relevant joined "whole") ms) "both") = Ok [("joined", [1; 2; 3])] /\
  convert_from (fun l => l) [joined; turned] "whole" avail = Ok (Some [3; 2; 1]).
Proof.
  cbv zeta. eexists. split; [vm_compute; reflexivity|]. split; [eexists; split; [left; reflexivity|vm_compute; reflexivity]|].
  split; [|split; vm_compute; reflexivity]. intros m [<-|[<-|[]]]; reflexivity.
Qed.

(** ** What is wrong *)
(** A block with a single expert is judged incomplete although converting it works: the weight is not required from that
    model. *)
Theorem C66_single_expert_refuted :
  let sources := [(expert "w1" 0, Ok [0]); (expert "w3" 0, Ok [100])] in
  can_convert a_registry (Some "mixtral") (dkeys sources) a_target = Ok false /\
  load (fun l => l) a_registry (Some "mixtral") sources a_target = Ok (Some [0; 100]).
Proof. cbv zeta. split; vm_compute; reflexivity. Qed.

(** A combination that is incomplete ends the search, although a later transform makes the weight. *)
Definition one_step (target : string) : transform (list nat) :=
  {| tr_renaming := true; tr_rename := fun k => if eqb k "spare" then (target, Some "spare") else (k, None);
     tr_sources := ["spare"]; tr_targets := [target]; tr_convert := fun _ _ => Ok [] |}.
Definition strict (tr : transform (list nat)) : transform (list nat) :=
  {| tr_renaming := tr_renaming tr; tr_rename := tr_rename tr; tr_sources := tr_sources tr; tr_targets := tr_targets tr;
     tr_convert := fun l adds => if (length adds <? 3)%nat then Err ValueError else tr_convert tr l adds |}.
Definition lenient (tr : transform (list nat)) : transform (list nat) :=
  {| tr_renaming := tr_renaming tr; tr_rename := tr_rename tr; tr_sources := tr_sources tr; tr_targets := tr_targets tr;
     tr_convert := fun l adds => if (length adds <? 3)%nat then Ok [] else tr_convert tr l adds |}.
Theorem C66_stops_early_refuted :
  let sources := [(expert "w1" 0, Ok [0]); (expert "w3" 0, Ok [100]); ("spare", Ok [7])] in
  let registry := fun _ => [block; lenient gate_up; one_step a_target] in
  can_convert registry (Some "mixtral") (dkeys sources) a_target = Ok false /\
  load (fun l => l) registry (Some "mixtral") sources a_target = Ok (Some [7]).
Proof. cbv zeta. split; vm_compute; reflexivity. Qed.

(** When a weight can be made in two ways, the promise is broken: the names count on the renaming, the conversion tries the
    incomplete combination first and fails. *)
Theorem C66_two_ways_refuted :
  let sources := [(expert "w1" 0, Ok [0]); ("spare", Ok [7])] in
  let registry := fun _ => [block; strict gate_up; one_step a_target] in
  can_convert registry (Some "mixtral") (dkeys sources) a_target = Ok true /\
  load (fun l => l) registry (Some "mixtral") sources a_target = Err ValueError.
Proof. cbv zeta. split; vm_compute; reflexivity. Qed.

Print Assumptions C66_sorting_total.
Print Assumptions C66_numeric.
Print Assumptions C66_experts_in_order.
Print Assumptions C66_promise_kept.
Print Assumptions C66_renamed.
Print Assumptions C66_targets.
Print Assumptions C66_chained.
Print Assumptions C66_single_expert_refuted.
Print Assumptions C66_stops_early_refuted.
Print Assumptions C66_two_ways_refuted.
