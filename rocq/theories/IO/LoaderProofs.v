(** The loader: history independence, and reading back what the writer left. *)
From Coq Require Import Ascii.
From Verif.Base Require Import Py PyFacts PyStr.
From Verif.IO Require Import Model Spec WriterProofs FsProofs DirProofs.
Local Open Scope string_scope.
Local Open Scope list_scope.

(** ** suffixes *)
Lemma substring_app_r a b n : String.substring (String.length a) n (a ++ b)%string = String.substring 0 n b.
Proof. induction a as [|c a IH]; cbn; auto. Qed.
Lemma substring_all s : String.substring 0 (String.length s) s = s.
Proof. induction s as [|c s IH]; cbn; congruence. Qed.
Lemma length_app_str a b : String.length (a ++ b)%string = String.length a + String.length b.
Proof. induction a as [|c a IH]; cbn; auto. Qed.
Lemma ends_with_app a suf : ends_with suf (a ++ suf)%string = true.
Proof.
  unfold ends_with. rewrite length_app_str. replace (_ + _ - _) with (String.length a) by lia.
  rewrite substring_app_r, substring_all, eqb_refl, andb_true_r. apply Nat.leb_le. lia.
Qed.
Fixpoint lastc (s : string) : option ascii :=
  match s with EmptyString => None | String c EmptyString => Some c | String _ r => lastc r end.
Lemma lastc_app a b : b <> "" -> lastc (a ++ b)%string = lastc b.
Proof.
  intros Hb. induction a as [|c a IH]; [reflexivity|]. cbn. rewrite <- IH. destruct (a ++ b)%string eqn:E; [|reflexivity].
  destruct a; [|discriminate]. cbn in E. congruence.
Qed.
Lemma substring_split s : forall k, k <= String.length s ->
  s = (String.substring 0 k s ++ String.substring k (String.length s - k) s)%string.
Proof.
  induction s as [|c s IH]; intros k Hk; cbn in Hk.
  - replace k with 0 by lia. reflexivity.
  - destruct k as [|k]; cbn.
    + now rewrite substring_all.
    + now rewrite <- IH by lia.
Qed.
Lemma ends_with_lastc suf s : suf <> "" -> ends_with suf s = true -> lastc s = lastc suf.
Proof.
  intros Hs. unfold ends_with. rewrite andb_true_iff, Nat.leb_le. intros [Hl E].
  destruct (eqb_spec (String.substring (String.length s - String.length suf) (String.length suf) s) suf) as [E'|]; [|discriminate].
  rewrite (substring_split s (String.length s - String.length suf)) by lia.
  replace (String.length s - (String.length s - String.length suf)) with (String.length suf) by lia.
  rewrite E'. now apply lastc_app.
Qed.

Section L.
Context {T : Type}.
Implicit Types (f : fs T) (w : writer T) (ix : index).

(** ** C20 *)
Definition opened f ix (st : loader_state (T:=T)) : Prop :=
  forall d, st = Some d -> exists k file, dget (ix_paths ix) k = Some file /\ open_shard f file = Ok d.

Lemma resolve_find ix k aliases :
  match find (fun x => dmem (ix_paths ix) x) (k :: aliases) with
  | Some x => resolve ix k aliases = x /\ dmem (ix_paths ix) x = true
  | None => resolve ix k aliases = k /\ dmem (ix_paths ix) k = false
  end.
Proof.
  unfold resolve. cbn [find]. destruct (dmem (ix_paths ix) k) eqn:E; [auto|].
  destruct (find _ aliases) as [a|] eqn:Ef; [|auto]. split; [reflexivity|]. now apply find_some in Ef.
Qed.

Lemma get_tensor_consistent f ix st k aliases raise : consistent f ix -> opened f ix st ->
  opened f ix (fst (get_tensor f ix st k aliases raise)) /\
  snd (get_tensor f ix st k aliases raise) = expected f ix k aliases raise.
Proof.
  intros [C1 C2] Ho. unfold get_tensor, expected. pose proof (resolve_find ix k aliases) as Hr.
  destruct (find _ (k :: aliases)) as [x|]; destruct Hr as [-> Hx].
  - apply dmem_In, dget_Some_key in Hx as [file Hf]. unfold stored. rewrite Hf.
    destruct (C1 x file Hf) as (d & Hd & Hin). rewrite Hd.
    assert (Hget : exists t, dget d x = Some t) by now apply dget_Some_key. destruct Hget as [t Ht].
    assert (Hopen : opened f ix (Some d)) by (intros d' [= <-]; eauto).
    destruct st as [d0|]; [|rewrite Ht; cbn; auto].
    destruct (dmem d0 x) eqn:Em; [|rewrite Ht; cbn; auto].
    cbn. split; [exact Ho|]. destruct (Ho d0 eq_refl) as (k' & file' & Hk' & Hd').
    apply dmem_In in Em. pose proof (C2 k' file' d0 x Hk' Hd' Em) as E. rewrite Hf in E. injection E as <-.
    rewrite Hd in Hd'. injection Hd' as <-. reflexivity.
  - assert (Hno : dget (ix_paths ix) k = None) by (apply dget_None; now apply dmem_nIn). rewrite Hno.
    destruct st as [d0|]; [|auto]. destruct (dmem d0 k) eqn:Em; [|auto]. exfalso.
    destruct (Ho d0 eq_refl) as (k' & file' & Hk' & Hd'). apply dmem_In in Em. rewrite (C2 k' file' d0 k Hk' Hd' Em) in Hno. discriminate.
Qed.

Lemma after_opened f ix history : consistent f ix -> opened f ix (after f ix history).
Proof.
  intros Hc. unfold after. assert (Hn : opened f ix None) by (intros ? [=]). revert Hn. generalize (@None (dict string T)) as st.
  induction history as [|c h IH]; intros st Hst; cbn [fold_left]; [exact Hst|]. apply IH. destruct c; cbn; [|intros ? [=]].
  now apply get_tensor_consistent.
Qed.

(** ** names when no basename is given *)
Definition st_name := "model.safetensors".
Definition bin_name := "pytorch_model.bin".
Lemma single_None w : w_basename w = None -> single_name w = if w_safe w then st_name else bin_name.
Proof. intros E. unfold single_name, prefix_of, ext_of. rewrite E. now destruct (w_safe w). Qed.
Lemma index_None w : w_basename w = None -> index_name w = ((if w_safe w then st_name else bin_name) ++ ".index.json")%string.
Proof. intros E. unfold index_name, prefix_of, ext_of. rewrite E. now destruct (w_safe w). Qed.
Lemma tmp_None w i : w_basename w = None ->
  exists s, tmp_name w i = ((if w_safe w then "model-" else "pytorch_model-") ++ s)%string.
Proof.
  intros E. unfold tmp_name, prefix_of, ext_of. rewrite E.
  destruct (w_safe w); eexists; cbn; reflexivity.
Qed.
Lemma final_None w n i : w_basename w = None ->
  exists s, final_name w n i = ((if w_safe w then "model-" else "pytorch_model-") ++ s)%string.
Proof.
  intros E. unfold final_name, prefix_of, ext_of. rewrite E.
  destruct (w_safe w); eexists; cbn; reflexivity.
Qed.

Lemma suffix_final w n i : ends_with ".safetensors" (final_name w n i) = w_safe w.
Proof.
  unfold final_name, ext_of. destruct (w_safe w).
  - replace (prefix_of w ++ "-" ++ pad5 (Z.of_nat i + 1) ++ "-of-" ++ pad5 (Z.of_nat n) ++ "." ++ "safetensors")%string
      with ((prefix_of w ++ "-" ++ pad5 (Z.of_nat i + 1) ++ "-of-" ++ pad5 (Z.of_nat n)) ++ ".safetensors")%string;
      [apply ends_with_app|rewrite !app_str_assoc; reflexivity].
  - destruct (ends_with _ _) eqn:E; [|reflexivity]. apply ends_with_lastc in E; [|discriminate].
    replace (prefix_of w ++ "-" ++ pad5 (Z.of_nat i + 1) ++ "-of-" ++ pad5 (Z.of_nat n) ++ "." ++ "bin")%string
      with ((prefix_of w ++ "-" ++ pad5 (Z.of_nat i + 1) ++ "-of-" ++ pad5 (Z.of_nat n)) ++ ".bin")%string in E;
      [|rewrite !app_str_assoc; reflexivity].
    rewrite lastc_app in E by discriminate. discriminate.
Qed.
Lemma suffix_single w : ends_with ".safetensors" (single_name w) = w_safe w.
Proof.
  unfold single_name, ext_of. destruct (w_safe w).
  - apply (ends_with_app (prefix_of w) ".safetensors").
  - destruct (ends_with _ _) eqn:E; [|reflexivity]. apply ends_with_lastc in E; [|discriminate].
    rewrite lastc_app in E by discriminate. discriminate.
Qed.
Lemma suffix_dest w n i : ends_with ".safetensors" (dest w n i) = w_safe w.
Proof. unfold dest. destruct (Nat.eqb n 1); [apply suffix_single|apply suffix_final]. Qed.

(** ** the index of a written model *)
Definition fine (safe : bool) (saves : list (string * T)) : Prop := safe = true \/ ~ In "state_dict" (map fst saves).

(** what the directory must not contain beforehand, for the loader to find the new model in it *)
Definition out_of_the_way (w : writer T) (G : list (list (string * T))) f : Prop :=
  (length G = 1 -> dget f (index_name w) = None) /\
  (w_safe w = false -> dget f st_name = None /\ dget f (st_name ++ ".index.json")%string = None).

Definition the_index w (G : list (list (string * T))) : index :=
  {| ix_paths := if Nat.eqb (length G) 1 then map (fun kv => (fst kv, single_name w)) (dict_of (concat G)) else final_map w |}.

Lemma exists_get f n : exists_ f n = match dget f n with Some _ => true | None => false end.
Proof. reflexivity. Qed.

Lemma other_names w n x : w_basename w = None -> w_safe w = false -> x = st_name \/ x = (st_name ++ ".index.json")%string ->
  ~ In x (map (tmp_name w) (seq 0 n)) /\ ~ In x (map (dest w n) (seq 0 n)) /\ x <> index_name w.
Proof.
  intros Hb Hs Hx. split; [|split].
  - intros Hin. apply in_map_iff in Hin as (i & E & _). destruct (tmp_None w i Hb) as [s Es]. rewrite Es, Hs in E.
    destruct Hx as [-> | ->]; discriminate.
  - intros Hin. apply in_map_iff in Hin as (i & E & _). unfold dest in E. destruct (Nat.eqb n 1).
    + rewrite (single_None w Hb), Hs in E. destruct Hx as [-> | ->]; discriminate.
    + destruct (final_None w n i Hb) as [s Es]. rewrite Es, Hs in E. destruct Hx as [-> | ->]; discriminate.
  - rewrite (index_None w Hb), Hs. destruct Hx as [-> | ->]; discriminate.
Qed.

Lemma written_index w G f f' : w_basename w = None -> w_written w = length G -> G <> [] ->
  fine (w_safe w) (concat G) -> out_of_the_way w G f -> written w G f f' -> from_disk f' = Ok (the_index w G).
Proof.
  intros Hb Hn Hne Hfine [O1 O2] Hw. unfold the_index.
  assert (Hfm : find_model f' = Some (if w_safe w then st_name else bin_name)).
  { unfold find_model. rewrite !exists_get. fold st_name. fold bin_name.
    assert (Hsome : dget f' (single_name w) <> None \/ dget f' (index_name w) <> None).
    { destruct (Nat.eqb_spec (length G) 1) as [E1|E1].
      - left. destruct G as [|g G']; [cbn in E1; lia|]. pose proof (wr_shard _ _ _ _ Hw 0 g eq_refl) as Hs.
        unfold dest in Hs. rewrite E1 in Hs. cbn in Hs. congruence.
      - right. rewrite (wr_index _ _ _ _ Hw); [discriminate|]. destruct G as [|? [|? ?]]; cbn in *; [congruence|lia|lia]. }
    rewrite (single_None w Hb), (index_None w Hb) in Hsome.
    destruct (w_safe w) eqn:Es.
    - change "model.safetensors.index.json" with (st_name ++ ".index.json")%string.
      destruct Hsome as [Hx|Hx]; [destruct (dget f' st_name); [reflexivity|congruence]|].
      destruct (dget f' (st_name ++ ".index.json")%string); [|congruence]. now rewrite orb_true_r.
    - destruct (O2 eq_refl) as [N1 N2].
      assert (Hno : forall x, x = st_name \/ x = (st_name ++ ".index.json")%string -> dget f' x = dget f x).
      { intros x Hx. destruct (other_names w (length G) x Hb Es Hx) as (A1 & A2 & A3). now apply (wr_other _ _ _ _ Hw). }
      change "model.safetensors.index.json" with (st_name ++ ".index.json")%string.
      rewrite (Hno st_name), N1 by auto. rewrite (Hno (st_name ++ ".index.json")%string), N2 by auto. cbn [orb].
      change "pytorch_model.bin.index.json" with (bin_name ++ ".index.json")%string.
      destruct Hsome as [Hx|Hx]; [destruct (dget f' bin_name); [reflexivity|congruence]|].
      destruct (dget f' (bin_name ++ ".index.json")%string); [|congruence]. now rewrite orb_true_r. }
  unfold from_disk. rewrite Hfm, <- (index_None w Hb), <- (single_None w Hb).
  destruct (Nat.eqb_spec (length G) 1) as [E1|E1].
  - destruct G as [|g [|? ?]]; try discriminate. pose proof (wr_shard _ _ _ _ Hw 0 g eq_refl) as Hs. unfold dest in Hs. cbn in Hs.
    assert (Hi : dget f' (index_name w) = None).
    { rewrite (wr_other _ _ _ _ Hw); [now apply O1| | |cbn; lia].
      - intros Hin. apply in_map_iff in Hin as (i & E & _). now apply tmp_index in E.
      - intros Hin. apply in_map_iff in Hin as (i & E & _). now apply dest_index in E. }
    rewrite Hi. unfold from_file. rewrite Hs, suffix_single. cbn [concat] in *. rewrite app_nil_r in *.
    destruct (w_safe w) eqn:Es; [reflexivity|].
    assert (Hsd : dmem (dict_of g) "state_dict" = false).
    { apply dmem_nIn. intros Hin. apply (proj1 (dict_of_names _ _)) in Hin. destruct Hfine as [Hx|Hx]; [discriminate Hx|now apply Hx]. }
    rewrite Hsd. reflexivity.
  - rewrite (wr_index _ _ _ _ Hw); [reflexivity|]. destruct G as [|? [|? ?]]; cbn in *; [congruence|lia|lia].
Qed.

Lemma index_group w G k : w_written w = length G -> w_map w = map_of w 0 G [] ->
  (In k (dkeys (ix_paths (the_index w G))) <-> In k (map fst (concat G))) /\
  (forall j, last_group G k j -> dget (ix_paths (the_index w G)) k = Some (dest w (length G) j)).
Proof.
  intros Hn Hm. unfold the_index. cbn [ix_paths]. destruct (Nat.eqb_spec (length G) 1) as [E1|E1].
  - destruct G as [|g [|? ?]]; try discriminate. cbn [concat]. rewrite app_nil_r.
    assert (Ek : dkeys (map (fun kv => (fst kv, single_name w)) (dict_of g)) = dkeys (dict_of g)).
    { unfold dkeys. rewrite map_map. reflexivity. }
    split; [rewrite Ek; apply dict_of_names|].
    intros j (G1 & g1 & G2 & E & <- & H1 & H2). destruct G1 as [|? [|? ?]]; try discriminate. injection E as <- <-.
    cbn [length]. unfold dest. cbn [Nat.eqb]. rewrite <- dict_of_names in H1. apply dget_Some_key in H1 as [v Hv].
    clear Ek. induction (dict_of g) as [|[x y] d IH]; [discriminate|]. cbn [map dget fst] in *. destruct (eqb k x); auto.
  - destruct (map_of_get w G 0 [] k) as [M1 M2]. cbn in M1. rewrite final_map_keys, Hm. split.
    + split.
      * intros Hin. destruct (In_dec string_dec k (map fst (concat G))) as [|Hno]; [auto|]. exfalso.
        apply dget_Some_key in Hin as [v Hv]. rewrite (M2 Hno) in Hv. discriminate.
      * intros Hin. destruct (last_group_exists G k Hin) as [j Hj]. apply dget_Some_key. exists (tmp_name w j). auto.
    + intros j Hj. rewrite <- Hn. apply final_map_get; [rewrite Hm; auto|]. rewrite Hn.
      destruct Hj as (G1 & g & G2 & -> & <- & _). rewrite app_length. cbn. lia.
Qed.

Lemma open_dest w G f f' i g : written w G f f' -> nth_error G i = Some g -> open_shard f' (dest w (length G) i) = Ok (dict_of g).
Proof.
  intros Hw Hg. unfold open_shard. rewrite (wr_shard _ _ _ _ Hw i g Hg), suffix_dest. now rewrite Bool.eqb_reflx.
Qed.

Lemma last_group_value (G : list (list (string * T))) k j t : last_group G k j -> last_saved (concat G) k t ->
  exists g, nth_error G j = Some g /\ dget (dict_of g) k = Some t.
Proof.
  intros (G1 & g & G2 & -> & <- & H1 & H2) Hl. exists g. split; [rewrite nth_error_app2, Nat.sub_diag by lia; reflexivity|].
  destruct (last_saved_In g k H1) as [t' Ht'].
  assert (Hl' : last_saved (concat (G1 ++ g :: G2)) k t').
  { rewrite concat_app. cbn. apply last_saved_app_r. now apply last_saved_app. }
  rewrite (last_saved_fun _ _ _ _ Hl Hl'). now apply dict_of_last.
Qed.

Lemma written_loads w G f f' : w_basename w = None -> w_written w = length G -> w_map w = map_of w 0 G [] -> G <> [] ->
  fine (w_safe w) (concat G) -> out_of_the_way w G f -> written w G f f' -> loads f' (concat G).
Proof.
  intros Hb Hn Hm Hne Hfine Ho Hw. exists (the_index w G). split; [now apply (written_index w G f)|]. split.
  - intros n. now apply index_group.
  - intros n t Ht. destruct (last_group_exists G n (last_saved_names _ _ _ Ht)) as [j Hj].
    destruct (index_group w G n Hn Hm) as [I1 I2]. specialize (I2 j Hj).
    destruct (last_group_value G n j t Hj Ht) as (g & Hg & Hv).
    unfold get_tensor, resolve.
    assert (Hdm : dmem (ix_paths (the_index w G)) n = true) by (apply dmem_In, I1; now apply last_saved_names in Ht).
    rewrite Hdm, I2, (open_dest w G f f' j g Hw Hg). cbn. now rewrite Hv.
Qed.

Lemma NoDup_concat_last (G : list (list (string * T))) k j g : NoDup (map fst (concat G)) -> nth_error G j = Some g -> In k (map fst g) -> last_group G k j.
Proof.
  intros Hnd Hg Hk. apply nth_error_split in Hg as (G1 & G2 & -> & <-). exists G1, g, G2. split; [reflexivity|].
  split; [reflexivity|]. split; [exact Hk|]. rewrite concat_app in Hnd. cbn in Hnd. rewrite !map_app in Hnd.
  apply NoDup_app_remove_l in Hnd. apply NoDup_app_inv in Hnd. destruct Hnd as (_ & _ & Hd). eauto.
Qed.

Lemma written_consistent w G f f' : w_written w = length G -> w_map w = map_of w 0 G [] ->
  NoDup (map fst (concat G)) -> written w G f f' -> consistent f' (the_index w G).
Proof.
  intros Hn Hm Hnd Hw.
  assert (Hloc : forall k file, dget (ix_paths (the_index w G)) k = Some file ->
     exists j g, nth_error G j = Some g /\ In k (map fst g) /\ file = dest w (length G) j).
  { intros k file Hk. destruct (index_group w G k Hn Hm) as [I1 I2].
    assert (Hin : In k (map fst (concat G))) by (apply I1; apply dget_Some_key; eauto).
    destruct (last_group_exists G k Hin) as [j Hj]. rewrite (I2 j Hj) in Hk. injection Hk as <-.
    destruct Hj as (G1 & g & G2 & -> & <- & H1 & H2). exists (length G1), g.
    split; [rewrite nth_error_app2, Nat.sub_diag by lia; reflexivity|auto]. }
  split.
  - intros k file Hk. destruct (Hloc k file Hk) as (j & g & Hg & Hin & ->). exists (dict_of g).
    split; [now apply (open_dest w G f)|now apply dict_of_names].
  - intros k file d x Hk Hd Hx. destruct (Hloc k file Hk) as (j & g & Hg & Hin & ->).
    rewrite (open_dest w G f f' j g Hw Hg) in Hd. injection Hd as <-. apply (proj1 (dict_of_names _ _)) in Hx.
    apply index_group; auto. now apply (NoDup_concat_last G x j g).
Qed.

(** ** the two writers used by the theorems *)
Lemma written_same w G f f1 f2 : written w G f f1 -> written w G f f2 -> same_dir f1 f2.
Proof.
  intros W1 W2 x.
  destruct (In_dec string_dec x (map (dest w (length G)) (seq 0 (length G)))) as [Hin|N2].
  { apply in_map_iff in Hin as (i & <- & Hi). apply in_seq in Hi. destruct (nth_error G i) as [g|] eqn:Eg.
    - now rewrite (wr_shard _ _ _ _ W1 i g Eg), (wr_shard _ _ _ _ W2 i g Eg).
    - apply nth_error_None in Eg. lia. }
  destruct (In_dec string_dec x (map (tmp_name w) (seq 0 (length G)))) as [Hin|N1].
  { apply in_map_iff in Hin as (i & <- & Hi). apply in_seq in Hi. rewrite (wr_tmp _ _ _ _ W1), (wr_tmp _ _ _ _ W2); [auto|lia|lia]. }
  destruct (Nat.ltb_spec 1 (length G)) as [Hl|Hl].
  - destruct (string_dec x (index_name w)) as [-> | N3].
    + now rewrite (wr_index _ _ _ _ W1), (wr_index _ _ _ _ W2).
    + now rewrite (wr_other _ _ _ _ W1), (wr_other _ _ _ _ W2).
  - rewrite (wr_other _ _ _ _ W1), (wr_other _ _ _ _ W2); auto; lia.
Qed.
End L.
