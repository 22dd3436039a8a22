(** The rows of the permuted embeddings. *)
From Coq Require Import Permutation Reals Lra.
From Verif.Base Require Import Py PyFacts RList.
From Verif.Tokenizer Require Import Model Spec Proofs.
Local Open Scope string_scope.
Local Open Scope list_scope.
Local Open Scope R_scope.

(** ** monadic loops building dictionaries *)
Lemma rmapM_dict {K A B} `{Eqb K} (g : K * A -> result B) l d :
  rmapM (fun kv => let! b := g kv in Ok (fst kv, b)) l = Ok d ->
  dkeys d = dkeys l /\
  (NoDup (dkeys l) -> forall k a, In (k, a) l -> exists b, g (k, a) = Ok b /\ dget d k = Some b).
Proof.
  revert d; induction l as [|[k a] l IH]; intros d Hd.
  - injection Hd as <-. split; [reflexivity | intros _ ? ? []].
  - cbn in Hd. destruct (g (k, a)) as [b|] eqn:Eg; [|discriminate Hd]. cbn in Hd.
    destruct (rmapM _ l) as [d'|] eqn:El; [|discriminate Hd]. cbn in Hd. injection Hd as <-.
    destruct (IH d' eq_refl) as [Hk Hv]. split.
    + rewrite !dkeys_cons, Hk. reflexivity.
    + rewrite dkeys_cons. intros Hn k' a' [[= <- <-]|Hin]; inversion Hn as [|? ? Hnin Hn']; subst.
      * exists b. split; [exact Eg|]. cbn. rewrite eqb_refl. reflexivity.
      * destruct (Hv Hn' k' a' Hin) as (b' & Hg & Hd'). exists b'. split; [exact Hg|]. cbn.
        destruct (eqb_spec k' k) as [->|_]; [|exact Hd'].
        destruct Hnin. apply (in_map fst) in Hin. exact Hin.
Qed.
Lemma rmapM_all {A B} (f : A -> result B) l :
  (forall x, In x l -> exists y, f x = Ok y) -> exists ys, rmapM f l = Ok ys.
Proof.
  induction l as [|x l IH]; intros Hf; [exists []; reflexivity|].
  destruct (Hf x (or_introl eq_refl)) as [y Hy].
  destruct IH as [ys Hys]; [intros; apply Hf; right; assumption|].
  exists (y :: ys). cbn. rewrite Hy. cbn. rewrite Hys. reflexivity.
Qed.

(** ** writing rows *)
Lemma set_nth_spec {A} (l l' : list A) i v : set_nth l i v = Some l' ->
  length l' = length l /\ nth_error l' i = Some v /\ forall j, j <> i -> nth_error l' j = nth_error l j.
Proof.
  revert i l'; induction l as [|x l IH]; intros i l' Hs; [discriminate Hs|]. destruct i as [|i]; cbn in Hs.
  - injection Hs as <-. repeat split. intros [|j] Hj; [contradiction | reflexivity].
  - destruct (set_nth l i v) as [l''|] eqn:E; [|discriminate Hs]. injection Hs as <-.
    destruct (IH _ _ E) as (Hl & Hv & Ho). repeat split; cbn; auto.
    intros [|j] Hj; cbn; [reflexivity | apply Ho; congruence].
Qed.
Lemma set_nth_some {A} (l : list A) i v : (i < length l)%nat -> exists l', set_nth l i v = Some l'.
Proof.
  revert i; induction l as [|x l IH]; intros i Hi; [cbn in Hi; lia|]. destruct i as [|i]; cbn; [eauto|].
  destruct (IH i) as [l' ->]; [cbn in Hi; lia|]. cbn. eauto.
Qed.

Section Fold.
Variable f : string * Z -> result (option (list R)).
Definition step (acc : result (list (list R))) (tid : string * Z) : result (list (list R)) :=
  let! rows := acc in
  let! r := f tid in
  match r with
  | None => Ok rows
  | Some r => match set_nth rows (Z.to_nat (snd tid)) r with Some rows' => Ok rows' | None => Err IndexError end
  end.
Lemma step_err l e : fold_left step l (Err e) = Err e.
Proof. induction l; cbn; auto. Qed.
Lemma fold_rows (vocab : dict string Z) rows0 rows :
  NoDup (dvals vocab) -> (forall i, In i (dvals vocab) -> (0 <= i)%Z) -> fold_left step vocab (Ok rows0) = Ok rows ->
  length rows = length rows0 /\
  (forall i, ~ In (Z.of_nat i) (dvals vocab) -> nth_error rows i = nth_error rows0 i) /\
  (forall t id, In (t, id) vocab -> exists ro, f (t, id) = Ok ro /\
     match ro with
     | Some r => nth_error rows (Z.to_nat id) = Some r
     | None => nth_error rows (Z.to_nat id) = nth_error rows0 (Z.to_nat id)
     end).
Proof.
  unfold dvals. revert rows0; induction vocab as [|[t id] v IH]; intros rows0 Hn Hp Hf.
  - injection Hf as <-. split; [reflexivity|]. split; [intros; reflexivity | intros ? ? []].
  - cbn in Hn. inversion Hn as [|? ? Hnin Hn']; subst. cbn [fold_left] in Hf.
    destruct (step (Ok rows0) (t, id)) as [rows1|] eqn:Es; [|rewrite step_err in Hf; discriminate Hf].
    unfold step in Es. cbn in Es. destruct (f (t, id)) as [ro|] eqn:Ef; [|discriminate Es]. cbn in Es.
    destruct (IH rows1 Hn') as (Hlen & Hout & Hin); [intros; apply Hp; right; assumption | exact Hf |].
    assert (Hid : (0 <= id)%Z) by (apply Hp; left; reflexivity).
    assert (H1 : length rows1 = length rows0 /\
      (forall i, i <> Z.to_nat id -> nth_error rows1 i = nth_error rows0 i) /\
      match ro with Some r => nth_error rows1 (Z.to_nat id) = Some r
        | None => nth_error rows1 (Z.to_nat id) = nth_error rows0 (Z.to_nat id) end).
    { destruct ro as [r|].
      - destruct (set_nth rows0 (Z.to_nat id) r) as [rows'|] eqn:E; [|discriminate Es]. injection Es as <-.
        apply set_nth_spec in E. tauto.
      - injection Es as <-. repeat split; reflexivity. }
    destruct H1 as (Hl1 & Ho1 & Hr1).
    split; [congruence|]. split.
    + intros i Hi. rewrite Hout by (intros Hx; apply Hi; right; exact Hx).
      apply Ho1. intros ->. apply Hi. left. cbn. lia.
    + intros t' id' [[= <- <-]|Hx].
      * exists ro. split; [exact Ef|]. rewrite Hout by (rewrite Z2Nat.id by exact Hid; exact Hnin). exact Hr1.
      * destruct (Hin _ _ Hx) as (ro' & Hf' & Hv). exists ro'. split; [exact Hf'|].
        destruct ro'; [exact Hv|]. rewrite Hv. apply Ho1. intros E.
        assert (id' = id) as ->.
        { apply (in_map snd) in Hx. cbn in Hx. assert (0 <= id')%Z by (apply Hp; right; exact Hx). lia. }
        apply Hnin. apply (in_map snd) in Hx. exact Hx.
Qed.
Lemma fold_rows_succeeds (vocab : dict string Z) rows0 :
  (forall t id, In (t, id) vocab -> (exists ro, f (t, id) = Ok ro) /\ (Z.to_nat id < length rows0)%nat) ->
  exists rows, fold_left step vocab (Ok rows0) = Ok rows.
Proof.
  revert rows0; induction vocab as [|[t id] v IH]; intros rows0 Hv; [cbn; eauto|].
  cbn [fold_left]. destruct (Hv t id (or_introl eq_refl)) as [[ro Hf] Hid].
  assert (exists rows1, step (Ok rows0) (t, id) = Ok rows1 /\ length rows1 = length rows0) as (rows1 & -> & Hl).
  { unfold step. cbn. rewrite Hf. cbn. destruct ro as [r|]; [|eauto].
    destruct (set_nth_some rows0 _ r Hid) as [rows' E]. rewrite E. exists rows'. split; [reflexivity|].
    apply set_nth_spec in E. tauto. }
  apply IH. intros t' id' Hx. rewrite Hl. apply Hv. right; exact Hx.
Qed.
End Fold.

Lemma mean_of_list rows cols : rows <> [] ->
  mean_of rows cols (map (fun c => rsum (map (fun r => nth c r 0) rows) / INR (length rows)) (seq 0 cols)).
Proof.
  intros Hr. split; [exact Hr|]. split; [rewrite map_length, seq_length; reflexivity|].
  intros c Hc. rewrite (map_nth_in _ _ _ 0%nat) by (rewrite seq_length; exact Hc).
  rewrite seq_nth by exact Hc. reflexivity.
Qed.
Lemma mean_of_unique rows rows' cols r r' : Permutation rows rows' -> mean_of rows cols r -> mean_of rows' cols r' -> r = r'.
Proof.
  intros Hp (_ & Hl & Hv) (_ & Hl' & Hv'). apply nth_ext_R; [congruence|]. rewrite Hl. intros c Hc.
  rewrite Hv, Hv' by assumption. rewrite (Permutation_length Hp).
  rewrite (rsum_Permutation _ (map (fun x => nth c x 0) rows')); [reflexivity|]. apply Permutation_map, Hp.
Qed.
Lemma mean_of_single r cols : length r = cols -> mean_of [r] cols r.
Proof. intros Hl. split; [discriminate|]. split; [exact Hl|]. intros c _. cbn. field. Qed.

(** ** defaults *)
Section Defaults.
Variables (ti : tokenizer_info) (tensors : dict string emb) (models : list string)
  (base : option string) (cfgs : dict string tcfg).
Hypothesis models_nodup : NoDup models.
Hypothesis base_in : forall b, base = Some b -> In b models.

Lemma lookup_owns m id j : lookup_perm (ti_perms ti) m id = Ok j -> (0 <= j)%Z -> owns ti m id j.
Proof.
  unfold lookup_perm, dgetE. destruct (dget (ti_perms ti) m) as [p|] eqn:Ep; [|discriminate]. cbn.
  destruct (dget p id) eqn:Ei; [|discriminate]. intros [= ->] Hj. exists p; auto.
Qed.
Lemma owns_lookup m id j : owns ti m id j -> lookup_perm (ti_perms ti) m id = Ok j /\ (0 <= j)%Z.
Proof. intros (p & Hp & Hi & Hj). unfold lookup_perm, dgetE. rewrite Hp. cbn. rewrite Hi. auto. Qed.
Lemma row_vector m j r : row_of tensors m j = Ok r -> vector tensors m j r.
Proof.
  unfold row_of, dgetE. destruct (dget tensors m) as [e|] eqn:Ee; [|discriminate]. cbn.
  destruct (nth_error (e_rows e) (Z.to_nat j)) eqn:En; [|discriminate]. intros [= ->]. exists e; auto.
Qed.
Lemma vector_row m j r : vector tensors m j r -> row_of tensors m j = Ok r.
Proof. intros (e & He & Hn). unfold row_of, dgetE. rewrite He. cbn. rewrite Hn. reflexivity. Qed.
Lemma owns_fun m id j j' : owns ti m id j -> owns ti m id j' -> j = j'.
Proof. intros (p & Hp & Hi & _) (p' & Hp' & Hi' & _). congruence. Qed.
Lemma vector_fun m j r r' : vector tensors m j r -> vector tensors m j r' -> r = r'.
Proof. intros (e & He & Hn) (e' & He' & Hn'). congruence. Qed.
Lemma owns_dec m id : (exists j, owns ti m id j) \/ (forall j, ~ owns ti m id j).
Proof.
  destruct (lookup_perm (ti_perms ti) m id) as [j|] eqn:E.
  - destruct (Z_le_dec 0 j) as [Hj|Hj]; [left; exists j; apply lookup_owns; assumption|].
    right. intros j' Ho. apply owns_lookup in Ho as [E' ?]. assert (j' = j) by congruence. lia.
  - right. intros j Ho. apply owns_lookup in Ho as [E' _]. congruence.
Qed.

Definition owned (id : Z) (m : string) : bool :=
  match lookup_perm (ti_perms ti) m id with Ok j => (0 <=? j)%Z | Err _ => false end.
Lemma owned_iff id m : owned id m = true <-> exists j, owns ti m id j.
Proof.
  unfold owned. split.
  - destruct (lookup_perm _ m id) as [j|] eqn:E; [|discriminate]. intros Hj. apply Z.leb_le in Hj.
    exists j. apply lookup_owns; assumption.
  - intros [j Ho]. apply owns_lookup in Ho as [-> Hj]. apply Z.leb_le, Hj.
Qed.
Lemma has_filter id ms has :
  rmapM (fun m => let! j := lookup_perm (ti_perms ti) m id in Ok (m, (0 <=? j)%Z)) ms = Ok has ->
  map fst (filter snd has) = filter (owned id) ms.
Proof.
  revert has; induction ms as [|m ms IH]; intros has Hh; [injection Hh as <-; reflexivity|].
  cbn in Hh. destruct (lookup_perm _ m id) as [j|] eqn:E; [|discriminate Hh]. cbn in Hh.
  destruct (rmapM _ ms) as [has'|] eqn:Er; [|discriminate Hh]. injection Hh as <-. specialize (IH _ eq_refl).
  cbn. unfold owned at 1. rewrite E. destruct (0 <=? j)%Z; cbn; [f_equal|]; exact IH.
Qed.

(** the averaged rows, listed with the models they come from *)
Lemma average_holders id ms rows :
  rmapM (fun m => let! j := lookup_perm (ti_perms ti) m id in
                  if (0 <=? j)%Z then let! r := row_of tensors m j in Ok [r] else Ok []) ms = Ok rows ->
  exists hs, map fst hs = filter (owned id) ms /\ map snd hs = concat rows /\
    forall m x, In (m, x) hs -> exists j, owns ti m id j /\ vector tensors m j x.
Proof.
  revert rows; induction ms as [|m ms IH]; intros rows Hr.
  - injection Hr as <-. exists []. repeat split. intros ? ? [].
  - cbn in Hr. destruct (lookup_perm _ m id) as [j|] eqn:E; [|discriminate Hr]. cbn in Hr.
    cbn. unfold owned at 1. rewrite E. destruct (0 <=? j)%Z eqn:Ej.
    + destruct (row_of tensors m j) as [r|] eqn:Erow; [|discriminate Hr]. cbn in Hr.
      destruct (rmapM _ ms) as [rows'|] eqn:Er; [|discriminate Hr]. injection Hr as <-.
      destruct (IH _ eq_refl) as (hs & Hf & Hs & Hin). exists ((m, r) :: hs). cbn.
      split; [f_equal; exact Hf|]. split; [f_equal; exact Hs|].
      intros m' x [[= <- <-]|Hx]; [|auto]. exists j. split; [apply lookup_owns; [exact E | apply Z.leb_le, Ej] | apply row_vector, Erow].
    + cbn in Hr. destruct (rmapM _ ms) as [rows'|] eqn:Er; [|discriminate Hr]. injection Hr as <-.
      destruct (IH _ eq_refl) as (hs & Hf & Hs & Hin). exists hs. auto.
Qed.

Lemma default_embedding_spec id c r : default_embedding ti tensors id c = Ok r ->
  match tc_source c with
  | STokenId m i => (0 <= i)%Z /\ vector tensors m i r
  | SToken m s => exists v i, dget (ti_vocabs ti) m = Some v /\ dget v s = Some i /\ (0 <= i)%Z /\ vector tensors m i r
  | SModel m => exists j, owns ti m id j /\ vector tensors m j r
  | SZero | SNone => False
  end.
Proof.
  unfold default_embedding. destruct (tc_source c) as [|m i|m s|m|]; try discriminate.
  - destruct (dmem (ti_perms ti) m); [cbn|discriminate]. destruct (dgetE tensors m) as [e|]; [cbn|discriminate].
    destruct (0 <=? i)%Z eqn:Ei; [cbn|discriminate]. destruct (i <? _)%Z; [|discriminate].
    intros Hr. split; [apply Z.leb_le, Ei | apply row_vector, Hr].
  - destruct (dmem (ti_perms ti) m); [cbn|discriminate]. unfold dgetE at 1.
    destruct (dget (ti_vocabs ti) m) as [v|] eqn:Ev; [cbn|discriminate].
    destruct (dget v s) as [i|] eqn:Es; [|discriminate]. destruct (dgetE tensors m) as [e|]; [cbn|discriminate].
    destruct (0 <=? i)%Z eqn:Ei; [cbn|discriminate]. destruct (i <? _)%Z; [|discriminate].
    intros Hr. exists v, i. repeat split; auto; [apply Z.leb_le, Ei | apply row_vector, Hr].
  - destruct (lookup_perm _ m id) as [j|] eqn:Ej; [cbn|discriminate]. destruct (0 <=? j)%Z eqn:Ep; [|discriminate].
    intros Hr. exists j. split; [apply lookup_owns; [exact Ej | apply Z.leb_le, Ep] | apply row_vector, Hr].
Qed.

Lemma vector_len cols m j r :
  (forall m e, In (m, e) tensors -> e_cols e = cols /\ forall x, In x (e_rows e) -> length x = e_cols e) ->
  vector tensors m j r -> length r = cols.
Proof.
  intros Hw (e & He & Hn). apply dget_In in He. apply Hw in He as [<- Hl]. apply Hl. apply nth_error_In in Hn. exact Hn.
Qed.

Lemma default_row_spec cols t id c r :
  (forall m e, In (m, e) tensors -> e_cols e = cols /\ forall x, In x (e_rows e) -> length x = e_cols e) ->
  match dget cfgs t with Some c => Ok (Some c) | None => assign_one (ti_perms ti) models base id end = Ok c ->
  match c with None => average_embedding ti tensors models cols id | Some c => default_embedding ti tensors id c end = Ok r ->
  default_row ti tensors models base cfgs cols t id r.
Proof.
  intros Hw Hc Hr. unfold default_row. destruct (dget cfgs t) as [c0|] eqn:Ec.
  - injection Hc as <-. apply default_embedding_spec in Hr. exact Hr.
  - unfold assign_one in Hc. destruct (rmapM _ models) as [has|] eqn:Eh; [cbn in Hc|discriminate Hc].
    apply has_filter in Eh. rewrite Eh in Hc.
    assert (Hf : forall m, In m (filter (owned id) models) <-> In m models /\ exists j, owns ti m id j)
      by (intros m; rewrite filter_In, owned_iff; reflexivity).
    assert (Hnd : NoDup (filter (owned id) models)) by (apply NoDup_filter, models_nodup).
    assert (Hb : (exists b j, base = Some b /\ owns ti b id j) \/ forall b j, base = Some b -> ~ owns ti b id j).
    { destruct base as [b|]; [|right; discriminate]. destruct (owns_dec b id) as [[j Hj]|Hn]; [left; eauto|].
      right. intros b' j [= <-]. apply Hn. }
    assert (Hbase : forall b, default_embedding ti tensors id {| tc_source := SModel b; tc_force := false |} = Ok r ->
      exists j, owns ti b id j /\ vector tensors b j r)
      by (intros b Hd; apply default_embedding_spec in Hd; exact Hd).
    destruct (filter (owned id) models) as [|donor [|d2 rest]] eqn:El; [discriminate Hc | |].
    + injection Hc as <-. apply Hbase in Hr as (j & Ho & Hv). destruct Hb as [(b & jb & Eb & Hob)|Hn].
      * left. assert (Hbd : In b [donor]) by (apply Hf; split; [apply base_in, Eb | eauto]).
        destruct Hbd as [->|[]]. exists b, j. auto.
      * right. split; [exact Hn|]. exists [(donor, r)]. cbn.
        split; [exact Hnd|]. split; [exact Hf|]. split; [intros m x [[= <- <-]|[]]; eauto|].
        apply mean_of_single. eapply vector_len; eassumption.
    + assert (Hav : c = None -> (forall b j, base = Some b -> ~ owns ti b id j) -> 
        (exists b j, base = Some b /\ owns ti b id j /\ vector tensors b j r) \/
      ((forall b j, base = Some b -> ~ owns ti b id j) /\
       exists holders, NoDup (map fst holders) /\
         (forall m, In m (map fst holders) <-> In m models /\ exists j, owns ti m id j) /\
         (forall m x, In (m, x) holders -> exists j, owns ti m id j /\ vector tensors m j x) /\
         mean_of (map snd holders) cols r)).
      { intros -> Hn. right. split; [exact Hn|]. unfold average_embedding in Hr.
        destruct (rmapM _ models) as [rows|] eqn:Er; [cbn in Hr|discriminate Hr].
        apply average_holders in Er as (hs & Hfst & Hsnd & Hin). exists hs. rewrite Hfst, Hsnd, El.
        split; [exact Hnd|]. split; [exact Hf|]. split; [exact Hin|].
        destruct (concat rows) as [|r0 rs]; [discriminate Hr|]. injection Hr as <-. apply (mean_of_list (r0 :: rs)). discriminate. }
      destruct base as [b|].
      * destruct (lookup_perm _ b id) as [j|] eqn:Ej; [cbn in Hc|discriminate Hc]. destruct (0 <=? j)%Z eqn:Ep.
        { injection Hc as <-. left. apply Hbase in Hr as (j' & Ho & Hv). exists b, j'. auto. }
        { injection Hc as <-. apply Hav; [reflexivity|]. intros b' j' [= <-] Ho.
          apply owns_lookup in Ho as [Ho Hp]. apply Z.leb_gt in Ep. assert (j' = j) by congruence. lia. }
      * injection Hc as <-. apply Hav; [reflexivity | discriminate].
Qed.
End Defaults.
