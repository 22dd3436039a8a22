(** The writer: how saves are packed into shards, and the directory it leaves. *)
From Verif.Base Require Import Py PyFacts PyStr.
From Verif.IO Require Import Model Spec.
Local Open Scope string_scope.
Local Open Scope list_scope.

(** ** File names *)
Lemma zeros_digits n : all_chars is_digit (zeros n) = true.
Proof. induction n; auto. Qed.
Lemma pad5_digits z : (0 <= z)%Z -> all_chars is_digit (pad5 z) = true.
Proof. intros Hz. unfold pad5. now rewrite all_chars_app, zeros_digits, str_of_Z_digits. Qed.
Lemma zeros_value n s : digits_value 0 (zeros n ++ s)%string = digits_value 0 s.
Proof. induction n; auto. Qed.
Lemma pad5_inj a b : (0 <= a)%Z -> (0 <= b)%Z -> pad5 a = pad5 b -> a = b.
Proof.
  intros Ha Hb E. apply (f_equal (digits_value 0)) in E. unfold pad5 in E.
  now rewrite !zeros_value, !digits_value_str in E.
Qed.

Section W.
Context {T : Type} (nbytes : T -> nat).
Implicit Types w : writer T.

Definition same_names w w' := w_safe w = w_safe w' /\ w_basename w = w_basename w'.
Lemma same_prefix w w' : same_names w w' -> prefix_of w = prefix_of w' /\ ext_of w = ext_of w'.
Proof. intros [E1 E2]. unfold prefix_of, ext_of. now rewrite E1, E2. Qed.
Lemma same_tmp w w' i : same_names w w' -> tmp_name w i = tmp_name w' i.
Proof. intros Hs. apply same_prefix in Hs as [E1 E2]. unfold tmp_name. now rewrite E1, E2. Qed.

Lemma tmp_inj w i j : tmp_name w i = tmp_name w j -> i = j.
Proof.
  unfold tmp_name. intros E. apply app_str_inj_l in E. injection E as E.
  apply str_index_inj in E; try lia; auto.
Qed.
Lemma final_inj w n i j : final_name w n i = final_name w n j -> i = j.
Proof.
  unfold final_name. intros E. apply app_str_inj_l in E. injection E as E.
  apply digit_run_inj in E; try reflexivity; try (apply pad5_digits; lia).
  destruct E as [E _]. apply pad5_inj in E; lia.
Qed.
Lemma tmp_final w n i j : tmp_name w i <> final_name w n j.
Proof.
  unfold tmp_name, final_name. intros E. apply app_str_inj_l in E. injection E as E.
  apply digit_run_inj in E; try reflexivity; [|apply str_of_Z_digits; lia|apply pad5_digits; lia].
  destruct E as [_ E]. discriminate.
Qed.
Lemma tmp_single w i : tmp_name w i <> single_name w.
Proof. unfold tmp_name, single_name. intros E. apply app_str_inj_l in E. discriminate. Qed.
Lemma tmp_index w i : tmp_name w i <> index_name w.
Proof. unfold tmp_name, index_name. intros E. apply app_str_inj_l in E. discriminate. Qed.
Lemma final_single w n i : final_name w n i <> single_name w.
Proof. unfold final_name, single_name. intros E. apply app_str_inj_l in E. discriminate. Qed.
Lemma final_index w n i : final_name w n i <> index_name w.
Proof. unfold final_name, index_name. intros E. apply app_str_inj_l in E. discriminate. Qed.

(** ** Packing *)
Fixpoint jobs_of w (k : nat) (G : list (list (string * T))) : list (string * content T) :=
  match G with [] => [] | g :: G => (tmp_name w k, FShard (w_safe w) (dict_of g)) :: jobs_of w (S k) G end.
Definition map_shard (name : string) (g : list (string * T)) (m : dict string string) : dict string string :=
  fold_left (fun m kv => dset m (fst kv) name) (dict_of g) m.
Fixpoint map_of w (k : nat) (G : list (list (string * T))) (m : dict string string) : dict string string :=
  match G with [] => m | g :: G => map_of w (S k) G (map_shard (tmp_name w k) g m) end.

Lemma jobs_of_names w w' k G : same_names w w' -> jobs_of w k G = jobs_of w' k G.
Proof.
  intros Hs. revert k. induction G as [|g G IH]; intros k; cbn; [reflexivity|].
  rewrite (same_tmp _ _ _ Hs), IH. destruct Hs as [-> _]. reflexivity.
Qed.
Lemma map_of_names w w' k G m : same_names w w' -> map_of w k G m = map_of w' k G m.
Proof.
  intros Hs. revert k m. induction G as [|g G IH]; intros k m; cbn; [reflexivity|]. now rewrite (same_tmp _ _ _ Hs), IH.
Qed.

Lemma dict_of_snoc (g : list (string * T)) n t : dict_of (g ++ [(n, t)]) = dset (dict_of g) n t.
Proof. unfold dict_of. now rewrite fold_left_app. Qed.
Lemma dset_nonempty {K V} `{Eqb K} (d : dict K V) k v : dset d k v <> [].
Proof. destruct d as [|[k' v'] d]; cbn; [discriminate|]. destruct (eqb k k'); discriminate. Qed.
Lemma dict_of_nil_inv (g : list (string * T)) : dict_of g = [] -> g = [].
Proof.
  destruct g as [|x g] using rev_ind; auto. destruct x as [n t]. rewrite dict_of_snoc. intros E. now apply dset_nonempty in E.
Qed.

Lemma bytes_app (a b : list (string * T)) : bytes nbytes (a ++ b) = bytes nbytes a + bytes nbytes b.
Proof. unfold bytes. induction a; cbn; lia. Qed.

(** the state of the writer with saves [g] waiting in the current shard *)
Record holding w (g : list (string * T)) : Prop := {
  hd_cur : w_cur w = dict_of g;
  hd_size : w_cur_size w = bytes nbytes g;
  hd_fit : (w_max w > 0)%Z -> g <> [] -> ((Z.of_nat (bytes nbytes g) <= w_max w)%Z \/ length g = 1)
}.

Lemma flush_ok w g : holding w g -> g <> [] ->
  flush w = ({| w_safe := w_safe w; w_basename := w_basename w; w_max := w_max w; w_written := S (w_written w);
                w_map := map_shard (tmp_name w (w_written w)) g (w_map w); w_cur := []; w_cur_size := 0;
                w_total := w_total w + bytes nbytes g |},
             Some (tmp_name w (w_written w), FShard (w_safe w) (dict_of g))).
Proof.
  intros [Hc Hs _] Hg. unfold flush. rewrite Hc, Hs. unfold map_shard.
  destruct (dict_of g) as [|x d] eqn:E; [now apply dict_of_nil_inv in E|]. reflexivity.
Qed.

Lemma save_all_ok saves : forall w g, holding w g ->
  exists G, concat G = g ++ saves /\ Forall (fun x => x <> []) G /\
    (g <> [] -> exists g' G', G = (g ++ g') :: G') /\
    ((w_max w > 0)%Z -> greedy nbytes (w_max w) G) /\ ((w_max w <= 0)%Z -> length G <= 1) /\
    let (w', jobs) := save_all nbytes w saves in
    jobs = jobs_of w (w_written w) G /\ same_names w' w /\ w_written w' = w_written w + length G /\
    w_map w' = map_of w (w_written w) G (w_map w) /\ w_total w' = w_total w + bytes nbytes (g ++ saves).
Proof.
  induction saves as [|[n t] saves IH]; intros w g Hh.
  - destruct g as [|x g0] eqn:Eg.
    + exists []. split; [reflexivity|]. split; [constructor|]. split; [intros []; reflexivity|].
      split; [intros _; split; [intros ? []|intros l1; intros; now destruct l1]|]. split; [cbn; lia|].
      cbn [save_all]. unfold flush. destruct Hh as [Hc _ _]. rewrite Hc. change (dict_of (@nil (string * T))) with (@nil (string * T)).
      cbn. repeat split; auto; lia.
    + rewrite <- Eg in *. assert (Hne : g <> []) by congruence. clear x g0 Eg.
      exists [g]. split; [cbn; now rewrite !app_nil_r|]. split; [repeat constructor; auto|].
      split; [intros _; exists [], []; now rewrite app_nil_r|].
      split.
      { intros Hm. split.
        - intros g0 [<- | []]. split; auto. apply Hh; auto.
        - intros l1 g1 g2 l2 E. destruct l1 as [|? [|? ?]]; discriminate. }
      split; [cbn; lia|].
      cbn [save_all]. rewrite (flush_ok w g Hh Hne). cbn [length map_of jobs_of w_written w_map w_total].
      rewrite app_nil_r. repeat split; auto; lia.
  - cbn [save_all]. unfold save_tensor.
    set (cond := ((w_max w >? 0)%Z && (Z.of_nat (w_cur_size w + nbytes t) >? w_max w)%Z)%bool).
    assert (Hcase : (g <> [] /\ cond = true) \/ (g = [] \/ cond = false)).
    { destruct g; [right; now left|]. destruct cond; auto. left. split; [discriminate|reflexivity]. }
    destruct Hcase as [[Hg Hc]|Hc].
    + (* flush, then start a new shard *)
      rewrite (hd_cur _ _ Hh). destruct (dict_of g) as [|x0 d0] eqn:Ed; [now apply dict_of_nil_inv in Ed|].
      rewrite Hc. rewrite (flush_ok w g Hh Hg).
      cbn [w_cur w_cur_size w_safe w_basename w_max w_written w_map w_total].
      set (w1 := {| w_safe := w_safe w; w_basename := w_basename w; w_max := w_max w; w_written := S (w_written w);
                    w_map := map_shard (tmp_name w (w_written w)) g (w_map w); w_cur := dset [] n t; w_cur_size := 0 + nbytes t;
                    w_total := w_total w + bytes nbytes g |}).
      assert (Hh1 : holding w1 [(n, t)]).
      { split; [reflexivity| |]; cbn; [lia|]. auto. }
      destruct (IH w1 [(n, t)] Hh1) as (G & E1 & E2 & E3 & E4 & E5 & E6).
      assert (Hsn : same_names w1 w) by (split; reflexivity).
      destruct (save_all nbytes w1 saves) as [w2 js] eqn:Es. destruct E6 as (J1 & J2 & J3 & J4 & J5).
      exists (g :: G). split; [cbn [concat]; rewrite E1; reflexivity|]. split; [constructor; auto|].
      split; [intros _; exists [], G; now rewrite app_nil_r|].
      destruct (E3 ltac:(discriminate)) as (g' & G' & EG).
      apply andb_true_iff in Hc as [Hc1 Hc2]. apply Z.gtb_lt in Hc1, Hc2. rewrite (hd_size _ _ Hh) in Hc2.
      split.
      { intros Hm. specialize (E4 Hm). destruct E4 as [F1 F2]. split.
        - intros x [<- | Hx]; [split; auto; apply Hh; auto|auto].
        - intros l1 g1 g2 l2 E. destruct l1 as [|y l1]; cbn in E.
          + injection E as <- E. rewrite EG in E. injection E as <- _. exists (n, t), g'. split; [reflexivity|]. cbn. lia.
          + injection E as <- E. eauto. }
      split; [cbn in *; lia|].
      cbn [jobs_of map_of length]. rewrite (jobs_of_names w1 w) in J1 by auto. rewrite (map_of_names w1 w) in J4 by auto.
      cbn [w1 w_written w_map w_total] in J1, J3, J4, J5. split; [congruence|]. split; [exact J2|]. split; [lia|].
      split; [exact J4|]. rewrite J5, (bytes_app g). change ([(n, t)] ++ saves) with ((n, t) :: saves). lia.
    + (* keep filling *)
      assert (Enf : (match w_cur w with
                     | [] => (w, @None (string * content T))
                     | _ :: _ => if cond then flush w else (w, None) end) = (w, None)).
      { destruct Hc as [-> | ->]; [|destruct (w_cur w); reflexivity]. rewrite (hd_cur _ _ Hh). reflexivity. }
      rewrite Enf.
      set (w1 := {| w_safe := w_safe w; w_basename := w_basename w; w_max := w_max w; w_written := w_written w;
                    w_map := w_map w; w_cur := dset (w_cur w) n t; w_cur_size := w_cur_size w + nbytes t; w_total := w_total w |}).
      assert (Hh1 : holding w1 (g ++ [(n, t)])).
      { split; cbn.
        - rewrite dict_of_snoc. now rewrite (hd_cur _ _ Hh).
        - rewrite bytes_app, (hd_size _ _ Hh). cbn. lia.
        - intros Hm _. destruct Hc as [-> | Hc]; [right; reflexivity|].
          apply andb_false_iff in Hc as [Hc|Hc]; rewrite Z.gtb_ltb in Hc; apply Z.ltb_ge in Hc; [lia|].
          rewrite (hd_size _ _ Hh) in Hc. left. rewrite bytes_app. cbn. lia. }
      destruct (IH w1 (g ++ [(n, t)]) Hh1) as (G & E1 & E2 & E3 & E4 & E5 & E6).
      destruct (save_all nbytes w1 saves) as [w2 js] eqn:Es. destruct E6 as (J1 & J2 & J3 & J4 & J5).
      exists G. rewrite <- app_assoc in E1. split; [exact E1|]. split; [exact E2|]. split.
      { intros Hg. destruct E3 as (g' & G' & ->); [intros E; now apply app_eq_nil in E as [_ ?]|].
        exists ((n, t) :: g'), G'. now rewrite <- app_assoc. }
      split; [exact E4|]. split; [exact E5|].
      rewrite <- app_assoc in J5. cbn [w1 w_written w_map w_total] in J1, J3, J4, J5.
      rewrite (jobs_of_names w1 w) in J1 by (split; reflexivity). rewrite (map_of_names w1 w) in J4 by (split; reflexivity).
      split; [exact J1|]. split; [exact J2|]. split; [exact J3|]. split; [exact J4|]. exact J5.
Qed.

(** the whole run of saves into a new writer *)
Lemma new_save_all safe base max saves :
  let w0 := new_writer (T:=T) safe base max in
  exists G, concat G = saves /\ Forall (fun x => x <> []) G /\
    ((max > 0)%Z -> greedy nbytes max G) /\ ((max <= 0)%Z -> length G <= 1) /\
    let (w', jobs) := save_all nbytes w0 saves in
    jobs = jobs_of w0 0 G /\ same_names w' w0 /\ w_written w' = length G /\
    w_map w' = map_of w0 0 G [] /\ w_total w' = bytes nbytes saves.
Proof.
  intros w0. destruct (save_all_ok saves w0 []) as (G & E1 & E2 & _ & E4 & E5 & E6).
  { split; try reflexivity. intros _ []. reflexivity. }
  exists G. cbn [app] in E1, E6. split; [exact E1|]. split; [exact E2|]. split; [exact E4|]. split; [exact E5|].
  destruct (save_all nbytes w0 saves) as [w' jobs]. exact E6.
Qed.
End W.
