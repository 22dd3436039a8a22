(** C92: the model tokensurgeon writes. *)
From Coq Require Import Lia.
From Verif.Base Require Import Py PyFacts.
From Verif.Arch Require Import Model.
From Verif.IO Require Import Model Spec.
From Verif.IO Require Props.
From Verif.Plan Require NormProofs.
From Verif.Run Require Stages PropsStages.
From Verif.TokenSurgeon Require Import Model Spec Proofs Props Whole.
Local Open Scope string_scope.
Local Open Scope list_scope.

(** * Vocabulary *)
(** the embedding weight of the architecture and that of the head: the only weights so marked before and after the layers *)
Definition only_embed (ws : list weight_info) (w : weight_info) : Prop :=
  exists l l', ws = l ++ w :: l' /\ wi_embed w = true /\ forall x, In x (l ++ l') -> wi_embed x = false.
Definition embed_and_head (arch : model_arch) (cfg : cfgval) (e h : weight_info) : Prop :=
  exists name md pre post, arch = [(name, md)] /\ c_pre md cfg = Ok pre /\ c_post md cfg = Ok post /\ only_embed pre e /\ only_embed post h.
(** the tensor a model has for a weight: under its name, or else the first of the other names it has *)
Definition has {T} (f : fs T) (name : string) (others : list string) (t : option T) : Prop :=
  exists ix, from_disk f = Ok ix /\ expected f ix name others false = Ok t.
(** a token is used when magikarp is off or both models have it well trained; it is junk when neither has *)
Definition used (karp : option (list ntok * list ntok)) (t : ntok) : Prop :=
  match karp with Some (wo, wd) => In t wo /\ In t wd | None => True end.
Definition junk (karp : option (list ntok * list ntok)) (t : ntok) : Prop :=
  match karp with Some (wo, wd) => ~ In t wo /\ ~ In t wd | None => False end.

Lemma rbind_ok {A B} (r : result A) (f : A -> result B) y : rbind r f = Ok y -> exists x, r = Ok x /\ f x = Ok y.
Proof. destruct r; cbn; [eauto|discriminate]. Qed.

Lemma the_embed_some w : forall ws e, the_embed (Some w) ws = Ok e -> e = Some w /\ forall x, In x ws -> wi_embed x = false.
Proof.
  induction ws as [|x ws IH]; intros e; cbn [the_embed].
  - intros [= <-]. split; [reflexivity|intros x []].
  - destruct (wi_embed x) eqn:E; [discriminate|]. intros H. destruct (IH e H) as [-> IH2]. split; [reflexivity|]. intros y [<-|Hy]; auto.
Qed.
Lemma the_embed_none : forall ws e, the_embed None ws = Ok (Some e) -> only_embed ws e.
Proof.
  induction ws as [|x ws IH]; intros e; cbn [the_embed]; [discriminate|]. destruct (wi_embed x) eqn:E.
  - intros H. destruct (the_embed_some _ _ _ H) as [[= <-] H2]. exists [], ws. auto.
  - intros H. destruct (IH e H) as (l & l' & -> & H1 & H2). exists (x :: l), l'. split; [reflexivity|]. split; [exact H1|].
    intros y [<-|Hy]; auto.
Qed.
Lemma embedding_info_ok arch cfg e h : get_embedding_info arch cfg = Ok (Some e, Some h) -> embed_and_head arch cfg e h.
Proof.
  unfold get_embedding_info. destruct arch as [|[n md] [|]]; try discriminate. intros H.
  apply rbind_ok in H as (pre & E1 & H). apply rbind_ok in H as (e' & E2 & H). apply rbind_ok in H as (post & E3 & H).
  apply rbind_ok in H as (h' & E4 & H). assert (e' = Some e /\ h' = Some h) as [-> ->] by (split; congruence).
  exists n, md, pre, post. repeat split; auto; now apply the_embed_none.
Qed.

Lemma embedding_info_eq arch cfg e h : embed_and_head arch cfg e h -> get_embedding_info arch cfg = Ok (Some e, Some h).
Proof.
  assert (H : forall l w, the_embed (Some w) l = Ok (Some w) \/ exists x, In x l /\ wi_embed x = true).
  { induction l as [|x l IH]; intros w; cbn [the_embed]; [now left|]. destruct (wi_embed x) eqn:E; [right; exists x; split; [now left|exact E]|].
    destruct (IH w) as [H|(y & Hy & H)]; [now left|right; exists y; split; [now right|exact H]]. }
  assert (H2 : forall ws w, only_embed ws w -> the_embed None ws = Ok (Some w)).
  { intros ws w (l & l' & -> & Hw & Hx). induction l as [|x l IH]; cbn [app the_embed].
    - rewrite Hw. destruct (H l' w) as [E|(y & Hy & E)]; [exact E|]. rewrite (Hx y Hy) in E. discriminate.
    - rewrite (Hx x (or_introl eq_refl)). apply IH. intros y Hy. apply Hx. now right. }
  intros (n & md & pre & post & -> & E1 & E2 & He & Hh). unfold get_embedding_info. rewrite E1. cbn [rbind]. rewrite (H2 _ _ He). cbn [rbind].
  rewrite E2. cbn [rbind]. now rewrite (H2 _ _ Hh).
Qed.
Lemma has_fun {T} (f : fs T) n al t t' : has f n al t -> has f n al t' -> t = t'.
Proof. intros (ix & E1 & E2) (ix' & E3 & E4). assert (ix = ix') by congruence. subst ix'. congruence. Qed.

Section C92.
Context {V T : Type}.
Variable zero : V.
Variable approx : bool -> list V -> list V -> dict ntok nat -> dict ntok nat -> list ntok -> result (list V).
Variable rows : T -> list V.
Variable of_rows : list V -> T.
Variables (c : cli) (karp : option (list ntok * list ntok)) (m donor : model T) (hm hd : list call) (hist : weight_info -> list call).
Variables (saves : list (string * T)) (cfg : cfgval).
Hypothesis Hrun : main zero approx rows of_rows c karp m donor hm hd hist = Ok (saves, cfg).
Hypothesis Hm : Stages.sound_dir (m_dir m).
Hypothesis Hd : Stages.sound_dir (m_dir donor).

Lemma read_has (x : model T) ix hs w al r t : Stages.sound_dir (m_dir x) -> from_disk (m_dir x) = Ok ix -> read x ix hs w al r = Ok t ->
  has (m_dir x) (wi_name w) al t /\ (r = true -> t <> None).
Proof.
  intros Hs Ei H. unfold read in H. rewrite (proj1 (Props.C20_history _ _ hs _ al r (Hs _ Ei))) in H.
  unfold expected in H. unfold has. split.
  - exists ix. split; [exact Ei|]. unfold expected. destruct (find _ _) as [y|]; [exact H|]. destruct r; [discriminate|exact H].
  - intros ->. destruct (find _ _) as [y|]; [|discriminate]. destruct (stored _ _ y); [|discriminate]. congruence.
Qed.
Lemma stuff_ok (x : model T) hs tied e h t1 t2 : Stages.sound_dir (m_dir x) -> get_embedding_info (m_arch x) (m_cfg x) = Ok (Some e, Some h) ->
  get_stuff x hs tied = Ok (t1, t2) -> has (m_dir x) (wi_name e) (maybe_aliases e tied) t1 /\ has (m_dir x) (wi_name h) (maybe_aliases h tied) t2.
Proof.
  intros Hs Ee H. unfold get_stuff in H. rewrite Ee in H. cbn [rbind fst snd] in H. apply rbind_ok in H as (ix & Ei & H).
  apply rbind_ok in H as (a & E1 & H). apply rbind_ok in H as (b & E2 & H). assert (a = t1 /\ b = t2) as [-> ->] by (split; congruence).
  split; eapply read_has; eauto.
Qed.
Lemma stuff_info (x : model T) hs tied t1 t2 : get_stuff x hs tied = Ok (t1, t2) -> exists e h, get_embedding_info (m_arch x) (m_cfg x) = Ok (Some e, Some h).
Proof.
  intros H. unfold get_stuff in H. apply rbind_ok in H as ([e h] & Ee & H). apply rbind_ok in H as (ix & Ei & H). cbn [fst snd] in H.
  destruct e as [e|]; [|discriminate]. apply rbind_ok in H as (a & E1 & H). destruct h as [h|]; [|discriminate]. eauto.
Qed.

Lemma main_inv : exists e h e2 h2 oe oh de dh ne nh ws ix,
  get_embedding_info (m_arch m) (m_cfg m) = Ok (Some e, Some h) /\ get_embedding_info (m_arch donor) (m_cfg donor) = Ok (Some e2, Some h2) /\
  has (m_dir m) (wi_name e) (maybe_aliases e false) oe /\ has (m_dir m) (wi_name h) (maybe_aliases h false) oh /\
  has (m_dir donor) (wi_name e2) (maybe_aliases e2 true) de /\ has (m_dir donor) (wi_name h2) (maybe_aliases h2 true) dh /\
  surgery zero approx c karp (wi_optional e) (wi_optional h) (option_map rows oe) (option_map rows de) (option_map rows oh) (option_map rows dh)
    (m_vocab m) (m_vocab donor) = Ok (ne, nh) /\
  out_config (m_vocab_key m) (match ne with Some x => Some (length x) | None => match nh with Some x => Some (length x) | None => None end end)
    (m_cfg m) (m_cfg donor) = Ok cfg /\
  model_weights (m_arch m) cfg = Ok ws /\ from_disk (m_dir m) = Ok ix /\ saved_weights of_rows m ix hist e h ne nh ws = Ok saves.
Proof.
  unfold main in Hrun. apply rbind_ok in Hrun as ([e h] & Ee & H). apply rbind_ok in H as ([oe oh] & Eo & H).
  apply rbind_ok in H as ([de dh] & Ed & H). cbn [fst snd] in H.
  destruct (stuff_info _ _ _ _ _ Eo) as (e0 & h0 & Ee0). assert (e = Some e0 /\ h = Some h0) as [-> ->] by (split; congruence).
  destruct (stuff_info _ _ _ _ _ Ed) as (e2 & h2 & Ee2).
  apply rbind_ok in H as ([ne nh] & Es & H). cbn [fst snd] in H. apply rbind_ok in H as (cf & Ec & H). apply rbind_ok in H as (ws & Ew & H).
  apply rbind_ok in H as (ix & Ei & H). apply rbind_ok in H as (sv & Ev & H). assert (sv = saves /\ cf = cfg) as [-> ->] by (split; congruence).
  destruct (stuff_ok _ _ _ _ _ _ _ Hm Ee0 Eo) as [H1 H2]. destruct (stuff_ok _ _ _ _ _ _ _ Hd Ee2 Ed) as [H3 H4].
  exists e0, h0, e2, h2, oe, oh, de, dh, ne, nh, ws, ix. repeat (split; [assumption|]). exact Ev.
Qed.

Lemma saved_shape ix e h ne nh ws l : saved_weights of_rows m ix hist e h ne nh ws = Ok l ->
  exists keep : weight_info -> option T, l = flat_map (fun w => match keep w with Some t => [(wi_name w, t)] | None => [] end) ws /\
    forall w, In w ws -> (keep w = None -> wi_optional w = true) /\
      (if eqb (wi_name w) (wi_name e) then Ok (option_map of_rows ne)
       else if eqb (wi_name w) (wi_name h) then Ok (option_map of_rows nh)
       else read m ix (hist w) w (opt_names (wi_aliases w)) false) = Ok (keep w).
Proof.
  unfold saved_weights. intros H. apply rbind_ok in H as (ll & El & H). injection H as <-. apply rmapM_Ok_Forall2 in El.
  exists (fun w => match (if eqb (wi_name w) (wi_name e) then Ok (option_map of_rows ne)
       else if eqb (wi_name w) (wi_name h) then Ok (option_map of_rows nh)
       else read m ix (hist w) w (opt_names (wi_aliases w)) false) with Ok t => t | Err _ => None end).
  induction El as [|w y ws ll Hw _ [IH1 IH2]]; cbn [concat flat_map]; [split; [reflexivity|intros w []]|].
  apply rbind_ok in Hw as (t & Et & Hw). rewrite Et. split.
  - rewrite IH1. f_equal. destruct t; [congruence|]. destruct (wi_optional w); congruence.
  - intros w' [<-|Hin]; [|apply IH2; exact Hin]. rewrite Et. split; [|reflexivity]. intros ->. destruct (wi_optional w); congruence.
Qed.

(** Everything but the two matrices: what is written under another name is the tensor the original model has for a weight of that
    name, written in the order of the weights of the architecture; a weight is left out only when it is optional and the
    original model does not have it. *)
Theorem C92_kept : exists e h ws, embed_and_head (m_arch m) (m_cfg m) e h /\ model_weights (m_arch m) cfg = Ok ws /\
  (exists keep, map fst saves = map wi_name (filter keep ws)) /\
  (forall w, In w ws -> ~ In (wi_name w) (map fst saves) -> wi_optional w = true) /\
  (forall w, In w ws -> wi_name w <> wi_name e -> wi_name w <> wi_name h -> ~ In (wi_name w) (map fst saves) ->
     has (m_dir m) (wi_name w) (opt_names (wi_aliases w)) None) /\
  (forall n t, In (n, t) saves -> n <> wi_name e -> n <> wi_name h ->
     exists w, In w ws /\ wi_name w = n /\ has (m_dir m) n (opt_names (wi_aliases w)) (Some t)).
Proof.
  destruct main_inv as (e & h & e2 & h2 & oe & oh & de & dh & ne & nh & ws & ix & Ee & _ & _ & _ & _ & _ & _ & _ & Ew & Ei & Es).
  destruct (saved_shape _ _ _ _ _ _ _ Es) as (keep & Ek & Hk). exists e, h, ws. split; [now apply embedding_info_ok|]. split; [exact Ew|].
  assert (Hin : forall w, In w ws -> keep w <> None -> In (wi_name w) (map fst saves)).
  { intros w Hw Hn. rewrite Ek. apply in_map_iff. destruct (keep w) as [t|] eqn:E; [|congruence]. exists (wi_name w, t). split; [reflexivity|].
    apply in_flat_map. exists w. rewrite E. split; [exact Hw|now left]. }
  split; [|split; [|split]].
  - exists (fun w => match keep w with Some _ => true | None => false end). rewrite Ek. clear. induction ws as [|w ws IH]; [reflexivity|].
    cbn [flat_map filter]. rewrite map_app, IH. destruct (keep w); reflexivity.
  - intros w Hw Hn. apply (Hk w Hw). destruct (keep w) eqn:E; [|reflexivity]. exfalso. apply Hn, Hin; [exact Hw|congruence].
  - intros w Hw H1 H2 Hn. destruct (Hk w Hw) as [_ Hr]. destruct (keep w) eqn:E; [exfalso; apply Hn, Hin; [exact Hw|congruence]|].
    destruct (eqb_spec (wi_name w) (wi_name e)); [contradiction|]. destruct (eqb_spec (wi_name w) (wi_name h)); [contradiction|].
    exact (proj1 (read_has _ _ _ _ _ _ _ Hm Ei Hr)).
  - intros n t Hin' H1 H2. rewrite Ek in Hin'. apply in_flat_map in Hin' as (w & Hw & Hin'). destruct (keep w) as [t'|] eqn:E; [|destruct Hin'].
    destruct Hin' as [[= <- <-]|[]]. exists w. split; [exact Hw|]. split; [reflexivity|]. destruct (Hk w Hw) as [_ Hr]. rewrite E in Hr.
    destruct (eqb_spec (wi_name w) (wi_name e)); [contradiction|]. destruct (eqb_spec (wi_name w) (wi_name h)); [contradiction|].
    exact (proj1 (read_has _ _ _ _ _ _ _ Hm Ei Hr)).
Qed.

Hypothesis Hvo : is_vocab (m_vocab m).
Hypothesis Hvd : is_vocab (m_vocab donor).

(** a new matrix, from the rows of the original's and the donor's *)
Definition transplanted (o d out : list V) : Prop :=
  ((forall t i, In (t, i) (m_vocab donor) -> i < length out) /\ length (m_vocab donor) <= length out /\
   forall n, (forall t i, In (t, i) (m_vocab donor) -> i < n) -> length (m_vocab donor) <= n -> length out <= n) /\
  (forall t i j, In (t, i) (m_vocab donor) -> i < length d -> used karp t -> known o (m_vocab m) t j -> nth_error out i = nth_error o j) /\
  (forall i, i < length out -> (forall t, ~ In (t, i) (m_vocab donor)) \/ length d <= i \/ (exists t, In (t, i) (m_vocab donor) /\ junk karp t) ->
     nth_error out i = Some zero).

Lemma vals_unique (v : dict ntok nat) t t' i : NoDup (dvals v) -> In (t, i) v -> In (t', i) v -> t = t'.
Proof.
  unfold dvals. induction v as [|[a b] v IH]; [intros _ []|]. cbn [map snd]. intros Hn. inversion Hn as [|? ? H1 H2]; subst.
  intros [E3|H3] [E4|H4]; [congruence| | |auto].
  - exfalso. apply H1. apply (in_map snd) in H4. cbn in H4. congruence.
  - exfalso. apply H1. apply (in_map snd) in H3. cbn in H3. congruence.
Qed.
Lemma filter_vocab p (v : dict ntok nat) : is_vocab v -> is_vocab (filter p v).
Proof.
  assert (H : forall {B} (g : ntok * nat -> B) l, NoDup (map g l) -> NoDup (map g (filter p l))).
  { induction l as [|x l IH]; [auto|]. cbn [map filter]. intros Hn. inversion Hn as [|? ? H1 H2]; subst. destruct (p x); [|auto]. cbn [map].
    constructor; [|auto]. intros Hin. apply H1. apply in_map_iff in Hin as (y & Hy & Hin). apply filter_In in Hin as [Hin _]. rewrite <- Hy. now apply in_map. }
  intros [H1 H2]. split; [now apply (H _ fst)|now apply (H _ snd)].
Qed.

Lemma one_transplanted is_head optional o d out :
  one_matrix zero approx c is_head optional (Some o) (Some d) (match karp with Some (wo, wd) => magikarp_orig wo wd (m_vocab m) | None => m_vocab m end)
    (m_vocab donor) (match karp with Some (wo, wd) => magikarp_junk wo wd (m_vocab donor) | None => [] end) = Ok (Some out) -> transplanted o d out.
Proof.
  unfold one_matrix. set (ov := match karp with Some _ => _ | None => _ end). set (jk := match karp with Some _ => _ | None => [] end).
  intros H. apply rbind_ok in H as (out' & Hb & H). injection H as ->.
  assert (Hstb : c_stb c = false).
  { destruct (c_stb c); [|reflexivity]. exfalso. unfold build in Hb. apply rbind_ok in Hb as (n & _ & Hb). discriminate. }
  rewrite Hstb in Hb.
  assert (Hov : is_vocab ov). { unfold ov. destruct karp as [[wo wd]|]; [now apply filter_vocab|exact Hvo]. }
  assert (Hj : forall t i, In (t, i) (m_vocab donor) -> In i jk -> junk karp t).
  { intros t i Hin Hi. unfold jk, junk in *. destruct karp as [[wo wd]|]; [|destruct Hi]. unfold magikarp_junk, dvals in Hi.
    apply in_map_iff in Hi as ([t' i'] & Ei & Hi). cbn in Ei. subst i'. apply filter_In in Hi as [Hi Hp]. cbn [fst] in Hp.
    rewrite (vals_unique _ t t' i (proj2 Hvd) Hin Hi). apply andb_true_iff in Hp as [P1 P2]. apply negb_true_iff in P1, P2.
    destruct (mem_spec t' wd), (mem_spec t' wo); try discriminate; auto. }
  assert (Hj2 : forall t i, In (t, i) (m_vocab donor) -> junk karp t -> In i jk).
  { intros t i Hin Hk. unfold jk, junk in *. destruct karp as [[wo wd]|]; [|destruct Hk]. unfold magikarp_junk, dvals.
    apply in_map_iff. exists (t, i). split; [reflexivity|]. apply filter_In. split; [exact Hin|]. cbn [fst].
    destruct Hk as [K1 K2]. destruct (mem_spec t wd), (mem_spec t wo); try contradiction; reflexivity. }
  split; [exact (C47_size zero _ _ _ _ _ _ _ _ _ Hvd out Hb)|]. split.
  - intros t i j Hin Hi Hu [Hk1 Hk2].
    refine (proj1 (C47_exact zero _ _ _ _ _ _ _ _ _ Hov Hvd out Hb t i j Hin Hi _ _)).
    + intros Hji. pose proof (Hj _ _ Hin Hji) as Hq. unfold junk, used in *. destruct karp as [[wo wd]|]; [|exact Hq]. tauto.
    + split; [|exact Hk2]. unfold ov. unfold used in Hu. destruct karp as [[wo wd]|]; [|exact Hk1]. unfold magikarp_orig. apply filter_In.
      split; [exact Hk1|]. cbn [fst]. destruct Hu as [U1 U2]. destruct (mem_spec t wd), (mem_spec t wo); try contradiction; reflexivity.
  - intros i Hi Hz. apply (C47_zeroed zero _ _ _ _ _ _ _ _ _ Hvd out Hb i Hi). destruct Hz as [Hz|[Hz|(t & Hin & Hz)]].
    + right. left. intros Hv. unfold dvals in Hv. apply in_map_iff in Hv as ([t i'] & Ei & Hin). cbn in Ei. subst i'. exact (Hz t Hin).
    + right. right. exact Hz.
    + left. eauto.
Qed.

(** The two matrices: the one the original model has is replaced by one with a row for every id of the donor's vocabulary and no
    row more; a token of both models keeps its row, and an id of no token, or of a junk token, or beyond the donor's matrix
    has a zero row. A tied matrix the original does not store is not written. *)
Theorem C92_matrices e h e2 h2 : embed_and_head (m_arch m) (m_cfg m) e h -> embed_and_head (m_arch donor) (m_cfg donor) e2 h2 ->
  wi_name e <> wi_name h ->
  forall w w2, (w = e /\ w2 = e2) \/ (w = h /\ w2 = h2) ->
  (forall t, In (wi_name w, t) saves ->
     exists o d out, has (m_dir m) (wi_name w) (opt_names (wi_aliases w)) (Some o) /\
       has (m_dir donor) (wi_name w2) (opt_names (wi_aliases w2) ++ opt_names (wi_tied w2)) (Some d) /\
       t = of_rows out /\ transplanted (rows o) (rows d) out) /\
  (has (m_dir m) (wi_name w) (opt_names (wi_aliases w)) None -> ~ In (wi_name w) (map fst saves) /\ wi_optional w = true).
Proof.
  intros H1 H2 Hne. apply embedding_info_eq in H1, H2.
  destruct main_inv as (e' & h' & e2' & h2' & oe & oh & de & dh & ne & nh & ws & ix & E1 & E2 & R1 & R2 & R3 & R4 & Es & _ & _ & _ & Ev).
  assert (e' = e /\ h' = h) as [-> ->] by (split; congruence). assert (e2' = e2 /\ h2' = h2) as [-> ->] by (split; congruence). clear E1 E2.
  unfold maybe_aliases in R1, R2, R3, R4. rewrite app_nil_r in R1, R2.
  set (ov := match karp with Some (wo, wd) => magikarp_orig wo wd (m_vocab m) | None => m_vocab m end).
  set (jk := match karp with Some (wo, wd) => magikarp_junk wo wd (m_vocab donor) | None => [] end).
  assert (Hs : one_matrix zero approx c false (wi_optional e) (option_map rows oe) (option_map rows de) ov (m_vocab donor) jk = Ok ne /\
               one_matrix zero approx c true (wi_optional h) (option_map rows oh) (option_map rows dh) ov (m_vocab donor) jk = Ok nh).
  { unfold surgery in Es. unfold ov, jk. destruct karp as [[wo wd]|].
    all: apply rbind_ok in Es as (x & Ex & Es); apply rbind_ok in Es as (y & Ey & Es); injection Es as <- <-; auto. }
  clear Es. destruct Hs as [Me Mh]. destruct (saved_shape _ _ _ _ _ _ _ Ev) as (keep & Ek & Hk).
  assert (Hone : forall is_head w w2 (o d : option T) mm,
    has (m_dir m) (wi_name w) (opt_names (wi_aliases w)) o -> has (m_dir donor) (wi_name w2) (opt_names (wi_aliases w2) ++ opt_names (wi_tied w2)) d ->
    one_matrix zero approx c is_head (wi_optional w) (option_map rows o) (option_map rows d) ov (m_vocab donor) jk = Ok mm ->
    (forall t, In (wi_name w, t) saves -> Some t = option_map of_rows mm) ->
    (forall t, In (wi_name w, t) saves ->
     exists o d out, has (m_dir m) (wi_name w) (opt_names (wi_aliases w)) (Some o) /\
       has (m_dir donor) (wi_name w2) (opt_names (wi_aliases w2) ++ opt_names (wi_tied w2)) (Some d) /\
       t = of_rows out /\ transplanted (rows o) (rows d) out) /\
    (has (m_dir m) (wi_name w) (opt_names (wi_aliases w)) None -> ~ In (wi_name w) (map fst saves) /\ wi_optional w = true)).
  { intros is_head w w2 o d mm Ho Hd' Hmm Hsv. split.
    - intros t Hin. specialize (Hsv t Hin). destruct o as [o|]; [destruct d as [d|]|]; cbn [option_map] in Hmm.
      + destruct mm as [out|]; [|discriminate]. injection Hsv as ->. exists o, d, out. repeat (split; [assumption || reflexivity|]).
        exact (one_transplanted is_head _ _ _ _ Hmm).
      + discriminate.
      + cbn in Hmm. destruct (wi_optional w); [|discriminate]. injection Hmm as <-. discriminate.
    - intros Hnone. rewrite (has_fun _ _ _ _ _ Ho Hnone) in Hmm. cbn in Hmm. destruct (wi_optional w); [|discriminate]. injection Hmm as <-.
      split; [|reflexivity]. intros Hin. apply in_map_iff in Hin as ([n t] & En & Hin). cbn in En. subst n. specialize (Hsv t Hin). discriminate. }
  assert (Hsv : forall n t, In (n, t) saves -> (n = wi_name e -> Some t = option_map of_rows ne) /\ (n = wi_name h -> Some t = option_map of_rows nh)).
  { intros n t Hin. rewrite Ek in Hin. apply in_flat_map in Hin as (w & Hw & Hin). destruct (keep w) as [t'|] eqn:E; [|destruct Hin].
    destruct Hin as [[= <- <-]|[]]. destruct (Hk w Hw) as [_ Hr]. rewrite E in Hr. split; intros En.
    - rewrite En, eqb_refl in Hr. congruence.
    - destruct (eqb_spec (wi_name w) (wi_name e)); [congruence|]. rewrite En, eqb_refl in Hr. congruence. }
  intros w w2 [[-> ->]|[-> ->]].
  - apply (Hone false e e2 oe de ne); auto. intros t Hin. now apply (Hsv _ _ Hin).
  - apply (Hone true h h2 oh dh nh); auto. intros t Hin. now apply (Hsv _ _ Hin).
Qed.

(** * The configuration *)
Lemma copy_keys_get d ps : forall keys cf cf', rfold (copy_key d) cf keys = Ok cf' -> (forall k, In k keys -> NormProofs.disjoint (split_on "."%char k) ps = true) ->
  get_path cf' ps = get_path cf ps.
Proof.
  induction keys as [|k keys IH]; intros cf cf' H Hk; cbn [rfold] in H; [congruence|]. apply rbind_ok in H as (c1 & E1 & H).
  rewrite (IH _ _ H) by (intros; apply Hk; now right). unfold copy_key in E1. destruct (attr d k) as [v|]; [|congruence].
  unfold set_config_value in E1. eapply NormProofs.get_set_other; [|exact E1]. apply Hk. now left.
Qed.
Lemma special_split k : In k special_keys -> split_on "."%char k = [k].
Proof. intros H. repeat (destruct H as [<-|H]; [reflexivity|]). destruct H. Qed.
Lemma copy_keys_special d : forall keys cf cf', rfold (copy_key d) cf keys = Ok cf' -> NoDup keys -> (forall k, In k keys -> split_on "."%char k = [k]) ->
  forall k, In k keys -> attr cf' k = match attr d k with Some v => Some v | None => attr cf k end.
Proof.
  assert (Hone : forall cf cf' k, copy_key d cf k = Ok cf' -> split_on "."%char k = [k] ->
    attr cf' k = match attr d k with Some v => Some v | None => attr cf k end /\ forall k', k' <> k -> attr cf' k' = attr cf k').
  { intros cf cf' k H Hs. unfold copy_key in H. destruct (attr d k) as [v|]; [|injection H as ->; auto]. unfold set_config_value in H. rewrite Hs in H.
    cbn [set_path] in H. destruct cf; try discriminate. injection H as <-. cbn [attr]. split; [apply dget_dset_eq|]. intros k' Hk. now apply dget_dset_neq. }
  induction keys as [|k0 keys IH]; intros cf cf' H Hn Hs k Hk; [destruct Hk|]. cbn [rfold] in H. apply rbind_ok in H as (c1 & E1 & H).
  inversion Hn as [|? ? Hn1 Hn2]; subst. destruct (Hone _ _ _ E1 (Hs _ (or_introl eq_refl))) as [A B].
  assert (Hs' : forall k, In k keys -> split_on "."%char k = [k]) by (intros; apply Hs; now right).
  destruct Hk as [<-|Hk].
  - assert (Hk0 : get_path cf' [k0] = get_path c1 [k0]).
    { apply (copy_keys_get d [k0] keys c1 cf' H). intros k Hk. rewrite (Hs' k Hk). cbn [NormProofs.disjoint].
      destruct (eqb_spec k k0); [subst; contradiction|reflexivity]. }
    cbn [get_path] in Hk0. rewrite <- A. destruct (attr cf' k0), (attr c1 k0); congruence.
  - rewrite (IH _ _ H Hn2 Hs' k Hk). destruct (attr d k); [reflexivity|]. apply B. intros ->. contradiction.
Qed.

(** The configuration written: the vocabulary size under the architecture's key is the number of rows of each matrix written; the
    ids of the special tokens are the donor's, or the original's when the donor has none; everything else is the original's. *)
Theorem C92_config e h : embed_and_head (m_arch m) (m_cfg m) e h -> wi_name e <> wi_name h ->
  (forall k, In k special_keys -> NormProofs.disjoint [k] (split_on "."%char (vocab_key (m_vocab_key m))) = true) ->
  (forall n t, In (n, t) saves -> n = wi_name e \/ n = wi_name h ->
     exists out, t = of_rows out /\ get_config_value cfg (vocab_key (m_vocab_key m)) = Ok (CVInt (Z.of_nat (length out)))) /\
  (forall k, In k special_keys -> NormProofs.disjoint (split_on "."%char (vocab_key (m_vocab_key m))) [k] = true ->
     attr cfg k = match attr (m_cfg donor) k with Some v => Some v | None => attr (m_cfg m) k end) /\
  (forall ps, NormProofs.disjoint (split_on "."%char (vocab_key (m_vocab_key m))) ps = true -> (forall k, In k special_keys -> NormProofs.disjoint [k] ps = true) ->
     get_path cfg ps = get_path (m_cfg m) ps).
Proof.
  intros H1 Hne Hkey. pose proof H1 as H1'. apply embedding_info_eq in H1.
  destruct main_inv as (e' & h' & e2 & h2 & oe & oh & de & dh & ne & nh & ws & ix & E1 & E2 & R1 & R2 & R3 & R4 & Es & Ec & _ & _ & Ev).
  assert (e' = e /\ h' = h) as [-> ->] by (split; congruence).
  assert (Hlen : forall x y, ne = Some x -> nh = Some y -> length x = length y).
  { intros x y Ex Ey. subst ne nh. unfold surgery in Es.
    assert (Hs : exists ov jk, one_matrix zero approx c false (wi_optional e) (option_map rows oe) (option_map rows de) ov (m_vocab donor) jk = Ok (Some x) /\
               one_matrix zero approx c true (wi_optional h) (option_map rows oh) (option_map rows dh) ov (m_vocab donor) jk = Ok (Some y)).
    { destruct karp as [[wo wd]|].
      all: apply rbind_ok in Es as (x' & Ex & Es); apply rbind_ok in Es as (y' & Ey & Es); injection Es as -> ->; eauto. }
    destruct Hs as (ov & jk & Me & Mh).
    assert (Hsz : forall is_head opt o d mm, one_matrix zero approx c is_head opt o d ov (m_vocab donor) jk = Ok (Some mm) ->
      (forall t i, In (t, i) (m_vocab donor) -> i < length mm) /\ length (m_vocab donor) <= length mm /\
      forall n, (forall t i, In (t, i) (m_vocab donor) -> i < n) -> length (m_vocab donor) <= n -> length mm <= n).
    { intros is_head opt o d mm Hmm. unfold one_matrix in Hmm. destruct o as [o|]; [|destruct opt; discriminate]. destruct d as [d|]; [|discriminate].
      apply rbind_ok in Hmm as (mm' & Hb & Hmm). injection Hmm as ->.
      assert (Hstb : c_stb c = false).
      { destruct (c_stb c); [|reflexivity]. exfalso. unfold build in Hb. apply rbind_ok in Hb as (n & _ & Hb). discriminate. }
      rewrite Hstb in Hb. exact (C47_size zero _ _ _ _ _ _ _ _ _ Hvd mm Hb). }
    destruct (Hsz _ _ _ _ _ Me) as (A1 & A2 & A3), (Hsz _ _ _ _ _ Mh) as (B1 & B2 & B3). specialize (A3 _ B1 B2). specialize (B3 _ A1 A2). lia. }
  unfold out_config in Ec. apply rbind_ok in Ec as (c1 & Ec1 & Ec2). unfold set_config_value in Ec1.
  assert (Hspec : forall ps, (forall k, In k special_keys -> NormProofs.disjoint [k] ps = true) -> get_path cfg ps = get_path c1 ps).
  { intros ps Hps. apply (copy_keys_get _ ps _ _ _ Ec2). intros k Hk. rewrite (special_split k Hk). auto. }
  split; [|split].
  - destruct (saved_shape _ _ _ _ _ _ _ Ev) as (keep & Ek & Hk). intros n t Hin Hn.
    rewrite Ek in Hin. apply in_flat_map in Hin as (w & Hw & Hin). destruct (keep w) as [t'|] eqn:E; [|destruct Hin].
    destruct Hin as [[= <- <-]|[]]. destruct (Hk w Hw) as [_ Hr]. rewrite E in Hr.
    assert (Hget : get_config_value cfg (vocab_key (m_vocab_key m)) =
      Ok (match match ne with Some x => Some (length x) | None => match nh with Some x => Some (length x) | None => None end end with
          | Some n => CVInt (Z.of_nat n) | None => CVNone end)).
    { unfold get_config_value. rewrite (Hspec _ Hkey). exact (NormProofs.get_set_path _ _ _ _ Ec1). }
    destruct Hn as [En|En].
    + rewrite En, eqb_refl in Hr. destruct ne as [x|]; [|discriminate]. cbn in Hr. injection Hr as <-. exists x. split; [reflexivity|exact Hget].
    + destruct (eqb_spec (wi_name w) (wi_name e)); [congruence|]. rewrite En, eqb_refl in Hr. destruct nh as [y|]; [|discriminate].
      cbn in Hr. injection Hr as <-. exists y. split; [reflexivity|]. rewrite Hget. destruct ne as [x|]; [|reflexivity]. now rewrite (Hlen x y eq_refl eq_refl).
  - intros k Hk Hdk. assert (Hnd : NoDup special_keys) by (repeat constructor; cbn; intuition discriminate).
    rewrite (copy_keys_special _ _ _ _ Ec2 Hnd special_split k Hk). destruct (attr (m_cfg donor) k); [reflexivity|].
    pose proof (NormProofs.get_set_other _ _ [k] _ _ Hdk Ec1) as Hg. cbn [get_path] in Hg.
    destruct (attr c1 k), (attr (m_cfg m) k); congruence.
  - intros ps Hps1 Hps2. rewrite (Hspec ps Hps2). exact (NormProofs.get_set_other _ _ _ _ _ Hps1 Ec1).
Qed.

Lemma filter_names keep (ws : list weight_info) : NoDup (map wi_name ws) -> NoDup (map wi_name (filter keep ws)).
Proof.
  induction ws as [|w ws IH]; [auto|]. cbn [map filter]. intros Hn. inversion Hn as [|? ? H1 H2]; subst. destruct (keep w); [|auto]. cbn [map].
  constructor; [|auto]. intros Hin. apply H1. apply in_map_iff in Hin as (y & <- & Hy). apply in_map. now apply filter_In in Hy.
Qed.
(** Written to a new directory, the model is found there by a fresh loader: exactly these tensors under their names. *)
Theorem C92_directory nbytes safe max f' ws : model_weights (m_arch m) cfg = Ok ws -> NoDup (map wi_name ws) -> (exists w, In w ws /\ wi_optional w = false) ->
  (safe = true \/ ~ In "state_dict" (map wi_name ws)) ->
  async_run nbytes safe None max saves [] (Ok (f', None)) -> Stages.holds f' saves.
Proof.
  intros Ew Hn (w & Hw & Ho) Hf Hr. destruct C92_kept as (e & h & ws' & _ & Ew' & (keep & Ek) & Hreq & _).
  assert (ws' = ws) by congruence. subst ws'. apply (PropsStages.written_holds nbytes safe max saves f'); auto.
  - intros ->. cbn in Hreq. specialize (Hreq w Hw (fun H => H)). congruence.
  - destruct Hf as [Hf|Hf]; [now left|right]. rewrite Ek. intros Hin. apply Hf. apply in_map_iff in Hin as (y & <- & Hy). apply in_map. now apply filter_In in Hy.
  - rewrite Ek. now apply filter_names.
Qed.
End C92.

(** The loop that writes the weights allows for an architecture without an output embedding; the run never gets there. *)
Theorem C92_no_head_refuted {V T} (zero : V) approx rows (of_rows : list V -> T) c karp m donor hm hd hist e :
  get_embedding_info (m_arch m) (m_cfg m) = Ok (e, None) ->
  exists x, main zero approx rows of_rows c karp m donor hm hd hist = Err x.
Proof.
  intros H. unfold main. rewrite H. cbn [rbind]. destruct (get_stuff m hm false) as [[t1 t2]|x] eqn:E; [exfalso|cbn; eauto].
  destruct (stuff_info _ _ _ _ _ E) as (e' & h' & E'). congruence.
Qed.

(** * A concrete case: the donor has another order, a tied head and its own special ids; the original has an optional bias it
    does not store and a padded matrix *)
Definition wi n emb opt tied := {| wi_name := n; wi_embed := emb; wi_optional := opt; wi_aliases := None; wi_dtype := None; wi_tied := tied |}.
Definition ex_arch : model_arch :=
  [("default", {| md_arch := json_module {| ja_pre := [wi "embed" true false None]; ja_layer := [wi "layers.${layer_index}.w" false false None; wi "layers.${layer_index}.b" false true None];
     ja_post := [wi "norm" false false None; wi "head" true true (Some ["embed"])]; ja_key := Some "num_hidden_layers"; ja_override := None |}; md_prefix := None |})].
Definition ex_model (l : list (string * list nat)) (cfg vocab : list (string * nat)) : model (list nat) :=
  {| m_arch := ex_arch; m_cfg := CVObj (map (fun kv => (fst kv, CVInt (Z.of_nat (snd kv)))) cfg); m_vocab_key := None;
     m_dir := [("model.safetensors", FShard true l)]; m_vocab := map (fun kv => (TPlain (u (fst kv)), snd kv)) vocab |}.
Definition ex_orig := ex_model [("embed", [10; 11; 12; 13]); ("layers.0.w", [1]); ("norm", [2]); ("head", [20; 21; 22; 23])]
  [("num_hidden_layers", 1); ("vocab_size", 4); ("eos_token_id", 0); ("bos_token_id", 1)] [("a", 0); ("b", 1); ("c", 2)].
Definition ex_donor := ex_model [("embed", [50; 51; 52])] [("num_hidden_layers", 7); ("vocab_size", 3); ("eos_token_id", 2)] [("c", 0); ("new", 1); ("a", 2)].
Definition ex_cli := {| c_stb := false; c_batch := None; c_prefix := No; c_byte := No |}.
Definition ex_approx (head : bool) (o d : list nat) (ov dv : dict ntok nat) (ts : list ntok) : result (list nat) := Ok (map (fun _ => if head then 98 else 99) ts).
Definition ex_run (m donor : model (list nat)) := main 0 ex_approx (fun x => x) (fun x => x) ex_cli None m donor [] [CFlush] (fun _ => [CGet "norm" [] true]).
Example C92_nonvacuous :
  ex_run ex_orig ex_donor =
    Ok ([("embed", [12; 99; 10]); ("layers.0.w", [1]); ("norm", [2]); ("head", [22; 98; 20])],
        CVObj [("num_hidden_layers", CVInt 1); ("vocab_size", CVInt 3); ("eos_token_id", CVInt 2); ("bos_token_id", CVInt 1)]) /\
  Stages.sound_dir (m_dir ex_orig) /\ Stages.sound_dir (m_dir ex_donor) /\ is_vocab (m_vocab ex_orig) /\ is_vocab (m_vocab ex_donor) /\
  exists e h, embed_and_head ex_arch (m_cfg ex_orig) e h /\ wi_name e <> wi_name h /\
  forall k, In k special_keys -> NormProofs.disjoint [k] (split_on "."%char (vocab_key (m_vocab_key ex_orig))) = true.
Proof.
  assert (Hs : forall l, NoDup (map fst l) -> Stages.sound_dir [("model.safetensors", FShard (T:=list nat) true l)]).
  { intros l Hl ix Ei. 
    assert (E : from_disk [("model.safetensors", FShard (T:=list nat) true l)] = Ok {| ix_paths := map (fun kv => (fst kv, "model.safetensors")) l |}) by reflexivity.
    rewrite E in Ei. injection Ei as <-. clear E.
    assert (Hget : forall k (file : string), dget (map (fun kv : string * list nat => (fst kv, "model.safetensors")) l) k = Some file -> file = "model.safetensors" /\ In k (map fst l)).
    { intros k file H. apply dget_In in H. apply in_map_iff in H as (kv & [= <- <-] & Hin). split; [reflexivity|now apply in_map]. }
    split; cbn [ix_paths].
    - intros k file H. destruct (Hget _ _ H) as [-> Hin]. exists l. split; [reflexivity|exact Hin].
    - intros k file d x H Ho Hx. destruct (Hget _ _ H) as [-> _]. injection Ho as <-. apply dget_In_NoDup.
      + unfold dkeys. rewrite map_map. exact Hl.
      + apply in_map_iff in Hx as (kv & <- & Hin). apply in_map_iff. exists kv. auto. }
  assert (Hn : NoDup (map fst [("embed", [10; 11; 12; 13]); ("layers.0.w", [1]); ("norm", [2]); ("head", [20; 21; 22; 23])]))
    by (repeat constructor; cbn; intuition discriminate).
  assert (Hn2 : NoDup (map fst [("embed", [50; 51; 52])])) by (repeat constructor; cbn; intuition discriminate).
  split; [reflexivity|]. split; [exact (Hs _ Hn)|]. split; [exact (Hs _ Hn2)|].
  split; [split; vm_compute; repeat constructor; cbn; intuition discriminate|].
  split; [split; vm_compute; repeat constructor; cbn; intuition discriminate|].
  eexists _, _. split; [apply embedding_info_ok; reflexivity|]. split; [discriminate|].
  intros k Hk. repeat (destruct Hk as [<-|Hk]; [reflexivity|]). destruct Hk.
Qed.
(** A head the original model stores needs one in the donor: under its name, or under a tied name. *)
Example C92_missing_donor : ex_run ex_orig (ex_model [("norm", [2])] [("num_hidden_layers", 1)] [("a", 0)]) = Err KeyError.
Proof. reflexivity. Qed.
Print Assumptions C92_kept.
Print Assumptions C92_matrices.
Print Assumptions C92_config.
Print Assumptions C92_directory.
Print Assumptions C92_no_head_refuted.
