(** C74: evaluating genotypes in one model kept in memory. *)
From Coq Require Import QArith.
From Verif.Base Require Import Py PyFacts PyStr.
From Verif.Moe Require Import Model NameProofs.
From Verif.Evo Require Import Evaluate InMemory.
Local Open Scope string_scope.
Local Open Scope list_scope.

(** ** Names of parameters that vLLM stacks *)
Fixpoint dotted (cs : list string) : string :=
  match cs with [] => "" | [c] => c | c :: cs => (c ++ String "." (dotted cs))%string end.
Definition dot_free (c : string) : Prop := all_chars (fun x => negb (Ascii.eqb x ".")) c = true.
(** the projections and what they become *)
Definition projections : list (string * (string * shard)) :=
  [("q_proj", ("qkv_proj", SQ)); ("k_proj", ("qkv_proj", SK)); ("v_proj", ("qkv_proj", SV));
   ("gate_proj", ("gate_up_proj", SGate)); ("up_proj", ("gate_up_proj", SUp))].
Definition not_projection (c : string) : Prop := ~ In c ["q_proj"; "k_proj"; "v_proj"; "gate_proj"; "up_proj"; "qkv_proj"; "gate_up_proj"].

Lemma dotted_cons c cs : cs <> [] -> dotted (c :: cs) = (c ++ String "." (dotted cs))%string.
Proof. destruct cs; [congruence|reflexivity]. Qed.
Lemma dot_free_cons a x : dot_free (String a x) -> a <> "."%char /\ dot_free x.
Proof. unfold dot_free. cbn [all_chars]. intros H. apply andb_true_iff in H as [H1 H2]. split; [|exact H2]. intros ->. discriminate. Qed.
Lemma prefix_component x c r : dot_free x -> dot_free c ->
  String.prefix (x ++ ".")%string c = false /\ String.prefix (x ++ ".")%string (c ++ String "." r)%string = String.eqb x c.
Proof.
  revert c. induction x as [|a x IH]; intros c Hx Hc.
  - destruct c as [|b c]; cbn [append String.prefix String.eqb]; [now destruct r|]. apply dot_free_cons in Hc as [Hb _]. destruct (ascii_dec "." b) as [<-|]; [congruence|auto].
  - apply dot_free_cons in Hx as [Ha Hx]. destruct c as [|b c]; cbn [append String.prefix String.eqb].
    + destruct (ascii_dec a "."); [congruence|auto].
    + apply dot_free_cons in Hc as [_ Hc]. destruct (ascii_dec a b) as [<-|Hn].
      * rewrite Ascii.eqb_refl. auto.
      * destruct (Ascii.eqb_spec a b); [congruence|auto].
Qed.
Definition needle (x : string) : string := String "." (x ++ ".").
Lemma prefix_dot x s : String.prefix (needle x) (String "." s) = String.prefix (x ++ ".")%string s.
Proof. unfold needle. cbn [String.prefix]. destruct (ascii_dec "." "."); [reflexivity|congruence]. Qed.
(** [.x.] occurs in a dotted name exactly if [x] is a component that is neither the first nor the last *)
Fixpoint interior (x : string) (cs : list string) : bool :=
  match cs with c :: ((c' :: _ :: _) as r) => String.eqb x c' || interior x r | _ => false end.
Lemma infix_free p c : dot_free c -> infix (String "." p) c = false.
Proof. intros H. rewrite <- (app_str_nil_r c). rewrite infix_skip by exact H. reflexivity. Qed.
Lemma infix_dotted x cs : dot_free x -> Forall dot_free cs -> infix (needle x) (dotted cs) = interior x cs.
Proof.
  intros Hx. induction cs as [|c [|c' r] IH]; intros Hcs; [reflexivity| |]; inversion Hcs as [|? ? Hc Hr]; subst.
  - now apply infix_free.
  - rewrite dotted_cons by discriminate. unfold needle in *. rewrite infix_skip by exact Hc. change (String "." (x ++ ".")) with (needle x) in *.
    assert (E : infix (needle x) (String "." (dotted (c' :: r))) = String.prefix (x ++ ".")%string (dotted (c' :: r)) || infix (needle x) (dotted (c' :: r))).
    { cbn [infix]. now rewrite prefix_dot. }
    rewrite E, IH by assumption. clear E IH. inversion Hr as [|? ? Hc' Hr']; subst. destruct r as [|d r].
    + cbn [dotted interior]. now rewrite (proj1 (prefix_component x c' "" Hx Hc')).
    + rewrite dotted_cons by discriminate. now rewrite (proj2 (prefix_component x c' (dotted (d :: r)) Hx Hc')).
Qed.
Lemma dotted_app a x b : a <> [] -> b <> [] -> dotted (a ++ x :: b) = (dotted a ++ needle x ++ dotted b)%string.
Proof.
  intros Ha Hb. induction a as [|c [|c' a] IH]; [congruence| |].
  - cbn [app]. rewrite !dotted_cons by (try assumption; discriminate). unfold needle. cbn [dotted append]. now rewrite !app_str_assoc.
  - change ((c :: c' :: a) ++ x :: b) with (c :: (c' :: a) ++ x :: b). rewrite dotted_cons by discriminate. rewrite IH by discriminate. rewrite (dotted_cons c (c' :: a)) by discriminate.
    now rewrite app_str_assoc.
Qed.
Lemma drop_app a b : drop (String.length a) (a ++ b)%string = b.
Proof. induction a; cbn; auto. Qed.
Lemma prefix_app a b : String.prefix a (a ++ b)%string = true.
Proof. induction a as [|c a IH]; cbn [append String.prefix]; [now destruct b|]. destruct (ascii_dec c c); [exact IH|congruence]. Qed.
Lemma replace_none fuel old new s : infix old s = false -> replace_fuel fuel old new s = s.
Proof.
  revert s. induction fuel as [|f IH]; intros s H; [reflexivity|]. destruct s as [|c s]; cbn [infix] in H; apply orb_false_iff in H as [H1 H2]; cbn [replace_fuel]; rewrite H1; [reflexivity|]. now rewrite IH.
Qed.
Lemma interior_not x cs : ~ In x cs -> interior x cs = false.
Proof.
  induction cs as [|c [|c' r] IH]; intros H; [reflexivity..|]. destruct r as [|d r]; [reflexivity|]. change (interior x (c :: c' :: d :: r)) with (String.eqb x c' || interior x (c' :: d :: r)).
  rewrite IH by (intros Hi; apply H; now right). rewrite orb_false_r. apply String.eqb_neq. intros ->. apply H. right. now left.
Qed.
Lemma interior_middle x a b : a <> [] -> b <> [] -> interior x (a ++ x :: b) = true.
Proof.
  intros Ha Hb. induction a as [|c [|c' a] IH]; [congruence| |].
  - cbn [app]. destruct b as [|d b]; [congruence|]. cbn [interior]. now rewrite String.eqb_refl.
  - specialize (IH ltac:(discriminate)). cbn [app] in *. destruct (a ++ x :: b) as [|d r] eqn:E; [now destruct a|]. change (interior x (c :: c' :: d :: r)) with (String.eqb x c' || interior x (c' :: d :: r)). rewrite IH. apply orb_true_r.
Qed.
Lemma interior_other x y a b : x <> y -> ~ In x a -> ~ In x b -> interior x (a ++ y :: b) = false.
Proof. intros Hn Ha Hb. apply interior_not. rewrite in_app_iff. cbn. intuition congruence. Qed.
Lemma replace_middle x new a b : dot_free x -> Forall dot_free a -> Forall dot_free b -> a <> [] -> b <> [] -> ~ In x a -> ~ In x b ->
  replace (needle x) new (dotted (a ++ x :: b)) = (dotted a ++ new ++ dotted b)%string.
Proof.
  intros Hx Ha Hb Hna Hnb Hxa Hxb. rewrite dotted_app by assumption. unfold replace.
  assert (G : forall f, (String.length (dotted a) < f)%nat -> replace_fuel f (needle x) new (dotted a ++ needle x ++ dotted b)%string = (dotted a ++ new ++ dotted b)%string).
  { induction a as [|c [|c' a] IH]; [congruence| |]; intros f Hf; inversion Ha as [|? ? Hc Hr]; subst.
    - cbn [dotted] in *. replace f with (String.length c + S (f - String.length c - 1))%nat by lia. unfold needle at 1. rewrite replace_skip by exact Hc. f_equal. change (String "." (x ++ ".")) with (needle x).
      assert (E : exists s, (needle x ++ dotted b)%string = String "." s) by (unfold needle; cbn; eauto). destruct E as (s & Es). cbn [replace_fuel]. rewrite prefix_app, drop_app. f_equal.
      apply replace_none. rewrite infix_dotted by assumption. now apply interior_not.
    - rewrite dotted_cons in * by discriminate. rewrite len_app in Hf. cbn [String.length] in Hf. rewrite !app_str_assoc. replace f with (String.length c + (S (f - String.length c - 1)))%nat by lia.
      unfold needle at 1. rewrite replace_skip by exact Hc. f_equal. change (String "." (x ++ ".")) with (needle x). cbn [append].
      rewrite replace_step.
      + f_equal. apply IH; auto; [discriminate|intros Hi; apply Hxa; now right|lia].
      + rewrite prefix_dot. inversion Hr as [|? ? Hc' Hr']; subst. destruct a as [|d a].
        * cbn [dotted]. unfold needle. cbn [append]. rewrite (proj2 (prefix_component x c' _ Hx Hc')). apply String.eqb_neq. intros ->. apply Hxa. right. now left.
        * rewrite dotted_cons by discriminate. rewrite app_str_assoc. cbn [append]. rewrite (proj2 (prefix_component x c' _ Hx Hc')). apply String.eqb_neq. intros ->. apply Hxa. right. now left. }
  apply G. rewrite !len_app. unfold needle. cbn [String.length]. lia.
Qed.
(** A projection in the middle of a name is renamed and the rest of the name is kept. *)
Theorem C74_stacked a x y s b : In (x, (y, s)) projections -> Forall dot_free a -> Forall dot_free b -> a <> [] -> b <> [] ->
  Forall not_projection a -> Forall not_projection b -> stacked (dotted (a ++ x :: b)) = Some (dotted (a ++ y :: b), s).
Proof.
  intros Hp Ha Hb Hna Hnb Hpa Hpb.
  assert (Hnot : forall l c, Forall not_projection l -> In c ["q_proj"; "k_proj"; "v_proj"; "gate_proj"; "up_proj"; "qkv_proj"; "gate_up_proj"] -> ~ In c l).
  { intros l c Hl Hc Hi. rewrite Forall_forall in Hl. now apply (Hl c Hi). }
  assert (Hin : In x ["q_proj"; "k_proj"; "v_proj"; "gate_proj"; "up_proj"; "qkv_proj"; "gate_up_proj"]).
  { cbn in Hp. decompose [or] Hp; try contradiction; match goal with H : _ = (x, _) |- _ => injection H as <- <- <- end; cbn; auto 10. }
  assert (Hdf : forall c, In c ["q_proj"; "k_proj"; "v_proj"; "gate_proj"; "up_proj"; "qkv_proj"; "gate_up_proj"] -> dot_free c).
  { intros c Hc. cbn in Hc. decompose [or] Hc; try contradiction; subst c; reflexivity. }
  assert (Hall : Forall dot_free (a ++ x :: b)) by (apply Forall_app; split; [assumption|constructor; auto]).
  assert (Hf : forall z, In z ["q_proj"; "k_proj"; "v_proj"; "gate_proj"; "up_proj"] -> infix (needle z) (dotted (a ++ x :: b)) = String.eqb z x).
  { intros z Hz. assert (Hz' : In z ["q_proj"; "k_proj"; "v_proj"; "gate_proj"; "up_proj"; "qkv_proj"; "gate_up_proj"]) by (cbn in Hz |- *; tauto).
    rewrite infix_dotted by auto. destruct (String.eqb_spec z x) as [->|Hne]; [now apply interior_middle|]. apply interior_other; auto. }
  assert (Hr : forall z, In z ["q_proj"; "k_proj"; "v_proj"; "gate_proj"; "up_proj"; "qkv_proj"; "gate_up_proj"] -> x = z ->
             replace (needle z) (needle y) (dotted (a ++ x :: b)) = dotted (a ++ y :: b)).
  { intros z Hz <-. rewrite replace_middle by auto. now rewrite dotted_app. }
  unfold stacked, stacked_mapping. cbn [find fst].
  change ".q_proj." with (needle "q_proj"). change ".k_proj." with (needle "k_proj"). change ".v_proj." with (needle "v_proj"). change ".gate_proj." with (needle "gate_proj").
  change ".up_proj." with (needle "up_proj"). change ".qkv_proj." with (needle "qkv_proj"). change ".gate_up_proj." with (needle "gate_up_proj").
  rewrite !Hf by (cbn; auto 10).
  cbn in Hp. decompose [or] Hp; try contradiction; match goal with H : _ = (x, _) |- _ => injection H as <- <- <- end; cbn [String.eqb Ascii.eqb Bool.eqb]; rewrite Hr by (cbn; auto 10); reflexivity.
Qed.
Lemma dotted_inj a b : Forall dot_free a -> Forall dot_free b -> a <> [] -> b <> [] -> dotted a = dotted b -> a = b.
Proof.
  revert b. induction a as [|c a IH]; intros b Ha Hb Hna Hnb E; [congruence|]. destruct b as [|d b]; [congruence|]. inversion Ha as [|? ? Hc Ha']; subst. inversion Hb as [|? ? Hd Hb']; subst.
  assert (G : forall c d r r', dot_free c -> dot_free d -> (c ++ String "." r = d ++ String "." r')%string -> c = d /\ r = r').
  { clear. induction c as [|x c IH]; intros d r r' Hc Hd E; destruct d as [|y d]; cbn [append] in E.
    - injection E as ->. auto.
    - injection E as <- _. apply dot_free_cons in Hd as [Hd _]. congruence.
    - injection E as -> _. apply dot_free_cons in Hc as [Hc _]. congruence.
    - injection E as -> E. apply dot_free_cons in Hc as [_ Hc]. apply dot_free_cons in Hd as [_ Hd]. destruct (IH d r r' Hc Hd E) as [-> ->]. auto. }
  assert (N : forall c d r, dot_free c -> c <> (d ++ String "." r)%string).
  { clear. induction c as [|x c IH]; intros d r Hc E; destruct d as [|y d]; cbn [append] in E; try discriminate; apply dot_free_cons in Hc as [Hx Hc].
    - injection E as -> _. congruence.
    - injection E as -> E. now apply (IH d r Hc). }
  destruct a as [|a0 a]; destruct b as [|b0 b]; rewrite ?dotted_cons in E by discriminate; cbn [dotted] in E.
  - congruence.
  - exfalso. now apply (N c d (dotted (b0 :: b)) Hc).
  - exfalso. symmetry in E. now apply (N d c (dotted (a0 :: a)) Hd).
  - destruct (G _ _ _ _ Hc Hd E) as [-> E']. f_equal. apply IH; auto; discriminate.
Qed.
(** Different projections are put into different parts. *)
Theorem C74_stacked_distinct a x y s b a' x' y' s' b' :
  In (x, (y, s)) projections -> Forall dot_free a -> Forall dot_free b -> a <> [] -> b <> [] -> Forall not_projection a -> Forall not_projection b ->
  In (x', (y', s')) projections -> Forall dot_free a' -> Forall dot_free b' -> a' <> [] -> b' <> [] -> Forall not_projection a' -> Forall not_projection b' ->
  stacked (dotted (a ++ x :: b)) = stacked (dotted (a' ++ x' :: b')) -> dotted (a ++ x :: b) = dotted (a' ++ x' :: b').
Proof.
  intros Hp Ha Hb Hna Hnb Hpa Hpb Hp' Ha' Hb' Hna' Hnb' Hpa' Hpb'. rewrite (C74_stacked a x y s b), (C74_stacked a' x' y' s' b') by assumption. intros E.
  assert (Es : s = s') by congruence. assert (Ed : dotted (a ++ y :: b) = dotted (a' ++ y' :: b')) by congruence. clear E.
  assert (Hxy : x = x' /\ y = y') by (subst s'; cbn in Hp, Hp'; decompose [or] Hp; try contradiction; decompose [or] Hp'; try contradiction; split; congruence).
  destruct Hxy as [-> ->].
  assert (Hy : dot_free y' /\ In y' ["q_proj"; "k_proj"; "v_proj"; "gate_proj"; "up_proj"; "qkv_proj"; "gate_up_proj"]).
  { cbn in Hp'. decompose [or] Hp'; try contradiction; match goal with H : _ = (x', _) |- _ => injection H as <- <- <- end; split; try reflexivity; cbn; auto 10. }
  destruct Hy as [Hy1 Hy2]. apply dotted_inj in Ed; [| | |now destruct a|now destruct a']; try (apply Forall_app; split; [assumption|now constructor]).
  assert (Hab : a = a' /\ b = b').
  { assert (H1 : ~ In y' a) by (intros Hi; rewrite Forall_forall in Hpa; now apply (Hpa _ Hi)). assert (H2 : ~ In y' a') by (intros Hi; rewrite Forall_forall in Hpa'; now apply (Hpa' _ Hi)).
    clear -Ed H1 H2. revert a' Ed H2. induction a as [|c a IH]; intros [|c' a'] E H2; cbn [app] in E.
    - split; congruence.
    - exfalso. apply H2. left. congruence.
    - exfalso. apply H1. left. congruence.
    - assert (c = c') as -> by congruence. destruct (IH ltac:(intros H; apply H1; now right) a' ltac:(congruence) ltac:(intros H; apply H2; now right)) as [-> ->]. auto. }
  destruct Hab as [-> ->]. reflexivity.
Qed.

(** ** Overwriting the parameters *)
Section InMemory.
Context {A V : Type} {EA : Eqb A}.
Variable part : V -> shard -> V.
Implicit Types (ps : list (string * list shard)) (store : dict cell V).

(** the cells a result is written to *)
Definition writes (vllm : bool) ps (name : string) : list cell :=
  match dget ps name with
  | Some l => cells_of (name, l)
  | None => if vllm then match stacked name with Some (target, s) => match dget ps target with Some l => if mem s l then [(target, Some s)] else [] | None => [] end | None => [] end else []
  end.
Definition all_cells ps : list cell := flat_map cells_of ps.

Lemma dset_keys {X Y} {EX : Eqb X} (d : dict X Y) k v : In k (dkeys d) -> dkeys (dset d k v) = dkeys d.
Proof.
  unfold dkeys. induction d as [|(k' & v') d IH]; [contradiction|]. cbn [dset map fst In]. destruct (eqb_spec k k') as [->|Hn]; [reflexivity|]. intros [->|H]; [congruence|]. cbn [map fst]. now rewrite IH.
Qed.
(** a value written to some cells: [f c] is what cell [c] receives *)
Definition write (cs : list cell) (f : cell -> V) store : dict cell V := fold_left (fun s c => dset s c (f c)) cs store.
Lemma write_get cs f store c : dget (write cs f store) c = if mem c cs then Some (f c) else dget store c.
Proof.
  unfold write. revert store. induction cs as [|c' cs IH]; intros store; cbn [fold_left]; [reflexivity|]. rewrite IH, dget_dset. change (mem c (c' :: cs)) with (eqb c c' || mem c cs).
  destruct (mem c cs); [now rewrite orb_true_r|]. rewrite orb_false_r. destruct (eqb_spec c c') as [->|]; reflexivity.
Qed.
Lemma write_keys cs f store : (forall c, In c cs -> In c (dkeys store)) -> dkeys (write cs f store) = dkeys store.
Proof.
  unfold write. revert store. induction cs as [|c' cs IH]; intros store H; cbn [fold_left]; [reflexivity|]. rewrite IH.
  - apply dset_keys. apply H. now left.
  - intros c Hc. rewrite dset_keys by (apply H; now left). apply H. now right.
Qed.
(** what a result puts into cell [c] *)
Definition value_for ps (name : string) (v : V) (c : cell) : V := match dget ps name, snd c with Some _, Some s => part v s | _, _ => v end.
Lemma load_one_write vllm ps store name v store' : load_one part vllm ps store (name, Some v) = Ok store' ->
  store' = write (writes vllm ps name) (value_for ps name v) store.
Proof.
  unfold load_one, writes, value_for, copy_over, dmem. destruct (dget ps name) as [l|] eqn:En.
  - intros [= <-]. unfold cells_of. cbn [fst snd]. destruct l as [|s l]; [reflexivity|]. unfold write. generalize (s :: l). clear. intros l. revert store. induction l as [|s l IH]; intros store; cbn [map fold_left]; [reflexivity|]. apply IH.
  - destruct vllm; [|discriminate]. destruct (stacked name) as [[target s]|]; [|discriminate]. destruct (dget ps target) as [l|]; [|discriminate]. destruct (mem s l); [|discriminate]. now intros [= <-].
Qed.
Lemma load_one_state vllm ps store1 store2 nv : match load_one part vllm ps store1 nv, load_one part vllm ps store2 nv with Ok _, Ok _ => snd nv <> None | Err e, Err e' => e = e' | _, _ => False end.
Proof.
  destruct nv as [name [v|]]; unfold load_one; destruct (dmem ps name); try discriminate; auto; destruct vllm; auto; destruct (stacked name) as [[target s]|]; auto; destruct (dget ps target) as [l|]; auto.
  destruct (mem s l); auto. discriminate.
Qed.
Lemma writes_cells vllm ps name c : In c (writes vllm ps name) -> In c (all_cells ps).
Proof.
  unfold writes, all_cells. destruct (dget ps name) as [l|] eqn:En.
  - intros H. apply in_flat_map. exists (name, l). split; [now apply dget_In|exact H].
  - destruct vllm; [|contradiction]. destruct (stacked name) as [[target s]|]; [|contradiction]. destruct (dget ps target) as [l|] eqn:Et; [|contradiction]. destruct (mem s l) eqn:Em; [|contradiction].
    intros [<-|[]]. apply in_flat_map. exists (target, l). split; [now apply dget_In|]. apply mem_In in Em. unfold cells_of. cbn [fst snd]. destruct l as [|s0 l]; [contradiction|]. now apply (in_map (fun s => (target, Some s))).
Qed.
Lemma load_keys vllm ps l raised : forall store, dkeys store = all_cells ps -> dkeys (fst (load part vllm ps store l raised)) = all_cells ps.
Proof.
  induction l as [|(name & [v|]) l IH]; intros store Hk; cbn [load]; [exact Hk| |].
  - destruct (load_one _ _ _ _ _) as [s'|e] eqn:E; [|exact Hk]. apply IH. apply load_one_write in E as ->. rewrite write_keys; [exact Hk|]. intros c Hc. rewrite Hk. eapply writes_cells. exact Hc.
  - destruct (load_one _ _ _ _ _) as [s'|e] eqn:E; [|exact Hk]. exfalso. pose proof (load_one_state vllm ps store store (name, None)) as H. rewrite E in H. now apply H.
Qed.
(** every cell receives a value *)
Definition covers (vllm : bool) ps (l : list (string * option V)) : Prop :=
  forall c, In c (all_cells ps) -> exists name v, In (name, Some v) l /\ In c (writes vllm ps name).
Lemma load_cell vllm ps raised c l : forall store1 store2, snd (load part vllm ps store1 l raised) = None -> (dget store1 c = dget store2 c \/ exists name v, In (name, Some v) l /\ In c (writes vllm ps name)) ->
  snd (load part vllm ps store2 l raised) = None /\ dget (fst (load part vllm ps store1 l raised)) c = dget (fst (load part vllm ps store2 l raised)) c.
Proof.
  induction l as [|nv l IH]; intros store1 store2; cbn [load].
  - cbn [fst snd]. intros Hr [H|(name & v & [] & _)]. auto.
  - pose proof (load_one_state vllm ps store1 store2 nv) as Hs. destruct (load_one part vllm ps store1 nv) as [s1|e] eqn:E1; destruct (load_one part vllm ps store2 nv) as [s2|e'] eqn:E2; try contradiction; [|discriminate].
    intros Hr H. apply IH; [exact Hr|]. destruct nv as (name & [v|]); [|now cbn in Hs]. apply load_one_write in E1 as ->. apply load_one_write in E2 as ->. rewrite !write_get.
    destruct (mem c (writes vllm ps name)) eqn:Em; [now left|]. destruct H as [H|(n & w & [[= <- <-]|Hin] & Hc)]; [now left| |eauto].
    exfalso. apply (mem_In c) in Hc. congruence.
Qed.
Lemma load_failure vllm ps raised l : forall store1 store2, snd (load part vllm ps store1 l raised) = snd (load part vllm ps store2 l raised).
Proof.
  induction l as [|nv l IH]; intros store1 store2; cbn [load]; [reflexivity|]. pose proof (load_one_state vllm ps store1 store2 nv) as Hs.
  destruct (load_one part vllm ps store1 nv) as [s1|e]; destruct (load_one part vllm ps store2 nv) as [s2|e']; try contradiction; [apply IH|cbn; congruence].
Qed.
Lemma dict_ext {X Y} {EX : Eqb X} (d1 d2 : dict X Y) : NoDup (dkeys d1) -> dkeys d1 = dkeys d2 -> (forall k, In k (dkeys d1) -> dget d1 k = dget d2 k) -> d1 = d2.
Proof.
  unfold dkeys. revert d2. induction d1 as [|(k & v) d1 IH]; intros [|(k2 & v2) d2] Hn Hk Hg; cbn [map fst] in *; try discriminate; [reflexivity|].
  assert (k = k2) as <- by congruence. assert (v = v2) as <-. { specialize (Hg k (or_introl eq_refl)). cbn [dget] in Hg. rewrite eqb_refl in Hg. congruence. }
  f_equal. inversion Hn as [|? ? Hni Hn']; subst. apply IH; [assumption|congruence|]. intros k' Hk'. specialize (Hg k' (or_intror Hk')). cbn [dget] in Hg. destruct (eqb_spec k' k) as [E|]; [rewrite E in Hk'; contradiction|exact Hg].
Qed.
(** What was in the parameters before does not matter if every cell receives a value. *)
Lemma load_fresh vllm ps l raised store1 store2 : NoDup (all_cells ps) -> dkeys store1 = all_cells ps -> dkeys store2 = all_cells ps -> covers vllm ps l ->
  snd (load part vllm ps store1 l raised) = None -> load part vllm ps store1 l raised = load part vllm ps store2 l raised.
Proof.
  intros Hn H1 H2 Hc Hok. pose proof (load_keys vllm ps l raised store1 H1) as K1. pose proof (load_keys vllm ps l raised store2 H2) as K2.
  pose proof (load_failure vllm ps raised l store1 store2) as Hf. destruct (load part vllm ps store1 l raised) as [d1 e1] eqn:E1, (load part vllm ps store2 l raised) as [d2 e2] eqn:E2. cbn [fst snd] in *. f_equal; [|exact Hf].
  apply dict_ext; [rewrite K1; exact Hn|congruence|]. intros k Hk. rewrite K1 in Hk. pose proof (load_cell vllm ps raised k l store1 store2) as G. rewrite E1, E2 in G. cbn [fst snd] in G. apply G; auto.
Qed.

(** Without vLLM: the loop succeeds exactly if every result is a tensor for a parameter of the model, and then each
    parameter holds the last result for it, or what it held before. *)
Fixpoint last_value (name : string) (l : list (string * option V)) (old : option V) : option V :=
  match l with [] => old | (n, v) :: l => last_value name l (if eqb n name then v else old) end.
Theorem C74_loaded ps l raised store : (forall p, In p ps -> snd p = []) ->
  (snd (load part false ps store l raised) = None <-> raised = None /\ forall name v, In (name, v) l -> In name (map fst ps) /\ v <> None) /\
  (snd (load part false ps store l raised) = None -> forall name, dget (fst (load part false ps store l raised)) (name, None) = last_value name l (dget store (name, None))).
Proof.
  intros Hp. assert (Hone : forall name v s, load_one part false ps s (name, v) = if dmem ps name then match v with Some v => Ok (dset s (name, None) v) | None => Err TypeError end else Err ValueError).
  { intros name v s. unfold load_one, dmem, copy_over. destruct (dget ps name) as [l0|] eqn:E; [|reflexivity]. apply dget_In in E. specialize (Hp _ E). cbn in Hp. subst l0. reflexivity. }
  assert (Hmem : forall name, dmem ps name = true <-> In name (map fst ps)).
  { intros name. unfold dmem. destruct (dget ps name) as [l0|] eqn:E; split; auto; try discriminate.
    - intros _. apply dget_In in E. apply (in_map fst) in E. exact E.
    - intros H. exfalso. apply (proj1 (dget_None ps name) E). exact H. }
  split.
  - revert store. induction l as [|(name & v) l IH]; intros store; cbn [load].
    + cbn [snd]. split; [intros ->; split; [reflexivity|intros ? ? []]|intros [-> _]; reflexivity].
    + rewrite Hone. destruct (dmem ps name) eqn:Em; [destruct v as [v|]|].
      * rewrite IH. split; [intros [H1 H2]|intros [H1 H2]]; (split; [exact H1|]); [|intros n w Hn; apply H2; now right].
        intros n w [[= <- <-]|Hn]; [split; [now apply Hmem|discriminate]|auto].
      * cbn [snd]. split; [discriminate|]. intros [_ H2]. exfalso. apply (H2 name None); [now left|reflexivity].
      * cbn [snd]. split; [discriminate|]. intros [_ H2]. destruct (H2 name v (or_introl eq_refl)) as [H _]. apply Hmem in H. congruence.
  - intros Hok name. revert store Hok. induction l as [|(n & v) l IH]; intros store Hok; cbn [load last_value] in *; [reflexivity|]. rewrite Hone in *. destruct (dmem ps n); [|discriminate]. destruct v as [v|]; [|discriminate].
    rewrite IH by exact Hok. f_equal.
    destruct (eqb_spec n name) as [<-|Hne]; [apply dget_dset_eq|]. apply dget_dset_neq. congruence.
Qed.
End InMemory.

(** ** The configuration of the model that is kept *)
Section Config.
Context {A V : Type} {EA : Eqb A}.
Variables (defaults : @config A) (parts : @config A -> list (string * list shard)) (garbage : @config A -> cell -> V).
Notation init := (maybe_init defaults parts garbage).

Lemma compare_spec out old ks old' : compare_keys out old ks = Some old' ->
  (forall k, In k ks -> skipped_key k = false -> In k (dkeys out) -> dget old' k = dget out k) /\
  (forall k, token_key k = false -> dget old' k = dget old k) /\
  (forall k, dget old' k = dget old k \/ dget old' k = dget out k).
Proof.
  revert old. induction ks as [|k0 ks IH]; intros old; cbn [compare_keys].
  - intros [= <-]. repeat split; auto. intros k [].
  - destruct (skipped_key k0) eqn:Es; [|destruct (token_key k0) eqn:Et].
    + intros H. destruct (IH _ H) as (H1 & H2 & H3). split; [|auto]. intros k [<-|Hk] Hs Hin; [congruence|auto].
    + intros H. destruct (dget out k0) as [a|] eqn:Ea.
      * destruct (IH _ H) as (H1 & H2 & H3). assert (Hx : forall k, dget old' k = dget old k \/ dget old' k = dget out k).
        { intros k. destruct (H3 k) as [E|E]; [|auto]. rewrite dget_dset in E. destruct (eqb_spec k k0) as [Ek|]; [right; rewrite Ek in *; congruence|auto]. }
        split; [|split; [|exact Hx]].
        -- intros k [<-|Hk] Hs Hin; [|auto]. destruct (H3 k0) as [E|E]; [|exact E]. rewrite dget_dset_eq in E. congruence.
        -- intros k Hk. rewrite H2 by exact Hk. apply dget_dset_neq. intros ->. congruence.
      * destruct (IH _ H) as (H1 & H2 & H3). split; [|auto]. intros k [<-|Hk] Hs Hin; [|auto]. exfalso. apply (proj1 (dget_None out k0) Ea). exact Hin.
    + destruct (eqb_spec (dget out k0) (dget old k0)) as [E|]; [|discriminate]. intros H. destruct (IH _ H) as (H1 & H2 & H3). split; [|auto].
      intros k [<-|Hk] Hs Hin; [|auto]. rewrite H2 by exact Et. congruence.
Qed.
(** Afterwards the configuration agrees with the one asked for on every key that is compared or updated; the model is kept
    only if no such key other than the token ids had to change. *)
Theorem C74_config st out : let st' := init (Some st) out in
  (forall k, In k (diff_keys defaults out) -> skipped_key k = false -> dget (st_config st') k = dget out k) /\
  (st' = fresh parts garbage out \/
   st_parts st' = st_parts st /\ st_store st' = st_store st /\ forall k, token_key k = false -> dget (st_config st') k = dget (st_config st) k).
Proof.
  cbv zeta. unfold maybe_init. destruct (compare_keys out (st_config st) (diff_keys defaults out)) as [cfg|] eqn:E; [|split; [reflexivity|now left]].
  destruct (compare_spec _ _ _ _ E) as (H1 & H2 & H3). cbn [st_config st_parts st_store]. split; [|right; auto].
  intros k Hk Hs. apply H1; auto. unfold diff_keys in Hk. apply filter_In in Hk. tauto.
Qed.
(** Asking for the same configuration again changes nothing. *)
Lemma dset_same {X Y} {EX : Eqb X} (d : dict X Y) k v : dget d k = Some v -> dset d k v = d.
Proof. induction d as [|(k' & v') d IH]; [discriminate|]. cbn [dget dset]. destruct (eqb_spec k k') as [->|]; [congruence|]. intros H. now rewrite IH. Qed.
Lemma compare_same out ks : compare_keys out out ks = Some out.
Proof.
  induction ks as [|k ks IH]; cbn [compare_keys]; [reflexivity|]. destruct (skipped_key k); [exact IH|]. destruct (token_key k).
  - destruct (dget out k) as [a|] eqn:E; [rewrite dset_same by exact E|]; exact IH.
  - rewrite eqb_refl. exact IH.
Qed.

Context {Geno Cfg : Type}.
Variables (part : V -> shard -> V) (configure : Geno -> result (option Cfg)) (out_config : Cfg -> result (@config A))
  (executed : Cfg -> @config A -> list (string * option V) * option exn) (harness : dict cell V -> result results) (tasks : list task) (vllm : bool).
Notation eval := (evaluate defaults parts part garbage configure out_config executed harness tasks vllm).
Notation past := (after defaults parts part garbage configure out_config executed harness tasks vllm).

(** If all genotypes give models of one configuration and every plan gives a value to every parameter, then the result for
    a genotype does not depend on what was evaluated before, not even on evaluations that failed half way. *)
Theorem C74_history cfg gs g :
  NoDup (cells parts cfg) ->
  (forall c cfg', out_config c = Ok cfg' -> cfg' = cfg) ->
  (forall c, snd (executed c cfg) = None -> covers vllm (parts cfg) (fst (executed c cfg))) ->
  snd (eval (past gs) g) = snd (eval None g) /\
  forall store, dkeys store = cells parts cfg -> snd (eval (Some {| st_config := cfg; st_parts := parts cfg; st_store := store |}) g) = snd (eval None g).
Proof.
  intros Hn Hcfg Hcov.
  assert (Hfresh : dkeys (st_store (fresh parts garbage cfg)) = cells parts cfg) by (unfold fresh, dkeys; cbn [st_store]; rewrite map_map; cbn [fst]; apply map_id).
  assert (Hgood : forall st, (st = None \/ exists store, st = Some {| st_config := cfg; st_parts := parts cfg; st_store := store |} /\ dkeys store = cells parts cfg) ->
     forall cfg', cfg' = cfg -> exists store, maybe_init defaults parts garbage st cfg' = {| st_config := cfg; st_parts := parts cfg; st_store := store |} /\ dkeys store = cells parts cfg).
  { intros st [->|(store & -> & Hk)] cfg' ->; cbn [maybe_init].
    - eexists. split; [reflexivity|exact Hfresh].
    - cbn [st_config]. rewrite compare_same. eauto. }
  assert (Hstep : forall st g0, (st = None \/ exists store, st = Some {| st_config := cfg; st_parts := parts cfg; st_store := store |} /\ dkeys store = cells parts cfg) ->
     fst (eval st g0) = None \/ exists store, fst (eval st g0) = Some {| st_config := cfg; st_parts := parts cfg; st_store := store |} /\ dkeys store = cells parts cfg).
  { intros st g0 Hst. unfold evaluate. destruct (configure g0) as [[c|]|e]; [|exact Hst..]. destruct (out_config c) as [cfg'|e] eqn:Eo; [|exact Hst].
    destruct (Hgood st Hst cfg' (Hcfg _ _ Eo)) as (store & -> & Hk). cbn [st_config st_parts st_store]. destruct (executed c cfg) as [l raised].
    pose proof (load_keys part vllm (parts cfg) l raised store Hk) as HK. destruct (load part vllm (parts cfg) store l raised) as [s' f]. cbn [fst] in *. right. eauto. }
  assert (Hres : forall st, (st = None \/ exists store, st = Some {| st_config := cfg; st_parts := parts cfg; st_store := store |} /\ dkeys store = cells parts cfg) -> snd (eval st g) = snd (eval None g)).
  { intros st Hst. unfold evaluate. destruct (configure g) as [[c|]|e]; [|reflexivity..]. destruct (out_config c) as [cfg'|e] eqn:Eo; [|reflexivity]. pose proof (Hcfg _ _ Eo) as ->.
    destruct (Hgood st Hst cfg eq_refl) as (s1 & -> & K1). destruct (Hgood None (or_introl eq_refl) cfg eq_refl) as (s2 & -> & K2). cbn [st_config st_parts st_store].
    specialize (Hcov c). destruct (executed c cfg) as [l raised] eqn:Ee. cbn [fst snd] in Hcov.
    pose proof (load_failure part vllm (parts cfg) raised l s1 s2) as Hf. destruct (snd (load part vllm (parts cfg) s1 l raised)) as [e|] eqn:Es.
    - destruct (load part vllm (parts cfg) s1 l raised), (load part vllm (parts cfg) s2 l raised). cbn [snd] in *. subst. reflexivity.
    - assert (raised = None) as ->. { clear -Es. revert Es. generalize s1. induction l as [|nv l IH]; intros s; cbn [load]; [auto|]. destruct (load_one _ _ _ _ _); [apply IH|discriminate]. }
      rewrite (load_fresh part vllm (parts cfg) l None s1 s2 Hn K1 K2 (Hcov eq_refl) Es). now destruct (load part vllm (parts cfg) s2 l None). }
  split; [|intros store Hk; apply Hres; eauto]. apply Hres.
  assert (G : forall gs st, (st = None \/ exists store, st = Some {| st_config := cfg; st_parts := parts cfg; st_store := store |} /\ dkeys store = cells parts cfg) ->
     let st' := fold_left (fun st g => fst (eval st g)) gs st in st' = None \/ exists store, st' = Some {| st_config := cfg; st_parts := parts cfg; st_store := store |} /\ dkeys store = cells parts cfg).
  { induction gs0 as [|g0 gs0 IH]; intros st Hst; cbn [fold_left]; [exact Hst|]. apply IH. now apply Hstep. }
  apply (G gs None). now left.
Qed.
End Config.

(** Finding: a key that returns to its default is not noticed, the model of the earlier configuration is kept. *)
Theorem C74_default_refuted : exists (defaults c1 c2 : @config nat) (garbage : @config nat -> cell -> nat),
  let parts c := [("w", [])] in
  dget c2 "num_hidden_layers" = Some 32%nat /\ dget (st_config (maybe_init defaults parts garbage (Some (fresh parts garbage c1)) c2)) "num_hidden_layers" = Some 40%nat.
Proof. exists [("num_hidden_layers", 32%nat)], [("num_hidden_layers", 40%nat)], [("num_hidden_layers", 32%nat)], (fun _ _ => 0%nat). split; reflexivity. Qed.
(** Finding: a parameter no plan gives a value to keeps uninitialised memory. *)
Theorem C74_uncovered_refuted : exists (st : dict cell nat),
  load (fun v _ => v) false [("a", []); ("b", [])] st [("a", Some 1%nat)] None = ([(("a", None), 1%nat); (("b", None), 77%nat)], None).
Proof. exists [(("a", None), 5%nat); (("b", None), 77%nat)]. reflexivity. Qed.

Example C74_stacked_nonvacuous : stacked "model.layers.3.self_attn.k_proj.weight" = Some ("model.layers.3.self_attn.qkv_proj.weight", SK) /\
  stacked "model.layers.3.mlp.up_proj.weight" = Some ("model.layers.3.mlp.gate_up_proj.weight", SUp).
Proof. split; [apply (C74_stacked ["model"; "layers"; "3"; "self_attn"] "k_proj" "qkv_proj" SK ["weight"])|apply (C74_stacked ["model"; "layers"; "3"; "mlp"] "up_proj" "gate_up_proj" SUp ["weight"])];
  try discriminate; cbn; auto 10; repeat constructor; intros H; cbn in H; decompose [or] H; try contradiction; discriminate. Qed.
(** two genotypes; the second raises after the first parameter, the third result is as if it was the first *)
Definition ex_parts (c : @config nat) : list (string * list shard) := [("embed", []); ("l.qkv_proj.weight", [SQ; SK; SV])].
Definition ex_executed (c : nat) (_ : @config nat) : list (string * option nat) * option exn :=
  if Nat.eqb c 2 then ([("embed", Some 9%nat)], Some RuntimeError)
  else ([("l.k_proj.weight", Some (c + 2)%nat); ("l.q_proj.weight", Some (c + 1)%nat); ("l.v_proj.weight", Some (c + 3)%nat); ("embed", Some c)], None).
Definition ex_harness (s : dict cell nat) : result results := Ok [("t", [("acc", inject_Z (Z.of_nat (fold_right Nat.add 0%nat (map snd s))))])].
Definition ex_eval := evaluate (A := nat) [] ex_parts (fun v _ => v) (fun _ _ => 1000%nat) (fun g : nat => Ok (Some g)) (fun _ => Ok []) ex_executed ex_harness [{| tk_name := "t"; tk_weight := 1; tk_metric := "acc" |}] true.
Example C74_history_nonvacuous :
  NoDup (cells ex_parts []) /\ (forall c, snd (ex_executed c []) = None -> covers true (ex_parts []) (fst (ex_executed c []))) /\
  snd (ex_eval None 4%nat) = Ok (Some (0 + 22 * 1))%Q /\ snd (ex_eval None 2%nat) = Err RuntimeError /\
  snd (ex_eval (fst (ex_eval (fst (ex_eval None 7%nat)) 2%nat)) 4%nat) = Ok (Some (0 + 22 * 1))%Q.
Proof.
  split; [repeat constructor; cbn; intuition discriminate|]. split; [|repeat split].
  intros c Hc. unfold ex_executed in *. destruct (Nat.eqb c 2); [discriminate|]. cbn [fst]. intros x Hx. cbn in Hx. decompose [or] Hx; try contradiction; subst x.
  - exists "embed", c. split; [cbn; auto|vm_compute; auto].
  - exists "l.q_proj.weight", (c + 1)%nat. split; [cbn; auto|vm_compute; auto].
  - exists "l.k_proj.weight", (c + 2)%nat. split; [cbn; auto|vm_compute; auto].
  - exists "l.v_proj.weight", (c + 3)%nat. split; [cbn; auto|vm_compute; auto].
Qed.

Print Assumptions C74_stacked.
Print Assumptions C74_stacked_distinct.
Print Assumptions C74_loaded.
Print Assumptions C74_config.
Print Assumptions C74_history.
Print Assumptions C74_default_refuted.
Print Assumptions C74_uncovered_refuted.
