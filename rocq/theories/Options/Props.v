(** C97: the command line of mergekit-yaml. *)
From Verif.Base Require Import Py PyFacts.
From Verif.Common Require Import Model Spec Proofs.
From Verif.Devices Require Import Model OptionProofs.
From Verif.Devices Require Props.
From Verif.Options Require Import Model Spec Proofs.
Local Open Scope string_scope.
Local Open Scope list_scope.

Lemma command_line cuda xpu items tail rest : Forall good items -> (tail = [] /\ rest = [] \/ tail = "--" :: rest) ->
  command cuda xpu (line items ++ tail) =
  (let! d := rmapM (field_of (fold_left store items [])) model_fields in
   match arguments items ++ rest with [c; o] => Ok (c, o, merge_options cuda xpu d) | _ => Err RuntimeError end).
Proof.
  intros Hg Ht. unfold command. rewrite words_line by exact Hg. cbn [app].
  destruct Ht as [[-> ->]| ->]; cbn [words]; [rewrite app_nil_r|change (eqb "--" "--") with true; cbv iota]; cbn [rbind fst snd]; reflexivity.
Qed.
Lemma dget_given (o : dict string oval) g f : ~ In f ("device" :: device_flags) -> dget (with_given o g) f = dget o f.
Proof.
  intros Hn. unfold with_given. cbn in Hn.
  rewrite !dget_dset_neq; [reflexivity|..]; intros ->; apply Hn; auto 10.
Qed.
Lemma convert_means items f t df v : f <> "verbosity" -> In (f, (t, df)) model_fields ->
  convert f t df (dget (fold_left store items []) f) = Ok v -> means items f df v.
Proof.
  intros Hf Hin. rewrite dget_stored by exact Hf. unfold means. cbn [dget]. destruct (last_said f items) as [[s|b]|]; cbn [raw_of convert]; [|congruence|congruence].
  destruct (eqb_spec f "out_shard_size") as [->|Hs].
  - destruct (parse_kmb s) as [z|] eqn:E; cbn; [|discriminate]. intros [= <-]. right. right. split; [now left|eauto].
  - assert (Ht : t = TBool \/ (t = TOptStr /\ In f (map fst texts)) \/ ((t = TInt \/ t = TOptInt) /\ In f (map fst numbers))).
    { cbn [In model_fields] in Hin. repeat (destruct Hin as [[= <- <- <-]|Hin]; [try congruence; cbn; tauto|]). destruct Hin. }
    destruct Ht as [->|[[-> Hi]|[Ht Hi]]]; [discriminate| |].
    + intros [= <-]. left. auto.
    + assert (E : match py_int s with Ok z => Ok (OInt z) | Err _ => Err RuntimeError end = Ok v -> exists z, int_literal s z /\ v = OInt z).
      { destruct (py_int s) as [z|] eqn:Ez; [|discriminate]. intros [= <-]. exists z. split; [now apply py_int_spec|reflexivity]. }
      intros H. right. left. split; [exact Hi|]. destruct Ht as [-> | ->]; apply E, H.
Qed.
Lemma truth_of items f o : In f ("gpu_rich" :: device_flags) -> rmapM (field_of (fold_left store items [])) model_fields = Ok o ->
  dget o f = Some (OBool (is_on items f)).
Proof.
  intros Hf Ho. assert (Hi : In (f, (TBool, OBool false)) model_fields /\ f <> "verbosity" /\ f <> "out_shard_size").
  { cbn in Hf. repeat (destruct Hf as [<-|Hf]; [repeat split; try discriminate; vm_compute; tauto|]). destruct Hf. }
  destruct Hi as (Hi & Hv & Hz). destruct (fields_dget _ _ _ fields_distinct Ho _ _ _ Hi) as (v & Hc & ->). f_equal.
  rewrite dget_stored in Hc by exact Hv. cbn [dget] in Hc. unfold is_on. apply eqb_neq in Hz.
  destruct (last_said f items) as [[s|b]|]; cbn [raw_of convert] in Hc; rewrite ?Hz in Hc; congruence.
Qed.

(** ** Every field has the value its last option says, and the documented default if there is none; the fields for devices are set by
    --gpu-rich as well, and the device is found from them (C85). What follows "--" are arguments. *)
Theorem C97_options cuda xpu items tail rest config out o : Forall good items -> (tail = [] /\ rest = [] \/ tail = "--" :: rest) ->
  command cuda xpu (line items ++ tail) = Ok (config, out, o) ->
  arguments items ++ rest = [config; out] /\
  (forall f df, In (f, df) defaults -> exists v, dget o f = Some v /\ means items f df v) /\
  dget o "verbosity" = Some (OInt (Z.of_nat (loudness items))) /\
  (forall f, In f device_flags -> dget o f = Some (OBool (is_on items f || is_on items "gpu_rich"))) /\
  exists dv, dget o "device" = Some (OStr dv) /\
    (forall s, last_said "device" items = Some (Text s) -> s <> "" -> s <> "auto" -> dv = s) /\
    (last_said "device" items = Some (Text "auto") -> dv = if cuda then "cuda" else if xpu then "xpu" else "cpu") /\
    (last_said "device" items = None \/ last_said "device" items = Some (Text "") -> dv = if is_on items "cuda" || is_on items "gpu_rich" then "cuda" else "cpu").
Proof.
  intros Hg Ht. rewrite (command_line _ _ _ _ _ Hg Ht). destruct (rmapM (field_of (fold_left store items [])) model_fields) as [d|] eqn:Ed; cbn [rbind]; [|discriminate].
  destruct (arguments items ++ rest) as [|c [|o' [|]]]; try discriminate. intros [= -> -> <-]. split; [reflexivity|]. unfold merge_options.
  set (g := given_of d). assert (Hfd := fields_dget _ _ _ fields_distinct Ed).
  split. { intros f df Hin. assert (Hx : (exists t, In (f, (t, df)) model_fields) /\ f <> "verbosity" /\ ~ In f ("device" :: device_flags)).
    { cbn [In defaults] in Hin. repeat (destruct Hin as [[= <- <-]|Hin]; [split; [eexists; cbn [In model_fields]; repeat (first [left; reflexivity|right])|split; [discriminate|cbn; intuition discriminate]]|]). destruct Hin. }
    destruct Hx as ((t & Hi) & Hv & Hn). destruct (Hfd _ _ _ Hi) as (v & Hc & Hd). exists v. rewrite dget_given by exact Hn. split; [exact Hd|]. eapply convert_means; eauto. }
  split. { rewrite dget_given by (cbn; intuition discriminate). destruct (Hfd "verbosity" TInt (OInt 0)) as (v & Hc & Hd); [vm_compute; tauto|].
    rewrite stored_verbosity in Hc by exact Hg. congruence. }
  assert (Hb : forall f, In f ("gpu_rich" :: device_flags) -> truth (dget d f) = is_on items f) by (intros f Hf; now rewrite (truth_of items f d Hf Ed)).
  destruct (Devices.Props.C85_options cuda xpu g) as (O1 & O2 & O3 & Oc & Om & Ol & Or).
  assert (Gr : g_gpu_rich g = is_on items "gpu_rich") by (apply Hb; now left).
  assert (Gc : g_cuda g = is_on items "cuda") by (apply Hb; cbn; tauto).
  assert (Gl : g_low_cpu_memory g = is_on items "low_cpu_memory") by (apply Hb; cbn; tauto).
  assert (Ge : g_read_to_gpu g = is_on items "read_to_gpu") by (apply Hb; cbn; tauto).
  assert (Gm : g_multi_gpu g = is_on items "multi_gpu") by (apply Hb; cbn; tauto).
  rewrite Gr, ?Gc, ?Gl, ?Ge, ?Gm in *.
  split. { intros f Hf. unfold with_given. cbn in Hf. repeat (destruct Hf as [<-|Hf]; [rewrite ?dget_dset_neq by discriminate; rewrite dget_dset_eq; congruence|]). destruct Hf. }
  assert (Hdev : exists dv, g_device (validated cuda xpu g) = Some dv).
  { unfold validated. rewrite handle_device_spec. exists (setting cuda xpu g). destruct g as [? ? [|] ? ? ?]; reflexivity. }
  destruct Hdev as (dv & Hdv). unfold option_device in O1, O2, O3. rewrite Hdv in O1, O2, O3. exists dv.
  split. { unfold with_given. rewrite !dget_dset_neq by discriminate. rewrite dget_dset_eq, Hdv. reflexivity. }
  assert (Hgd : g_device g = match last_said "device" items with Some (Text s) => Some s | _ => None end).
  { cbn [g given_of g_device]. destruct (Hfd "device" TOptStr ONone) as (v & Hc & ->); [vm_compute; tauto|].
    rewrite dget_stored in Hc by discriminate. cbn [dget] in Hc. destruct (last_said "device" items) as [[s|b]|]; cbn in Hc; injection Hc as <-; reflexivity. }
  rewrite Hgd in O1, O2, O3. split; [|split].
  - intros s Hs. rewrite Hs in O1. apply O1. reflexivity.
  - intros Hs. rewrite Hs in O2. apply O2. reflexivity.
  - intros [Hs|Hs]; rewrite Hs in O3; apply O3; auto.
Qed.

(** ** A command line is accepted exactly if it has two arguments and what the options for numbers and sizes last say can be read. *)
Lemma last_said_kind items f x : Forall good items -> last_said f items = Some x ->
  (exists b, x = On b /\ (In f (map fst switches) \/ f = "gpu_rich")) \/ (exists s, x = Text s /\ In f (map fst (texts ++ numbers ++ sizes))).
Proof.
  induction 1 as [|i items Hi _ IH]; cbn [last_said]; [discriminate|]. destruct (last_said f items) as [y|]; [exact IH|]. intros Hs. clear IH.
  destruct i as [g name on|g name s j| |n|s j|s]; cbn [says good] in *; try discriminate.
  - destruct (String.eqb_spec g f) as [<-|]; [|discriminate]. injection Hs as <-. left. exists on. split; [reflexivity|]. left. apply (in_map fst) in Hi. exact Hi.
  - destruct (String.eqb_spec g f) as [<-|]; [|discriminate]. injection Hs as <-. right. exists s. split; [reflexivity|]. apply (in_map fst) in Hi. exact Hi.
  - destruct (String.eqb_spec f "gpu_rich") as [->|]; [|discriminate]. injection Hs as <-. left. eauto.
  - destruct (String.eqb_spec f "num_threads") as [->|]; [|discriminate]. injection Hs as <-. right. exists s. split; [reflexivity|]. cbn. tauto.
Qed.
Theorem C97_accepted cuda xpu items tail rest : Forall good items -> (tail = [] /\ rest = [] \/ tail = "--" :: rest) ->
  ((exists r, command cuda xpu (line items ++ tail) = Ok r) <->
   length (arguments items ++ rest) = 2 /\
   (forall f name s, In (f, name) numbers -> last_said f items = Some (Text s) -> exists z, int_literal s z) /\
   (forall f name s, In (f, name) sizes -> last_said f items = Some (Text s) -> exists z, parse_kmb s = Ok z)).
Proof.
  intros Hg Ht. split.
  - intros (((c & o') & o) & Hr). destruct (C97_options _ _ _ _ _ _ _ _ Hg Ht Hr) as (-> & Hf & _). split; [reflexivity|].
    assert (Hn : forall f, In f (map fst (numbers ++ sizes)) -> exists df, In (f, df) defaults).
    { intros f Hi. cbn in Hi. repeat (destruct Hi as [<-|Hi]; [eexists; vm_compute; tauto|]). destruct Hi. }
    split; intros f name s Hi Hs; apply (in_map fst) in Hi; cbn [fst] in Hi; (destruct (Hn f) as (df & Hdf); [rewrite map_app; apply in_or_app; auto|]);
      destruct (Hf _ _ Hdf) as (v & _ & Hm); unfold means in Hm; rewrite Hs in Hm; destruct Hm as [(Hx & _)|[(Hx & z & Hz & _)|(Hx & z & Hz & _)]]; eauto; exfalso; clear - Hi Hx; cbn in Hi, Hx; intuition congruence.
  - intros (Hl & Hn & Hz). rewrite (command_line _ _ _ _ _ Hg Ht).
    destruct (fields_ok (fold_left store items []) model_fields) as (o & ->).
    { intros f t df Hin. destruct (String.eqb_spec f "verbosity") as [->|Hv].
      { assert (E : t = TInt /\ df = OInt 0). { cbn in Hin. repeat (destruct Hin as [Hin|Hin]; [injection Hin; intros; subst; try discriminate; auto|]). destruct Hin. }
        destruct E as [-> ->]. rewrite stored_verbosity by exact Hg. eauto. }
      rewrite dget_stored by exact Hv. cbn [dget]. destruct (last_said f items) as [x|] eqn:Ex; [|cbn; eauto].
      destruct (last_said_kind _ _ _ Hg Ex) as [(b & -> & _)|(s & -> & Hk)]; cbn [raw_of convert]; [eauto|].
      destruct (eqb_spec f "out_shard_size") as [->|Hns]. { destruct (Hz "out_shard_size" "out-shard-size" s (or_introl eq_refl) Ex) as (z & ->). cbn. eauto. }
      assert (Hc : t = TOptStr \/ ((t = TInt \/ t = TOptInt) /\ In f (map fst numbers))).
      { cbn in Hk. repeat (destruct Hk as [<-|Hk]; [try congruence; cbn in Hin; repeat (destruct Hin as [Hin|Hin]; [try discriminate Hin; injection Hin; intros; subst; cbn; tauto|]); destruct Hin|]). destruct Hk. }
      destruct Hc as [->|[Ht' Hi]]; [eauto|]. apply in_map_iff in Hi as ((f' & name) & <- & Hi). cbn [fst] in *. destruct (Hn _ _ _ Hi Ex) as (z & Hzz). apply py_int_spec in Hzz.
      rewrite Hzz. destruct Ht' as [-> | ->]; eauto. }
    cbn [rbind]. destruct (arguments items ++ rest) as [|c [|o' [|]]]; try discriminate. eauto.
Qed.

(** ** A word that begins with two dashes and names no option ends the command, whatever follows. *)
Theorem C97_unknown cuda xpu items name v args : Forall good items ->
  name <> "" -> (forall c, In c (list_ascii_of_string name) -> c <> "="%char) ->
  (forall f n, In (f, n) switches -> name <> n /\ name <> ("no-" ++ n)%string) -> (forall f n, In (f, n) (texts ++ numbers ++ sizes) -> name <> n) -> name <> "gpu-rich" ->
  command cuda xpu (line items ++ ("--" ++ name ++ match v with Some s => "=" ++ s | None => "" end)%string :: args) = Err RuntimeError.
Proof.
  intros Hg Hne Hc Hs Hv Hr. unfold command. rewrite words_line by exact Hg. set (w := ("--" ++ name ++ _)%string).
  assert (Hsp : fst (split_eq (name ++ match v with Some s => "=" ++ s | None => "" end)%string) = name).
  { clear - Hc. induction name as [|c name IH]; [destruct v; reflexivity|].
    assert (Hq : Ascii.eqb c "=" = false) by (apply Ascii.eqb_neq, Hc; now left).
    change (fst (if Ascii.eqb c "=" then (EmptyString, Some (name ++ match v with Some s => "=" ++ s | None => "" end)%string)
                 else let p := split_eq (name ++ match v with Some s => "=" ++ s | None => "" end)%string in (String c (fst p), snd p)) = String c name).
    rewrite Hq. cbn zeta. cbn [fst]. f_equal. apply IH. intros c' Hc'. apply Hc. now right. }
  assert (Hl : dget long_options ("--" ++ name)%string = None).
  { destruct (dget long_options ("--" ++ name)%string) as [x|] eqn:E; [|reflexivity]. exfalso. apply dget_In in E.
    assert (Hall : forall k y, In (k, y) long_options -> (exists f n, In (f, n) switches /\ (k = "--" ++ n \/ k = "--no-" ++ n)%string) \/ (exists f n, In (f, n) (texts ++ numbers ++ sizes) /\ k = ("--" ++ n)%string) \/ k = "--gpu-rich").
    { intros k y Hk. vm_compute in Hk. repeat (destruct Hk as [[= <- <-]|Hk]; [first
        [right; right; reflexivity
        |solve [right; left; do 2 eexists; split; [|reflexivity]; cbn [In app texts numbers sizes]; repeat (first [left; reflexivity|right])]
        |solve [left; do 2 eexists; split; [|left; reflexivity]; cbn [In switches]; repeat (first [left; reflexivity|right])]
        |solve [left; do 2 eexists; split; [|right; reflexivity]; cbn [In switches]; repeat (first [left; reflexivity|right])]]|]). destruct Hk. }
    destruct (Hall _ _ E) as [(f & n & Hi & [H|H])|[(f & n & Hi & H)|H]]; injection H as H.
    - now apply (proj1 (Hs _ _ Hi)). - now apply (proj2 (Hs _ _ Hi)). - now apply (Hv _ _ Hi). - congruence. }
  assert (Hw : option_word w (fold_left store items []) = Err RuntimeError).
  { unfold option_word. assert (Hf : fst (split_eq w) = ("--" ++ name)%string).
    { change (String "-" (String "-" (fst (split_eq (name ++ match v with Some s => "=" ++ s | None => "" end)%string))) = String "-" (String "-" name)). now rewrite Hsp. }
    rewrite Hf, Hl. reflexivity. }
  assert (Hd : eqb w "--" = false). { apply eqb_neq. unfold w. destruct name; [congruence|discriminate]. }
  cbn [words]. rewrite Hd. change (is_option w) with true. cbv iota. rewrite Hw. reflexivity.
Qed.
(** Neither has a switch a value. *)
Theorem C97_switch_value cuda xpu items f name s args : Forall good items -> In (f, name) switches ->
  command cuda xpu (line items ++ ("--" ++ name ++ "=" ++ s)%string :: args) = Err RuntimeError.
Proof.
  intros Hg Hi. unfold command. rewrite words_line by exact Hg. generalize (fold_left store items []) ([] ++ arguments items). intros d pos.
  cbn [In switches] in Hi. repeat (destruct Hi as [[= <- <-]|Hi]; [reflexivity|]). destruct Hi.
Qed.

(** * A concrete case: "-vv cfg.yml --no-copy-tokenizer --out-shard-size=2B -j 4 --device auto -v --copy-tokenizer --gpu-rich -- -out" *)
Definition ex_items : list item :=
  [Verbose 1; Argument "cfg.yml"; Switch "copy_tokenizer" "copy-tokenizer" false; Value "out_shard_size" "out-shard-size" "2B" true; Jobs "4" false;
   Value "device" "device" "auto" false; Verbose 0; Switch "copy_tokenizer" "copy-tokenizer" true; Switch "async_write" "async-write" true; Rich].
Example C97_nonvacuous :
  Forall good ex_items /\
  line ex_items ++ ["--"; "-out"] =
    ["-vv"; "cfg.yml"; "--no-copy-tokenizer"; "--out-shard-size=2B"; "-j"; "4"; "--device"; "auto"; "-v"; "--copy-tokenizer"; "--async-write"; "--gpu-rich"; "--"; "-out"] /\
  (exists o, command false true (line ex_items ++ ["--"; "-out"]) = Ok ("cfg.yml", "-out", o) /\
     map (dget o) ["copy_tokenizer"; "out_shard_size"; "num_threads"; "device"; "verbosity"; "async_write"; "multi_gpu"; "clone_tensors"; "random_seed"] =
     [Some (OBool true); Some (OInt 2000000000); Some (OInt 4); Some (OStr "xpu"); Some (OInt 3); Some (OBool true); Some (OBool true); Some (OBool false); Some ONone]) /\
  command false true (line [Argument "a"; Argument "b"] ++ ["--copy-tokenisers=no"]) = Err RuntimeError /\
  command false true (line [Argument "a"; Argument "b"; Jobs "many" true]) = Err RuntimeError.
Proof.
  split. { repeat (apply Forall_cons || apply Forall_nil); cbn; try tauto; try discriminate. }
  split; [reflexivity|]. split; [eexists; split; [vm_compute; reflexivity|reflexivity]|]. split; reflexivity.
Qed.

Print Assumptions C97_options.
Print Assumptions C97_accepted.
Print Assumptions C97_unknown.
Print Assumptions C97_switch_value.
