(** C96: the configuration that mergekit-moe writes beside the tensors. *)
From Coq Require Import Lia.
From Verif.Base Require Import Py PyFacts PyStr.
From Verif.Arch Require Import Model Data.
From Verif.IO Require Model.
From Verif.Run Require Stages.
From Verif.Moe Require Import Model Gates Spec Props PropsQwen PropsGates NameProofs Examples Whole PropsWhole OutConfig.
Local Open Scope string_scope.
Local Open Scope list_scope.

(** * Vocabulary *)
(** [nm] names the type [s] *)
Definition names_type (s nm : string) : Prop := In s ["bfloat16"; "float16"; "float32"; "int64"] /\ (nm = s \/ nm = ("torch." ++ s)%string).
Definition count_key (a : arch) : string := match a with Mixtral => "num_local_experts" | DeepSeek => "n_routed_experts" | _ => "num_experts" end.
Definition class_of (a : arch) : string :=
  match a with Mixtral => "MixtralForCausalLM" | DeepSeek => "DeepseekForCausalLM" | Qwen => "Qwen2MoeForCausalLM" | Qwen3 => "Qwen3MoeForCausalLM" end.
Definition type_of (K : classes) (a : arch) : string :=
  match a with Mixtral => cl_type (k_mixtral K) | DeepSeek => "deepseek" | Qwen => cl_type (k_qwen2moe K) | Qwen3 => cl_type (k_qwen3moe K) end.
(** the fields that describe the mixture; all others come from the base model *)
Definition own_fields (a : arch) : list string :=
  ["architectures"; "model_type"; "torch_dtype"; "num_experts_per_tok"; count_key a] ++
  match a with
  | Mixtral => ["sliding_window"]
  | DeepSeek => ["n_shared_experts"; "first_k_dense_replace"; "moe_layer_freq"; "scoring_func"; "norm_topk_prob"; "moe_intermediate_size"; "auto_map"]
  | Qwen => ["decoder_sparse_step"; "norm_topk_prob"; "sliding_window"; "use_sliding_window"; "shared_expert_intermediate_size"; "moe_intermediate_size"]
  | Qwen3 => ["decoder_sparse_step"; "norm_topk_prob"; "moe_intermediate_size"]
  end.
(** what a field has that the base model's configuration lacks *)
Definition default_of (K : classes) (base : conf) (a : arch) (x : string) : option jv :=
  match a with
  | Mixtral => if eqb (cl_type (co_cls base)) (cl_type (k_mistral K)) then dget (cl_defaults (k_mixtral K)) x
               else match dget (cl_defaults (k_mistral K)) x with Some v => Some v | None => dget (cl_defaults (k_mixtral K)) x end
  | DeepSeek => None
  | Qwen => dget (cl_defaults (k_qwen2moe K)) x
  | Qwen3 => dget (cl_defaults (k_qwen3moe K)) x
  end.

(** * Lookups *)
Lemma dget_app {V} (d1 d2 : dict string V) x : dget (d1 ++ d2) x = match dget d1 x with Some v => Some v | None => dget d2 x end.
Proof. induction d1 as [|[k v] d1 IH]; cbn; [reflexivity|]. destruct (eqb x k); [reflexivity|exact IH]. Qed.
Lemma dget_serial d x : dget (map (fun kv : string * jv => (fst kv, serial (snd kv))) d) x = option_map serial (dget d x).
Proof. induction d as [|[k v] d IH]; cbn; [reflexivity|]. destruct (eqb x k); [reflexivity|exact IH]. Qed.
Lemma to_dict_get c x : dget (to_dict c) x = if eqb x "model_type" then Some (JStr (cl_type (co_cls c))) else option_map serial (dget (co_fields c) x).
Proof. unfold to_dict. cbn [dget]. destruct (eqb x "model_type"); [reflexivity|apply dget_serial]. Qed.
Lemma setf_get k v c x : dget (co_fields (setf k v c)) x = if eqb x k then Some v else dget (co_fields c) x.
Proof. reflexivity. Qed.
Lemma setf_cls k v c : co_cls (setf k v c) = co_cls c. Proof. reflexivity. Qed.
Lemma make_get k kw x : dget (co_fields (make k kw)) x = match dget kw x with Some v => Some v | None => dget (cl_defaults k) x end.
Proof. apply dget_app. Qed.
Lemma make_cls k kw : co_cls (make k kw) = k. Proof. reflexivity. Qed.
Lemma serial2 v : serial (serial v) = serial v. Proof. destruct v; reflexivity. Qed.
Lemma rbind_ok' {A B} (r : result A) (f : A -> result B) y : rbind r f = Ok y -> exists x, r = Ok x /\ f x = Ok y.
Proof. destruct r; cbn; [eauto|discriminate]. Qed.
Lemma eqb_no x k l : ~ In x l -> In k l -> eqb x k = false.
Proof. intros Hn Hk. destruct (eqb_spec x k) as [->|]; [contradiction|reflexivity]. Qed.

Lemma prefix_torch nm : String.prefix "torch." nm = true -> nm = ("torch." ++ String.substring 6 (String.length nm - 6) nm)%string.
Proof.
  intros H. do 6 (destruct nm as [|? nm]; [discriminate H|cbn in H; match type of H with (if ?b then _ else _) = true => destruct b as [E|]; [rewrite <- E; clear E|discriminate H] end]).
  cbn [String.length]. rewrite Nat.sub_0_r || idtac. cbn. f_equal. f_equal. f_equal. f_equal. f_equal. f_equal. rewrite ?Nat.sub_0_r.
  clear H. induction nm as [|c nm IH]; cbn; [reflexivity|]. now rewrite <- IH.
Qed.
Lemma from_name nm : nm <> "" -> (forall s, dtype_from_name nm = Ok (Some s) <-> names_type s nm) /\ dtype_from_name nm <> Ok None.
Proof.
  intros Hne. unfold dtype_from_name. destruct (eqb_spec nm ""); [contradiction|]. split.
  - intros s. unfold names_type. set (n' := if String.prefix "torch." nm then _ else nm).
    assert (E : forall s, In s ["bfloat16"; "float16"; "float32"; "int64"] -> n' = s <-> nm = s \/ nm = ("torch." ++ s)%string).
    { intros t Ht. subst n'. destruct (String.prefix "torch." nm) eqn:Ep.
      - pose proof (prefix_torch nm Ep) as Es. split; [intros <-; now right|]. intros [->| ->]; [|cbn; rewrite ?Nat.sub_0_r; destruct Ht as [<-|[<-|[<-|[<-|[]]]]]; reflexivity].
        destruct Ht as [<-|[<-|[<-|[<-|[]]]]]; discriminate Ep.
      - split; [auto|]. intros [H|H]; [exact H|]. subst nm. exfalso. destruct Ht as [<-|[<-|[<-|[<-|[]]]]]; discriminate Ep. }
    destruct (mem_spec n' ["bfloat16"; "float16"; "float32"; "int64"]) as [Hi|Hi].
    + split; [intros [= <-]; split; [exact Hi|now apply E]|]. intros [Hs Hn]. apply E in Hn; [|exact Hs]. now rewrite Hn.
    + split; [discriminate|]. intros [Hs Hn]. apply E in Hn; [|exact Hs]. subst s. contradiction.
  - destruct (mem _ _); discriminate.
Qed.

Section C96.
Context {F : Type}.
Variables (K : classes) (base : conf) (dtype : option string) (c : moe_config F) (a : arch) (k : dict string jv) (dt : option string).
Hypothesis Hout : out_config K a base dtype c = Ok (k, dt).
Notation n := (Z.of_nat (length (c_experts F c))).

Lemma out_parts : select_dtype dtype base = Ok dt.
Proof. unfold out_config in Hout. apply rbind_ok' in Hout as (d' & Hd & H). rewrite Hd. f_equal. destruct a; apply rbind_ok' in H as (o & _ & [= _ <-]); reflexivity. Qed.

(** The number of experts is the number of experts, the class and its type are those of the chosen architecture, and the other
    fields of the mixture are as its writer needs them. *)
Theorem C96_fields draw ty available m tk allow routers shared :
  build F draw ty available m tk c allow = Ok (Go (a, routers, shared)) ->
  dget k (count_key a) = Some (JInt n) /\
  dget k "num_experts_per_tok" = Some (JInt (c_per_token F c)) /\ (1 <= c_per_token F c <= n)%Z /\
  dget k "architectures" = Some (JStrs [class_of a]) /\ dget k "model_type" = Some (JStr (type_of K a)) /\
  (a = Mixtral \/ a = Qwen -> dget k "sliding_window" = Some JNull) /\
  (a <> Mixtral -> exists v, dget k "intermediate_size" = Some v /\ dget k "moe_intermediate_size" = Some v /\ dget k "norm_topk_prob" = Some (JBool true) /\
     (a = Qwen -> dget k "shared_expert_intermediate_size" = Some v)) /\
  (a = Qwen \/ a = Qwen3 -> dget k "decoder_sparse_step" = Some (JInt 1)) /\ (a = Qwen -> dget k "use_sliding_window" = Some (JBool false)) /\
  (a = DeepSeek -> dget k "first_k_dense_replace" = Some (JInt 0) /\ dget k "moe_layer_freq" = Some (JInt 1) /\ dget k "scoring_func" = Some (JStr "softmax") /\
     dget k "n_shared_experts" = Some (match c_shared F c with [] => JNull | _ => JInt 1 end)).
Proof.
  intros Hb. destruct (C70_build _ _ _ _ _ _ _ _ _ _ Hb) as (Hbad & _). apply C70_accepted in Hbad as (Hk & _).
  assert (Hor : forall z, or_default (c_per_token F c) z = c_per_token F c).
  { intros z. unfold or_default. destruct (Z.eqb_spec (c_per_token F c) 0); lia. }
  unfold out_config in Hout. apply rbind_ok' in Hout as (d' & Hd & H). destruct a; apply rbind_ok' in H as (o & Ho & [= <- <-]).
  - unfold mixtral_config in Ho. destruct (negb _); [discriminate|]. apply rbind_ok' in Ho as (b & _ & [= <-]). rewrite Hor.
    repeat (split; [reflexivity || exact Hk || (intros; reflexivity)|]). split; [congruence|]. split; [intros [|]; discriminate|]. split; discriminate.
  - unfold deepseek_config in Ho. destruct (Z.ltb_spec 1 (Z.of_nat (length (c_shared F c)))) as [|Hs]; [discriminate|]. cbv zeta in Ho.
    match type of Ho with (match dget ?r _ with _ => _ end = _) => set (res := r) in Ho end. destruct (dget res "intermediate_size") as [v|] eqn:Ev; [|discriminate]. injection Ho as <-.
    assert (HX : forall x w, eqb x "torch_dtype" = false -> dget (("auto_map", JMap auto_map) :: ("moe_intermediate_size", v) :: res) x = Some w ->
      dget (match d' with Some s => ("torch_dtype", JStr s) :: ("auto_map", JMap auto_map) :: ("moe_intermediate_size", v) :: res | None => ("auto_map", JMap auto_map) :: ("moe_intermediate_size", v) :: res end) x = Some w).
    { intros x w Hx Hw. destruct d'; [|exact Hw]. cbn [dget]. rewrite Hx. exact Hw. }
    split; [now apply HX|]. split; [apply HX; [reflexivity|unfold res; cbn; now rewrite Hor]|]. split; [exact Hk|]. split; [now apply HX|]. split; [now apply HX|]. split; [intros [|]; discriminate|].
    split. { intros _. exists v. split; [apply HX; [reflexivity|exact Ev]|]. split; [now apply HX|]. split; [now apply HX|discriminate]. }
    split; [intros [|]; discriminate|]. split; [discriminate|]. intros _. split; [now apply HX|]. split; [now apply HX|]. split; [now apply HX|]. apply HX; [reflexivity|]. unfold res.
    destruct (c_shared F c) as [|s [|s' ss]]; [reflexivity|reflexivity|cbn in Hs; lia].
  - unfold qwen_config in Ho. cbv zeta in Ho. apply rbind_ok' in Ho as (v & Ev & [= <-]). rewrite Hor in Ev. rewrite Hor. unfold getf in Ev.
    match type of Ev with match dget (co_fields ?q) _ with _ => _ end = _ => set (out := q) in * end. destruct (dget (co_fields out) "intermediate_size") as [w|] eqn:Ew; [|discriminate]. injection Ev as ->.
    assert (HX : forall x w, eqb x "torch_dtype" = false -> dget (to_dict (setf "moe_intermediate_size" v (setf "shared_expert_intermediate_size" v out))) x = Some w ->
      dget (to_dict (match d' with Some s => setf "torch_dtype" (JDtype s) (setf "moe_intermediate_size" v (setf "shared_expert_intermediate_size" v out)) | None => setf "moe_intermediate_size" v (setf "shared_expert_intermediate_size" v out) end)) x = Some w).
    { intros x w Hx Hw. destruct d'; [|exact Hw]. rewrite to_dict_get in *. rewrite setf_get, Hx. exact Hw. }
    repeat (split; [now (apply HX || exact Hk || (intros; apply HX))|]). split; [|split; [intros; now apply HX|split; [(intros; now apply HX) || discriminate|discriminate]]]. intros _. exists (serial v).
    split; [apply HX; [reflexivity|]; rewrite to_dict_get; change (option_map serial (dget (co_fields out) "intermediate_size") = Some (serial v)); now rewrite Ew|]. split; [now apply HX|]. split; [now apply HX|]. intros; now apply HX.
  - unfold qwen3_config in Ho. cbv zeta in Ho. apply rbind_ok' in Ho as (v & Ev & [= <-]). rewrite Hor in Ev. rewrite Hor. unfold getf in Ev.
    match type of Ev with match dget (co_fields ?q) _ with _ => _ end = _ => set (out := q) in * end. destruct (dget (co_fields out) "intermediate_size") as [w|] eqn:Ew; [|discriminate]. injection Ev as ->.
    assert (HX : forall x w, eqb x "torch_dtype" = false -> dget (to_dict (setf "moe_intermediate_size" v out)) x = Some w ->
      dget (to_dict (match d' with Some s => setf "torch_dtype" (JDtype s) (setf "moe_intermediate_size" v out) | None => setf "moe_intermediate_size" v out end)) x = Some w).
    { intros x w Hx Hw. destruct d'; [|exact Hw]. rewrite to_dict_get in *. rewrite setf_get, Hx. exact Hw. }
    split; [now apply HX|]. split; [now apply HX|]. split; [exact Hk|]. split; [now apply HX|]. split; [destruct d'; reflexivity|]. split; [intros [|]; discriminate|].
    split; [|split; [intros; now apply HX|split; [(intros; now apply HX) || discriminate|discriminate]]]. intros _. exists (serial v).
    split; [apply HX; [reflexivity|]; rewrite to_dict_get; change (option_map serial (dget (co_fields out) "intermediate_size") = Some (serial v)); now rewrite Ew|]. split; [now apply HX|]. split; [now apply HX|]. discriminate.
Qed.

(** Every other field is the base model's or, if that has none, the class's default. *)
Theorem C96_kept x : ~ In x (own_fields a) ->
  dget k x = match dget (to_dict base) x with Some v => Some v | None => option_map serial (default_of K base a x) end.
Proof.
  intros Hx. assert (E : forall y, In y (own_fields a) -> eqb x y = false) by (intros y; now apply eqb_no).
  assert (Ser : forall y, option_map serial (dget (to_dict base) y) = dget (to_dict base) y).
  { intros y. rewrite to_dict_get. destruct (eqb y "model_type"); [reflexivity|]. destruct (dget (co_fields base) y); cbn; [now rewrite serial2|reflexivity]. }
  unfold out_config in Hout. apply rbind_ok' in Hout as (d' & Hd & H).
  assert (Em : eqb x "model_type" = false) by (apply E; cbn; tauto). assert (Et : eqb x "torch_dtype" = false) by (apply E; cbn; tauto).
  assert (Ea : eqb x "architectures" = false) by (apply E; cbn; tauto). assert (Ep : eqb x "num_experts_per_tok" = false) by (apply E; cbn; tauto).
  assert (Ec : eqb x (count_key a) = false) by (apply E; cbn; tauto).
  destruct a; apply rbind_ok' in H as (o & Ho & [= <- <-]); cbn [count_key default_of] in *.
  - assert (Es : eqb x "sliding_window" = false) by (apply E; cbn; tauto).
    unfold mixtral_config in Ho. destruct (negb _); [discriminate|]. apply rbind_ok' in Ho as (b & Hb & [= <-]).
    rewrite to_dict_get, Em, !setf_get, Et, Es, Ep, Ec, Ea, make_get, to_dict_get, Em.
    destruct (eqb (cl_type (co_cls base)) (cl_type (k_mistral K))).
    + injection Hb as <-. rewrite to_dict_get, Em. destruct (dget (co_fields base) x); cbn; [now rewrite serial2|reflexivity].
    + apply rbind_ok' in Hb as (mp & Hmp & [= <-]). rewrite !setf_get, Es, make_get, to_dict_get, Em. unfold getf in Hmp. destruct (eqb_spec x "max_position_embeddings") as [->|].
      * destruct (dget (co_fields base) "max_position_embeddings"); [injection Hmp as ->|discriminate]. cbn. now rewrite serial2.
      * destruct (dget (co_fields base) x); cbn; [now rewrite !serial2|]. destruct (dget (cl_defaults (k_mistral K)) x); cbn; [now rewrite serial2|reflexivity].
  - unfold deepseek_config in Ho. destruct (_ <? _)%Z; [discriminate|]. cbv zeta in Ho. match type of Ho with (match ?q with _ => _ end = _) => destruct q as [v|]; [|discriminate] end. injection Ho as <-.
    match goal with |- dget (match d' with Some s => _ :: ?r | None => _ end) x = _ => transitivity (dget r x); [destruct d'; [cbn [dget]; now rewrite Et|reflexivity]|] end.
    cbn [dget]. rewrite !E by (cbn; tauto). destruct (dget (to_dict base) x); reflexivity.
  - unfold qwen_config in Ho. cbv zeta in Ho. apply rbind_ok' in Ho as (v & _ & [= <-]). rewrite to_dict_get, Em.
    match goal with |- option_map serial (dget (co_fields (match d' with Some s => _ | None => ?r end)) x) = _ => transitivity (option_map serial (dget (co_fields r) x)); [destruct d'; [now rewrite setf_get, Et|reflexivity]|] end.
    rewrite !setf_get, !E by (cbn; tauto). rewrite make_get. pose proof (Ser x) as Sx. destruct (dget (to_dict base) x); [exact Sx|reflexivity].
  - unfold qwen3_config in Ho. cbv zeta in Ho. apply rbind_ok' in Ho as (v & _ & [= <-]). rewrite to_dict_get, Em.
    match goal with |- option_map serial (dget (co_fields (match d' with Some s => _ | None => ?r end)) x) = _ => transitivity (option_map serial (dget (co_fields r) x)); [destruct d'; [now rewrite setf_get, Et|reflexivity]|] end.
    rewrite !setf_get, !E by (cbn; tauto). rewrite make_get. pose proof (Ser x) as Sx. destruct (dget (to_dict base) x); [exact Sx|reflexivity].
Qed.

(** The type of the tensors is the configured one, else the base model's, and it is recorded. *)
Theorem C96_dtype :
  (forall nm, dtype = Some nm -> nm <> "" -> exists s, dt = Some s /\ names_type s nm) /\
  (dtype = None \/ dtype = Some "" -> match dget (co_fields base) "torch_dtype" with
     | Some (JDtype s) => dt = Some s
     | Some (JStr nm) => nm = "" /\ dt = None \/ exists s, dt = Some s /\ names_type s nm
     | _ => dt = None end) /\
  (forall s, dt = Some s -> dget k "torch_dtype" = Some (JStr s)) /\ (dt = None -> a = Mixtral -> dget k "torch_dtype" = Some JNull).
Proof.
  pose proof out_parts as Hd. unfold select_dtype in Hd. split; [|split; [|split]].
  - intros nm -> Hne. apply rbind_ok' in Hd as (o & Ho & Hd). destruct (from_name nm Hne) as [H1 H2]. destruct o as [s|]; [|contradiction]. injection Hd as <-.
    exists s. split; [reflexivity|]. now apply H1.
  - intros Hn. assert (E : match dtype with Some s => dtype_from_name s | None => Ok None end = Ok None) by (destruct Hn as [->| ->]; reflexivity). rewrite E in Hd. cbn [rbind] in Hd.
    destruct (dget (co_fields base) "torch_dtype") as [[]|]; try (now injection Hd as <-).
    destruct (eqb_spec s "") as [->|Hne]; [left; split; [reflexivity|now injection Hd as <-]|]. right. destruct (from_name s Hne) as [H1 H2]. destruct dt as [t|]; [|congruence]. exists t. split; [reflexivity|now apply H1].
  - intros s Es. pose proof out_parts as Hp. unfold out_config in Hout. rewrite Hp, Es in Hout. cbn [rbind] in Hout. destruct a; apply rbind_ok' in Hout as (o & _ & H); injection H as <-; reflexivity.
  - intros Es Ea. pose proof out_parts as Hp. unfold out_config in Hout. rewrite Hp, Es, Ea in Hout. cbn [rbind] in Hout. apply rbind_ok' in Hout as (o & _ & H); injection H as <-; reflexivity.
Qed.
End C96.

(** the named type is known: the configured one, or the base model's if none is configured *)
Definition type_known (dtype : option string) (base : conf) : Prop :=
  (forall nm, dtype = Some nm -> nm <> "" -> exists s, names_type s nm) /\
  (dtype = None \/ dtype = Some "" -> forall nm, dget (co_fields base) "torch_dtype" = Some (JStr nm) -> nm <> "" -> exists s, names_type s nm).
Lemma from_name_ok nm : nm <> "" -> (exists r, dtype_from_name nm = Ok r) <-> exists s, names_type s nm.
Proof.
  intros Hne. destruct (from_name nm Hne) as [H1 H2]. split; [intros ([s|] & H); [exists s; now apply H1|contradiction]|]. intros (s & H). exists (Some s). now apply H1.
Qed.
Lemma select_ok dtype base : (exists dt, select_dtype dtype base = Ok dt) <-> type_known dtype base.
Proof.
  unfold select_dtype, type_known. destruct (match dtype with Some s => eqb s "" | None => true end) eqn:Ee.
  - assert (E : match dtype with Some s => dtype_from_name s | None => Ok None end = Ok None) by (destruct dtype as [s|]; [apply eqb_iff in Ee; subst s|]; reflexivity). rewrite E. cbn [rbind].
    assert (Hn : dtype = None \/ dtype = Some "") by (destruct dtype as [s|]; [apply eqb_iff in Ee; subst s; now right|now left]).
    split; [intros H; split; [intros nm -> Hne; apply eqb_iff in Ee; congruence|]|intros [_ H]; specialize (H Hn)].
    + intros _ nm Hb Hne. rewrite Hb in H. now apply from_name_ok.
    + destruct (dget (co_fields base) "torch_dtype") as [[]|]; eauto. destruct (eqb_spec s "") as [->|Hne]; [eexists; reflexivity|]. apply from_name_ok; auto.
  - destruct dtype as [s|]; [|discriminate]. assert (Hne : s <> "") by (intros ->; discriminate). pose proof (from_name_ok s Hne) as H. split.
    + intros (dt & Hd). apply rbind_ok' in Hd as (o & Ho & _). split; [intros nm [= <-] _; apply H; eauto|intros [|[= ->]]; [discriminate|contradiction]].
    + intros [H1 _]. destruct (proj2 H (H1 s eq_refl Hne)) as (r & Hr). rewrite Hr. cbn [rbind]. destruct r as [t|]; [eauto|]. destruct (from_name s Hne) as [_ Hx]. contradiction.
Qed.

(** A configuration is made exactly if the named type is known and the base model's has the one field that is asked of it. *)
Theorem C96_made {F} K base dtype (c : moe_config F) a draw ty available m tk allow routers shared :
  build F draw ty available m tk c allow = Ok (Go (a, routers, shared)) ->
  (exists r, out_config K a base dtype c = Ok r) <->
  type_known dtype base /\
  match a with
  | Mixtral => cl_type (co_cls base) = cl_type (k_mistral K) \/ In "max_position_embeddings" (dkeys (co_fields base))
  | DeepSeek => In "intermediate_size" (dkeys (co_fields base))
  | Qwen => In "intermediate_size" (dkeys (co_fields base)) \/ In "intermediate_size" (dkeys (cl_defaults (k_qwen2moe K)))
  | Qwen3 => In "intermediate_size" (dkeys (co_fields base)) \/ In "intermediate_size" (dkeys (cl_defaults (k_qwen3moe K)))
  end.
Proof.
  intros Hb. destruct (run_shared_of draw ty available m tk c allow a routers shared Hb) as [S1 S2]. destruct (C70_build _ _ _ _ _ _ _ _ _ _ Hb) as (_ & Hs & _).
  assert (HD : a = DeepSeek -> (length (c_shared F c) <= 1)%nat).
  { intros ->. pose proof (C70_selected ty available c) as H. cbv zeta in H. rewrite Hs in H. destruct H as ((_ & _ & H) & _). cbn [supports_config] in H.
    destruct (c_shared F c) as [|? [|]]; cbn; [lia|lia|discriminate]. }
  rewrite <- select_ok. unfold out_config. destruct (select_dtype dtype base) as [dt|]; cbn [rbind]; [|split; [intros (? & [=])|intros ((? & [=]) & _)]].
  assert (HX : forall X : Prop, X <-> (exists d, Ok (A:=option string) dt = Ok d) /\ X) by (intros X; split; [intros H; split; [eauto|exact H]|tauto]).
  destruct a; rewrite <- HX; clear HX.
  - rewrite (S1 (or_introl eq_refl)). unfold mixtral_config. cbn [length Z.of_nat Z.eqb negb]. destruct (eqb_spec (cl_type (co_cls base)) (cl_type (k_mistral K))) as [Et|Et]; cbn [rbind]; [split; eauto|].
    rewrite dget_Some_key. unfold getf. destruct (dget (co_fields base) "max_position_embeddings") as [v|]; cbn [rbind]; [split; eauto|]. split; [intros (? & [=])|intros [|(? & [=])]; contradiction].
  - specialize (HD eq_refl). unfold deepseek_config. destruct (Z.ltb_spec 1 (Z.of_nat (length (c_shared F c)))) as [|_]; [lia|]. cbv zeta. rewrite dget_Some_key.
    match goal with |- context [match dget ?r ?x with _ => _ end] => assert (E : dget r x = option_map serial (dget (co_fields base) "intermediate_size")) by (cbn [dget eqb]; change (dget (to_dict base) "intermediate_size" = option_map serial (dget (co_fields base) "intermediate_size")); now rewrite to_dict_get); rewrite E; clear E end.
    destruct (dget (co_fields base) "intermediate_size") as [v|]; cbn [option_map rbind]; split; eauto; intros (? & [=]).
  - unfold qwen_config, getf. cbv zeta. rewrite !setf_get, make_get, to_dict_get. repeat match goal with |- context [eqb ?x ?y] => change (eqb x y) with false end. cbv iota. rewrite !dget_Some_key. destruct (dget (co_fields base) "intermediate_size") as [v|]; cbn; [split; [intros _; left; eauto|intros _; eauto]|].
    destruct (dget (cl_defaults (k_qwen2moe K)) "intermediate_size") as [w|]; cbn; [split; [intros _; right; eauto|intros _; eauto]|]. split; [intros (? & [=])|intros [(? & [=])|(? & [=])]].
  - unfold qwen3_config, getf. cbv zeta. rewrite !setf_get, make_get, to_dict_get. repeat match goal with |- context [eqb ?x ?y] => change (eqb x y) with false end. cbv iota. rewrite !dget_Some_key. destruct (dget (co_fields base) "intermediate_size") as [v|]; cbn; [split; [intros _; left; eauto|intros _; eauto]|].
    destruct (dget (cl_defaults (k_qwen3moe K)) "intermediate_size") as [w|]; cbn; [split; [intros _; right; eauto|intros _; eauto]|]. split; [intros (? & [=])|intros [(? & [=])|(? & [=])]].
Qed.

(** The tensors written are those of a run of C95 that casts to the recorded type, and every router has as many rows as the
    configuration says there are experts. *)
Theorem C96_agrees {T F} (o : option string -> ops T F) of_rows dirs cfg d dense draw ty available m tk K base dtype (c : moe_config F) allow n a k saves :
  (forall x, Stages.sound_dir (dirs x)) -> get_config_value cfg "num_hidden_layers" = Ok (CVInt n) -> Z.of_nat (ll_layers m) = n ->
  dense = a_mistral_default \/ dense = a_llama_default ->
  configured_run o of_rows dirs cfg d dense draw ty available m tk K base dtype c allow = Ok (Go (a, k, saves)) ->
  exists dt, out_config K a base dtype c = Ok (k, dt) /\
  moe_run (o dt) of_rows dirs cfg d dense draw ty available m tk c allow = Ok (Go (a, saves)) /\
  exists e p, dget k (count_key a) = Some (JInt e) /\ dget k "num_experts_per_tok" = Some (JInt p) /\ (1 <= p <= e)%Z /\
    forall i, (0 <= i < n)%Z -> exists rows, In (layer_name i "mlp.gate.weight", o_cast (o dt) (of_rows rows)) saves /\ Z.of_nat (length rows) = e.
Proof.
  intros Hs Hc Hm Hd H. unfold configured_run in H. apply rbind_ok' in H as ([|[[a' routers] shared]] & Hb & H); [discriminate|].
  apply rbind_ok' in H as ([k' dt] & Ho & H). apply rbind_ok' in H as (u & Hu & H). apply rbind_ok' in H as (sv & Hw & [= <- <- <-]). exists dt. split; [exact Ho|].
  assert (Hr : moe_run (o dt) of_rows dirs cfg d dense draw ty available m tk c allow = Ok (Go (a', sv))).
  { unfold moe_run. rewrite Hb. cbn [rbind]. rewrite Hu. cbn [rbind]. rewrite Hw. reflexivity. }
  split; [exact Hr|]. destruct (C96_fields _ _ _ _ _ _ _ Ho _ _ _ _ _ _ _ _ Hb) as (F1 & F2 & F3 & _). eexists _, _. split; [exact F1|]. split; [exact F2|]. split; [exact F3|].
  intros i Hi. destruct (C95_aligned _ _ _ _ _ _ _ _ _ _ _ _ _ _ _ _ Hs Hc Hm Hd Hr) as (sh & gates & _ & HA). destruct (HA i Hi) as ((rows & R1 & R2 & _) & _).
  exists rows. split; [exact R1|]. now rewrite R2.
Qed.

(** * A concrete case: the mixture of C95, made from a llama model *)
Definition ex_classes : classes :=
  {| k_mistral := {| cl_type := "mistral"; cl_defaults := [("sliding_window", JInt 4096); ("head_dim", JNull)] |};
     k_mixtral := {| cl_type := "mixtral"; cl_defaults := [("num_local_experts", JInt 8); ("router_jitter_noise", JInt 0)] |};
     k_qwen2moe := {| cl_type := "qwen2_moe"; cl_defaults := [("num_experts", JInt 60); ("moe_intermediate_size", JInt 1408); ("qkv_bias", JBool true)] |};
     k_qwen3moe := {| cl_type := "qwen3_moe"; cl_defaults := [] |} |}.
Definition ex_base : conf :=
  {| co_cls := {| cl_type := "llama"; cl_defaults := [] |};
     co_fields := [("intermediate_size", JInt 11008); ("max_position_embeddings", JInt 2048); ("torch_dtype", JDtype "float16"); ("architectures", JStrs ["LlamaForCausalLM"])] |}.
Example C96_nonvacuous draw :
  match configured_run (fun _ => sym_ops) ex_rows ex_dirs two_layers ex_dims a_llama_default draw (fun _ => "llama") [Mixtral; DeepSeek; Qwen; Qwen3] ex_llm letters
          ex_classes ex_base (Some "torch.bfloat16") {| c_base := "base"; c_experts := [an_expert 0; an_expert 1; an_expert 2]; c_gate_mode := "random"; c_per_token := 2; c_shared := [an_expert 0]; c_architecture := Some "qwen" |} false with
  | Ok (Go (Qwen, k, saves)) => dget k "num_experts" = Some (JInt 3) /\ dget k "num_experts_per_tok" = Some (JInt 2) /\ dget k "moe_intermediate_size" = Some (JInt 11008) /\
      dget k "torch_dtype" = Some (JStr "bfloat16") /\ dget k "model_type" = Some (JStr "qwen2_moe") /\ dget k "max_position_embeddings" = Some (JInt 2048) /\
      dget k "qkv_bias" = Some (JBool true) /\ dget saves "model.layers.1.mlp.gate.weight" = Some (Leaf "rows" "3")
  | _ => False
  end.
Proof. vm_compute. repeat split. Qed.

Print Assumptions C96_fields.
Print Assumptions C96_kept.
Print Assumptions C96_dtype.
Print Assumptions C96_made.
Print Assumptions C96_agrees.
