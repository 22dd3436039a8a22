(** C37: weight names are unambiguous. *)
From Verif.Base Require Import Py PyFacts PyStr.
From Verif.Arch Require Import Model Spec Proofs ShippedProofs Data.
Local Open Scope string_scope.
Local Open Scope list_scope.

(** The template engine gives each part its meaning: variables are replaced by decimal numbers, text is kept. *)
Theorem C37_substitution_meaning (ps : list part) (n i : Z) :
  Forall part_ok ps -> template_substitution (template ps) n (Some i) = Ok (name_at n i ps).
Proof. exact (substitution_meaning ps n i). Qed.
Print Assumptions C37_substitution_meaning.

(** A template that mentions the layer index gives different names to different layers. *)
Theorem C37_layers_never_collide (ps : list part) (n i j : Z) (s s' : string) :
  Forall part_ok ps -> has_layer_index ps -> (0 <= i)%Z -> (0 <= j)%Z -> i <> j ->
  template_substitution (template ps) n (Some i) = Ok s ->
  template_substitution (template ps) n (Some j) = Ok s' ->
  s <> s'.
Proof.
  intros Hp Hl Hi Hj Hne E1 E2. rewrite substitution_meaning in E1, E2 by auto.
  injection E1 as <-. injection E2 as <-. now apply name_at_inj.
Qed.
Print Assumptions C37_layers_never_collide.

Example C37_layers_never_collide_nonvacuous :
  let ps := [Text "model.layers."; LayerIndex Zero; Text ".w"; LayerIndex Minus1; NumLayers Plus1] in
  Forall part_ok ps /\ has_layer_index ps /\
  template ps = "model.layers.${layer_index}.w${layer_index-1}${num_layers+1}" /\
  template_substitution (template ps) 12 (Some 0%Z) = Ok "model.layers.0.w-113" /\
  template_substitution (template ps) 12 (Some 11%Z) = Ok "model.layers.11.w1013".
Proof.
  cbn zeta. split; [repeat constructor|]. split; [exists Zero; cbn; auto|]. repeat split; vm_compute; reflexivity.
Qed.

(** Two templates that share the text up to the layer index, which is followed by a non-digit, give different
    names to different layers, whatever the rest is. *)
Theorem C37_templates_never_collide (p r r' : string) (ps ps' : list part) (n i j : Z) (s s' : string) :
  all_chars plain p = true -> all_chars plain r = true -> all_chars plain r' = true ->
  r <> "" -> r' <> "" -> stops_number r -> stops_number r' ->
  Forall part_ok ps -> Forall part_ok ps' ->
  (0 <= i)%Z -> (0 <= j)%Z -> i <> j ->
  template_substitution (template (Text p :: LayerIndex Zero :: Text r :: ps)) n (Some i) = Ok s ->
  template_substitution (template (Text p :: LayerIndex Zero :: Text r' :: ps')) n (Some j) = Ok s' ->
  s <> s'.
Proof.
  intros Hp Hr Hr' Hn Hn' Hs Hs' Hps Hps' Hi Hj Hne E1 E2.
  rewrite substitution_meaning in E1, E2 by (repeat constructor; auto).
  injection E1 as <-. injection E2 as <-. unfold name_at. cbn [map cat fold_right meaning shift_by].
  intros E. apply app_str_inj_l in E. apply str_index_inj in E; [tauto|lia|lia|..].
  - destruct r; [congruence|]. exact Hs.
  - destruct r'; [congruence|]. exact Hs'.
Qed.
Print Assumptions C37_templates_never_collide.

(** Substituting in a prefixed template is prefixing the substituted template. *)
Theorem C37_prefix_commutes (p t : string) (n : Z) (layer : option Z) :
  all_chars plain p = true -> infix "{" p = false ->
  template_substitution (p ++ t)%string n layer = rmap (String.append p) (template_substitution t n layer).
Proof. exact (plain_prefix p t n layer). Qed.
Print Assumptions C37_prefix_commutes.

(** A shift by something other than one is malformed. *)
Theorem C37_other_shifts_rejected (p v rest : string) (sign d : ascii) (n : Z) (layer : option Z) :
  all_chars plain p = true -> v = "layer_index" \/ v = "num_layers" -> sign = "+"%char \/ sign = "-"%char -> d <> "1"%char ->
  template_substitution (p ++ "${" ++ v ++ String sign (String d rest))%string n layer = Err ValueError.
Proof.
  intros Hp Hv Hs H1. unfold template_substitution. rewrite infix_brace_app.
  assert (Hb : infix "{" ("${" ++ v ++ String sign (String d rest))%string = true) by (destruct Hv as [-> | ->]; reflexivity). rewrite Hb, orb_true_r.
  destruct (pieces_lits p ("${" ++ v ++ String sign (String d rest))%string Hp _ (le_n _)) as (f & Hf & ->).
  rewrite render_lits. destruct f as [|f]; [cbn in Hf; lia|]. apply Ascii.eqb_neq in H1.
  destruct d as [[] [] [] [] [] [] [] []]; try discriminate H1; destruct Hv as [-> | ->], Hs as [-> | ->]; reflexivity.
Qed.
Print Assumptions C37_other_shifts_rejected.
Example C37_other_shifts_nonvacuous : template_substitution "h.${layer_index+2}.w" 12 (Some 3%Z) = Err ValueError.
Proof. reflexivity. Qed.

(** A module with a prefix has the weights of the module that writes the prefix into every name, alias and tied name of
    its templates, with the same flags and dtypes. *)
Definition spelled (p : string) (w : weight_info) : weight_info :=
  {| wi_name := (p ++ wi_name w)%string; wi_embed := wi_embed w; wi_optional := wi_optional w;
     wi_aliases := option_map (map (String.append p)) (wi_aliases w); wi_dtype := wi_dtype w;
     wi_tied := option_map (map (String.append p)) (wi_tied w) |}.
Definition spelled_out (p : string) (a : json_arch) : json_arch :=
  {| ja_pre := map (spelled p) (ja_pre a); ja_layer := map (spelled p) (ja_layer a); ja_post := map (spelled p) (ja_post a);
     ja_key := ja_key a; ja_override := ja_override a |}.
Definition no_empty_lists (a : json_arch) : Prop :=
  forall w, In w (ja_pre a ++ ja_layer a ++ ja_post a) -> wi_aliases w <> Some [] /\ wi_tied w <> Some [].

Lemma rmapM_prefix p n layer (l : list string) : all_chars plain p = true -> infix "{" p = false ->
  rmapM (fun s => template_substitution s n layer) (map (String.append p) l) =
  rmap (map (String.append p)) (rmapM (fun s => template_substitution s n layer) l).
Proof.
  intros Hp Hb. induction l as [|s l IH]; [reflexivity|]. cbn [map rmapM]. rewrite plain_prefix by auto.
  destruct (template_substitution s n layer); cbn [rmap rbind]; [|reflexivity]. rewrite IH.
  destruct (rmapM _ l); reflexivity.
Qed.
Lemma spelled_substitute p a c layer w : all_chars plain p = true -> infix "{" p = false -> wi_aliases w <> Some [] -> wi_tied w <> Some [] ->
  substitute (spelled_out p a) c layer (spelled p w) = rmap (prefix_weight (Some p)) (substitute a c layer w).
Proof.
  intros Hp Hb Ha Ht. unfold substitute. change (ja_num (spelled_out p a) c) with (ja_num a c). destruct (ja_num a c) as [n|]; [|reflexivity].
  cbn [rbind spelled wi_name wi_aliases wi_dtype wi_tied wi_embed wi_optional]. rewrite plain_prefix by auto.
  destruct (template_substitution (wi_name w) n layer); [|reflexivity]. cbn [rmap rbind].
  assert (Hn : forall o, o <> Some [] -> subst_names n layer (option_map (map (String.append p)) o) = rmap (prefix_names p) (subst_names n layer o)).
  { intros [[|x l]|] Ho; [congruence| |reflexivity]. cbn [option_map subst_names]. rewrite rmapM_prefix by auto.
    cbn [rmapM]. destruct (template_substitution x n layer); [|reflexivity]. cbn [rbind]. destruct (rmapM _ l); reflexivity. }
  rewrite !Hn by auto. destruct (subst_names n layer (wi_aliases w)); [|reflexivity]. cbn [rmap rbind].
  destruct (subst_opt n layer (wi_dtype w)); [|reflexivity]. cbn [rmap rbind]. destruct (subst_names n layer (wi_tied w)); reflexivity.
Qed.
Lemma map_prefix_none (ws : list weight_info) : map (prefix_weight None) ws = ws.
Proof. induction ws; cbn; congruence. Qed.
Lemma spelled_list p a c layer (ws : list weight_info) : all_chars plain p = true -> infix "{" p = false ->
  (forall w, In w ws -> wi_aliases w <> Some [] /\ wi_tied w <> Some []) ->
  (let! x := rmapM (substitute a c layer) ws in Ok (map (prefix_weight (Some p)) x)) =
  (let! x := rmapM (substitute (spelled_out p a) c layer) (map (spelled p) ws) in Ok (map (prefix_weight None) x)).
Proof.
  intros Hp Hb. induction ws as [|w ws IH]; intros Hw; [reflexivity|]. cbn [map rmapM]. destruct (Hw w (or_introl eq_refl)) as [Ha Ht].
  rewrite spelled_substitute by auto. destruct (substitute a c layer w); [|reflexivity]. cbn [rmap rbind].
  assert (IH' := IH (fun w' Hw' => Hw w' (or_intror Hw'))). clear IH Hw.
  destruct (rmapM (substitute a c layer) ws), (rmapM (substitute (spelled_out p a) c layer) (map (spelled p) ws)); cbn [rbind] in *; try congruence.
  cbn [map]. rewrite map_prefix_none in *. cbn. congruence.
Qed.
Theorem C37_prefix_spelled_out (p : string) (a : json_arch) (c : cfgval) (i : Z) :
  all_chars plain p = true -> infix "{" p = false -> no_empty_lists a ->
  let with_prefix := {| md_arch := json_module a; md_prefix := Some p |} in
  let without := {| md_arch := json_module (spelled_out p a); md_prefix := None |} in
  c_pre with_prefix c = c_pre without c /\ c_layer with_prefix i c = c_layer without i c /\ c_post with_prefix c = c_post without c.
Proof.
  intros Hp Hb Hne. cbv zeta. unfold c_pre, c_layer, c_post. cbn [md_arch md_prefix json_module ma_pre ma_layer ma_post spelled_out ja_pre ja_layer ja_post].
  repeat split; apply spelled_list; auto; intros w Hw; apply Hne; rewrite !in_app_iff; auto.
Qed.
Print Assumptions C37_prefix_spelled_out.
Example C37_prefix_spelled_out_nonvacuous :
  let a := {| ja_pre := []; ja_layer := [{| wi_name := "h.${layer_index}.w"; wi_embed := true; wi_optional := true;
                wi_aliases := Some ["l.${layer_index}.w"]; wi_dtype := Some "float32"; wi_tied := Some ["t"] |}]; ja_post := [];
              ja_key := None; ja_override := Some 2%Z |} in
  no_empty_lists a /\
  c_layer {| md_arch := json_module a; md_prefix := Some "text." |} 1 CVNone =
  Ok [{| wi_name := "text.h.1.w"; wi_embed := true; wi_optional := true; wi_aliases := Some ["text.l.1.w"]; wi_dtype := Some "float32"; wi_tied := Some ["text.t"] |}].
Proof. cbv zeta. split; [|vm_compute; reflexivity]. intros w. cbn. intros [<-|[]]. cbn. split; discriminate. Qed.

(** Adding a module prefix never merges two different names. *)
Theorem C37_prefix_injective (p : option string) (w w' : weight_info) :
  wi_name (prefix_weight p w) = wi_name (prefix_weight p w') -> wi_name w = wi_name w'.
Proof. destruct p as [p|]; cbn; [apply app_str_inj_l|auto]. Qed.
Print Assumptions C37_prefix_injective.

(** The shipped modules that fail: their layer weights do not mention the layer index. *)
Definition projectors : list string := ["qwen2_vl/multi_modal_projector"; "qwen2_5_vl/multi_modal_projector"].

Lemma shipped_checked :
  forallb (fun x => mem (fst x) projectors || (unambiguous (snd x) && layers_apart (snd x))) shipped = true.
Proof. vm_compute. reflexivity. Qed.

Lemma shipped_ok nm a : In (nm, a) shipped -> ~ In nm projectors -> unambiguous a = true /\ layers_apart a = true.
Proof.
  intros Hin Hn. pose proof shipped_checked as H. rewrite forallb_forall in H. specialize (H _ Hin). cbn [fst snd] in H.
  apply orb_true_iff in H as [H|H]; [apply mem_In in H; contradiction|]. now apply andb_true_iff in H.
Qed.

(** For every shipped module definition except the two projectors, whatever the model configuration and however
    many layers it has, no tensor name occurs twice among all weights of the module. *)
Theorem C37_shipped_names_distinct (nm : string) (a : json_arch) (c : cfgval) (n : Z) (ws : list weight_info) (p : option string) :
  In (nm, a) shipped -> ~ In nm projectors ->
  ja_num a c = Ok n -> (0 <= n)%Z ->
  all_weights (json_module a) c = Ok ws ->
  NoDup (map wi_name (map (prefix_weight p) ws)).
Proof.
  intros Hin Hn En Hpos Hw. destruct (shipped_ok _ _ Hin Hn) as [Hu _].
  pose proof (unambiguous_sound a c n ws Hu En Hpos Hw) as Hd. destruct p as [p|].
  - rewrite map_map. cbn [prefix_weight wi_name]. rewrite <- map_map.
    apply FinFun.Injective_map_NoDup; auto. intros x y. apply app_str_inj_l.
  - rewrite map_map. exact Hd.
Qed.
Print Assumptions C37_shipped_names_distinct.

(** Nor does any name or alias under which a layer's weight is loaded belong to another layer. *)
Theorem C37_shipped_layers_disjoint (nm : string) (a : json_arch) (c : cfgval) (i j : Z) (wi wj : list weight_info)
    (x y : weight_info) (s : string) :
  In (nm, a) shipped -> ~ In nm projectors ->
  (0 <= i)%Z -> (0 <= j)%Z -> i <> j ->
  ma_layer (json_module a) i c = Ok wi -> ma_layer (json_module a) j c = Ok wj -> In x wi -> In y wj ->
  In s (wi_name x :: match wi_aliases x with Some l => l | None => [] end) ->
  ~ In s (wi_name y :: match wi_aliases y with Some l => l | None => [] end).
Proof.
  intros Hin Hn Hi Hj Hne Hwi Hwj Hx Hy. destruct (shipped_ok _ _ Hin Hn) as [_ Hu].
  exact (layers_apart_sound a c i j wi wj x y s Hu Hi Hj Hne Hwi Hwj Hx Hy).
Qed.
Print Assumptions C37_shipped_layers_disjoint.

Example C37_shipped_nonvacuous :
  let c := CVObj [("num_hidden_layers", CVInt 3)] in
  In ("llama/default", a_llama_default) shipped /\ ~ In "llama/default" projectors /\
  ja_num a_llama_default c = Ok 3%Z /\ is_ok (all_weights (json_module a_llama_default) c) = true.
Proof.
  cbn zeta. split; [|split; [|split]].
  - unfold shipped. cbn [In]. repeat ((left; reflexivity) || right).
  - cbn. intros [H|[H|[]]]; discriminate.
  - reflexivity.
  - vm_compute. reflexivity.
Qed.

(** Finding: the Qwen2-VL and Qwen2.5-VL projector modules declare two layers whose four weight names are the same
    in both, so every one of them is planned (and written) twice. *)
Theorem C37_qwen_projector_refuted :
  forall nm a, In (nm, a) shipped -> In nm projectors ->
  forall c, exists ws, all_weights (json_module a) c = Ok ws /\ ~ NoDup (map wi_name ws).
Proof.
  assert (H : Forall (fun x => In (fst x) projectors -> forall c, exists ws,
              all_weights (json_module (snd x)) c = Ok ws /\ ~ NoDup (map wi_name ws))
            [("qwen2_vl/multi_modal_projector", a_qwen2_vl_multi_modal_projector);
             ("qwen2_5_vl/multi_modal_projector", a_qwen2_5_vl_multi_modal_projector)]).
  { repeat constructor; intros _ c; eexists; (split; [reflexivity|]); cbn; intros Hd.
    all: repeat match goal with H : NoDup (_ :: _) |- _ => inversion H; clear H; subst end; cbn in *; intuition. }
  intros nm a Hin Hp. rewrite Forall_forall in H. apply (H (nm, a)); auto.
  assert (E : filter (fun x => mem (fst x) projectors) shipped =
              [("qwen2_5_vl/multi_modal_projector", a_qwen2_5_vl_multi_modal_projector);
               ("qwen2_vl/multi_modal_projector", a_qwen2_vl_multi_modal_projector)]) by (vm_compute; reflexivity).
  assert (Hf : In (nm, a) (filter (fun x => mem (fst x) projectors) shipped)).
  { apply filter_In. split; auto. now apply mem_In. }
  rewrite E in Hf. destruct Hf as [Hf|[Hf|[]]]; rewrite <- Hf; cbn; auto.
Qed.
Print Assumptions C37_qwen_projector_refuted.
