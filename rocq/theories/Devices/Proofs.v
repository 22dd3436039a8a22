(** Runs of an executor under two semantics that agree. *)
From Verif.Base Require Import Py PyFacts.
From Verif.Graph Require Import Model Spec UniverseProofs Proofs.
From Verif.Devices Require Import Model Spec.
Local Open Scope list_scope.

Section Sim.
Context {L V W : Type}.
Variable A : attrs L.
Variable S : semantics L V.
Variable S' : semantics L W.
Variable f : V -> W.
Variable inv : V -> Prop.
Definition vmap (d : dict nat V) : dict nat W := map (fun kv => (fst kv, f (snd kv))) d.
Definition margs (args : list (string * V)) : list (string * W) := map (fun kv => (fst kv, f (snd kv))) args.

Lemma vmap_get d k : dget (vmap d) k = option_map f (dget d k).
Proof. induction d as [|[k' v] d IH]; cbn; [reflexivity|]. destruct (eqb k k'); [reflexivity|exact IH]. Qed.
Lemma vmap_set d k v : dset (vmap d) k (f v) = vmap (dset d k v).
Proof. induction d as [|[k' v'] d IH]; cbn; [reflexivity|]. destruct (eqb k k'); cbn; [reflexivity|]; fold (vmap d); now rewrite IH. Qed.
Lemma vmap_del d k : ddel (vmap d) k = vmap (ddel d k).
Proof. induction d as [|[k' v'] d IH]; cbn; [reflexivity|]. destruct (eqb k k'); cbn; [exact IH|]; fold (vmap d); now rewrite IH. Qed.
Lemma vmap_keys d : dkeys (vmap d) = dkeys d.
Proof. unfold dkeys, vmap. rewrite map_map. reflexivity. Qed.
Lemma vmap_evict last idx d : evict last idx (vmap d) = rmap vmap (evict last idx d).
Proof.
  unfold evict.
  assert (E : rmapM (fun kv : nat * W => let! i := dgetE last (fst kv) in Ok (fst kv, i <=? idx)) (vmap d) =
              rmapM (fun kv : nat * V => let! i := dgetE last (fst kv) in Ok (fst kv, i <=? idx)) d).
  { induction d as [|[k v] d IH]; cbn; [reflexivity|]. fold (vmap d). destruct (dgetE last k); cbn; [|reflexivity]. now rewrite IH. }
  rewrite E. destruct (rmapM _ d) as [fl|e]; cbn; [|reflexivity]. f_equal. generalize (map fst (filter snd fl)). intros ks. clear. revert d.
  induction ks as [|k ks IH]; intros d; cbn; [reflexivity|]. rewrite vmap_del. apply IH.
Qed.
Lemma evict_inv last idx (d d' : dict nat V) : evict last idx d = Ok d' -> (forall k v, In (k, v) d -> inv v) -> forall k v, In (k, v) d' -> inv v.
Proof.
  unfold evict. destruct (rmapM _ d) as [fl|]; cbn; [|discriminate]. intros [= <-]. generalize (map fst (filter snd fl)). intros ks. revert d.
  induction ks as [|k ks IH]; intros d Hd; cbn; [exact Hd|]. apply IH. intros k0 v0 Hi. revert Hi Hd. clear. induction d as [|[k' v'] d IH]; cbn; [tauto|].
  destruct (eqb k k'); cbn; intros Hi Hd; [apply IH; auto; intros; eapply Hd; eauto|]. destruct Hi as [[= -> ->]|Hi]; [eapply Hd; now left|apply IH; auto; intros; eapply Hd; eauto].
Qed.
Lemma dset_inv (d : dict nat V) h v : inv v -> (forall k x, In (k, x) d -> inv x) -> forall k x, In (k, x) (dset d h v) -> inv x.
Proof.
  intros Hv. induction d as [|[k' v'] d IH]; cbn; intros Hd k x.
  - intros [[= <- <-]|[]]. exact Hv.
  - destruct (eqb h k'); cbn; intros [[= <- <-]|Hi]; auto; [eapply Hd; right; eauto|eapply Hd; now left|eapply IH; eauto].
Qed.

Variable u : universe L.
Variable P : L -> Prop.
Hypothesis Hstore : forall l args v, P l -> (forall k x, In (k, x) args -> inv x) ->
  execute S l (map (fun kv => (fst kv, move_arg A S l (snd kv))) args) = Ok v -> inv (to_store S v) /\ f (to_store S v) = to_store S' (f v).
Hypothesis Hexec : forall l args, P l -> (forall k v, In (k, v) args -> inv v) ->
  rmap f (execute S l (map (fun kv => (fst kv, move_arg A S l (snd kv))) args)) =
  execute S' l (map (fun kv => (fst kv, move_arg A S' l (f (snd kv)))) args).

Lemma run_sim targets last : forall sched idx values,
  (forall h t, In h (executed (fst (run_from A S u targets last idx sched values))) -> names u h t -> P (label t)) ->
  (forall k v, In (k, v) values -> inv v) ->
  run_from A S' u targets last idx sched (vmap values) =
    (map (event_map f) (fst (run_from A S u targets last idx sched values)), snd (run_from A S u targets last idx sched values)) /\
  (forall h v, In (h, v) (yields (fst (run_from A S u targets last idx sched values))) -> inv v).
Proof.
  induction sched as [|h rest IH]; intros idx values HP Hv; [cbn; split; [reflexivity|tauto]|]. cbn [run_from] in *.
  destruct (nth_error (u_tasks u) h) as [t|] eqn:Et; [|cbn; split; [reflexivity|tauto]].
  assert (Ea : forall g : dict string nat,
    match rmapM (fun nd => let! v := dgetE values (snd nd) in Ok (fst nd, v)) g with
    | Ok raw => rmapM (fun nd => let! v := dgetE values (snd nd) in Ok (fst nd, move_arg A S (label t) v)) g = Ok (map (fun kv => (fst kv, move_arg A S (label t) (snd kv))) raw) /\
        rmapM (fun nd => let! v := dgetE (vmap values) (snd nd) in Ok (fst nd, move_arg A S' (label t) v)) g = Ok (map (fun kv => (fst kv, move_arg A S' (label t) (f (snd kv)))) raw) /\
        forall k v, In (k, v) raw -> inv v
    | Err e => rmapM (fun nd => let! v := dgetE values (snd nd) in Ok (fst nd, move_arg A S (label t) v)) g = Err e /\
        rmapM (fun nd => let! v := dgetE (vmap values) (snd nd) in Ok (fst nd, move_arg A S' (label t) v)) g = Err e
    end).
  { induction g as [|[k j] g IHg]; cbn; [repeat split; auto; tauto|]. unfold dgetE. rewrite vmap_get. destruct (dget values j) as [v|] eqn:Ev; cbn; [|auto].
    unfold dgetE in IHg. destruct (rmapM _ g) as [raw|e]; cbn.
    - destruct IHg as (-> & -> & Hi). repeat split; auto. intros k0 v0 [[= <- <-]|Hi0]; [eapply Hv, dget_In; eauto|eapply Hi; eauto].
    - destruct IHg as (-> & ->). auto. }
  specialize (Ea (args_of u h)). destruct (rmapM (fun nd => let! v := dgetE values (snd nd) in Ok (fst nd, v)) (args_of u h)) as [raw|e]; [|destruct Ea as (E1 & E2)]; cycle 1.
  { rewrite E1, E2. cbn. split; [reflexivity|tauto]. }
  destruct Ea as (E1 & E2 & Hraw). rewrite E1, E2. rewrite E1 in HP.
  assert (Hp : P (label t)).
  { apply (HP h t); [|exact Et]. destruct (execute S (label t) _); [|now left]. destruct (evict _ _ _); [destruct (run_from _ _ _ _ _ _ _ _)|]; now left. }
  pose proof (Hexec (label t) raw Hp Hraw) as He. rewrite <- He. pose proof (fun v => Hstore (label t) raw v Hp Hraw) as Hs.
  destruct (execute S (label t) _) as [res|e] eqn:Ex; cbn [rmap]; [|cbn; split; [reflexivity|tauto]].
  destruct (Hs res eq_refl) as (Hi & Hf). rewrite <- Hf, vmap_set, vmap_evict. destruct (evict last idx _) as [v2|e] eqn:Ev; cbn [rmap].
  - assert (Hv2 : forall k v, In (k, v) v2 -> inv v) by (eapply evict_inv; [exact Ev|]; apply dset_inv; auto).
    assert (HP2 : forall h t, In h (executed (fst (run_from A S u targets last (Datatypes.S idx) rest v2))) -> names u h t -> P (label t)).
    { intros h0 t0 Hh0. apply HP. revert Hh0. destruct (run_from A S u targets last (Datatypes.S idx) rest v2) as [evs st]. cbn [fst]. intros Hh0. right. fold (executed (V:=V)). change (In h0 (executed ((if mem h targets then [EYield h (to_store S res)] else []) ++ EKeep (dkeys v2) :: evs))).
      unfold executed. rewrite flat_map_app. apply in_or_app. right. exact Hh0. }
    destruct (IH (Datatypes.S idx) v2 HP2 Hv2) as (-> & Hy). destruct (run_from A S u targets last (Datatypes.S idx) rest v2) as [evs st]. cbn [fst snd] in *. split.
    + rewrite vmap_keys. destruct (mem h targets); reflexivity.
    + intros k v. unfold yields. cbn [flat_map]. cbn [app]. rewrite flat_map_app. intros Hk. apply in_app_or in Hk as [Hk|Hk]; [|exact (Hy k v Hk)].
      destruct (mem h targets); cbn in Hk; [|tauto]. destruct Hk as [[= <- <-]|[]]. exact Hi.
  - cbn. split; [destruct (mem h targets); reflexivity|]. intros k v. destruct (mem h targets); cbn; [intros [[= <- <-]|[]]; exact Hi|tauto].
Qed.

Theorem executor_sim choose targets cached :
  (forall h t, In h (executed (fst (executor_run A S choose u targets cached))) -> names u h t -> P (label t)) ->
  (forall k v, In (k, v) cached -> inv v) ->
  executor_run A S' choose u targets (vmap cached) =
    (map (event_map f) (fst (executor_run A S choose u targets cached)), snd (executor_run A S choose u targets cached)) /\
  (forall h v, In (h, v) (yields (fst (executor_run A S choose u targets cached))) -> inv v).
Proof.
  unfold executor_run. rewrite vmap_keys. destruct (build_schedule A choose u targets (dkeys cached)) as [s|e]; [|cbn; split; [reflexivity|tauto]]. apply run_sim.
Qed.
End Sim.

Lemma vmap_id {V} (d : dict nat V) : vmap (fun v => v) d = d.
Proof. unfold vmap. rewrite (map_ext _ (fun x => x)) by (now intros [? ?]). apply map_id. Qed.
Lemma events_id {V} (r : list (event V) * option exn) : (map (event_map (fun v => v)) (fst r), snd r) = r.
Proof. destruct r as [evs st]. cbn. f_equal. rewrite <- (map_id evs) at 2. apply map_ext. now intros [| |]. Qed.
Lemma yields_map {V W} (f : V -> W) evs : yields (map (event_map f) evs) = map (fun hv => (fst hv, f (snd hv))) (yields evs).
Proof. induction evs as [|[h|h v|ks] evs IH]; cbn; [reflexivity|exact IH|f_equal; exact IH|exact IH]. Qed.
Lemma executed_map {V W} (f : V -> W) evs : executed (map (event_map f) evs) = executed evs.
Proof. induction evs as [|[h|h v|ks] evs IH]; cbn; [reflexivity|f_equal; exact IH|exact IH|exact IH]. Qed.
Lemma map_vmap {V W} (f : V -> W) (l : list (nat * V)) : map (fun hv => (fst hv, f (snd hv))) l = vmap f l.
Proof. reflexivity. Qed.

Section Move.
Context {K T O : Type}.
Notation pval := (pval K T O).
Fixpoint pval_ind' (P : pval -> Prop) (Ht : forall d x, P (PTensor d x)) (Hd : forall l, (forall k v, In (k, v) l -> P v) -> P (PDict l))
  (Hl : forall l, (forall v, In v l -> P v) -> P (PList l)) (Hp : forall l, (forall v, In v l -> P v) -> P (PTuple l)) (Ho : forall o, P (POther o)) (v : pval) {struct v} : P v.
Proof.
  destruct v as [d x|l|l|l|o]; [apply Ht|apply Hd|apply Hl|apply Hp|apply Ho].
  - induction l as [|[k0 v0] l IH]; intros k v; [intros []|]. intros [E|Hi]; [|exact (IH k v Hi)]. injection E as _ <-. apply pval_ind'; assumption.
  - induction l as [|v0 l IH]; intros v; [intros []|]. intros [<-|Hi]; [apply pval_ind'; assumption|exact (IH v Hi)].
  - induction l as [|v0 l IH]; intros v; [intros []|]. intros [<-|Hi]; [apply pval_ind'; assumption|exact (IH v Hi)].
Defined.
Lemma resolve_of cur d : resolve cur (device_of d) = d.
Proof. destruct d; reflexivity. Qed.
Lemma move_tensor cur n d (x : T) : move (K:=K) (O:=O) cur n (PTensor d x) = PTensor (resolve cur n) x.
Proof. cbn [move]. destruct (eqb_spec (device_of d) n) as [<-|_]; [now rewrite resolve_of|reflexivity]. Qed.
Lemma move_on cur n (v : pval) : on (resolve cur n) (move cur n v).
Proof.
  induction v as [d x|l IH|l IH|l IH|o] using pval_ind'; [rewrite move_tensor; constructor|..|constructor]; cbn; constructor.
  - intros k v Hi. apply in_map_iff in Hi as ([k0 v0] & [= <- <-] & Hi). eapply IH; eauto.
  - intros v Hi. apply in_map_iff in Hi as (v0 & <- & Hi). eapply IH; eauto.
  - intros v Hi. apply in_map_iff in Hi as (v0 & <- & Hi). eapply IH; eauto.
Qed.
Lemma content_move cur n (v : pval) : content (move cur n v) = content v.
Proof.
  induction v as [d x|l IH|l IH|l IH|o] using pval_ind'; [rewrite move_tensor; reflexivity|..|reflexivity]; cbn; f_equal; rewrite map_map; apply map_ext_in; cbn.
  - intros [k v] Hi. cbn. f_equal. eapply IH; eauto.
  - intros v Hi. eapply IH; eauto.
  - intros v Hi. eapply IH; eauto.
Qed.
End Move.
