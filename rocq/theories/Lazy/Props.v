(** C21, C22: lazy reads from torch archives. *)
From Verif.Base Require Import Py PyFacts.
From Verif.Lazy Require Import Model Spec Proofs.
Local Open Scope string_scope.
Local Open Scope list_scope.

Section P.
Context {B : Type}.
Implicit Types a : archive B.

(** ** C21 *)
(** After any history of reads of existing storages, a read returns exactly the bytes asked for. *)
Theorem C21_exact_bytes_partial a history n off len d : valid a history -> holds a n d ->
  snd (read_at a (after a new_reader history) n off len) = Ok (slice off len d).
Proof.
  intros Hv Hd. apply (read_at_good a _ n off len d); auto. apply after_good; auto. apply new_good.
Qed.

(** The member is reopened exactly when the previous read was from another member or ended past the new offset. *)
Theorem C21_reopen a history m off0 len0 n off len d e :
  valid a history -> holds a m d -> holds a n e ->
  let r := after a new_reader (history ++ [(m, off0, len0)]) in
  r_opens (fst (read_at a r n off len)) = r_opens r <-> (m = n /\ Nat.min (off0 + len0) (length d) <= off).
Proof.
  intros Hv Hd He r.
  assert (Er : r = fst (read_at a (after a new_reader history) m off0 len0)) by (unfold r, after; now rewrite fold_left_app).
  assert (Hg : good a (after a new_reader history)) by (apply after_good; auto; apply new_good).
  destruct (read_at_good a _ m off0 len0 d Hg Hd) as (G & _ & N & (h & Eh & Dh & Ph) & _). rewrite <- Er in *.
  destruct (read_at_good a r n off len e G He) as (_ & _ & _ & _ & O). rewrite O, N, Eh.
  destruct (eqb_spec m n) as [-> | Hne]; cbn [andb].
  - rewrite Ph. destruct (Nat.leb_spec (Nat.min (off0 + len0) (length d)) off); split; intros; auto; [lia|lia].
  - split; [lia|intros [? _]; contradiction].
Qed.

(** ** C22 *)
(** Unpickling a (non-boolean, as [dtype_bytes dt = Ok b] says, at least one-dimensional) tensor and resolving it later, after any reads, gives at every
    index the bytes that the stream describes: [itemsize] bytes of the storage at (offset + index . stride). *)
Theorem C22_elements_partial a history key dt offset shape stride idx d b :
  shape <> [] -> dense shape stride -> in_range idx shape ->
  valid a history -> holds a key d -> dtype_bytes dt = Ok b ->
  (offset + dot idx stride + 1) * b <= length d ->
  exists df t, rebuild key dt offset shape stride = Ok df /\
    snd (execute a (after a new_reader history) df) = Ok t /\
    t_shape t = shape /\ t_stride t = stride /\ t_itemsize t = b /\
    element t idx = map Some (slice ((offset + dot idx stride) * b) b d).
Proof.
  intros Hs Hde Hi Hv Hd Hb Hlen. unfold rebuild. rewrite Hb. cbn [rbind].
  eexists. eexists. split; [reflexivity|]. unfold execute. cbn [d_shape d_dtype d_name d_file_offset d_stride].
  rewrite (reduce_prod shape Hs), Hb.
  pose proof (C21_exact_bytes_partial a history key (offset * b) (prod shape * b) d Hv Hd) as Hr.
  destruct (read_at a (after a new_reader history) key (offset * b) (prod shape * b)) as [r' res]. cbn [snd] in *. rewrite Hr. cbn [rbind].
  split; [reflexivity|]. cbn. split; [reflexivity|]. split; [reflexivity|]. split; [reflexivity|].
  apply (element_read d offset (prod shape) b shape stride idx); auto. now apply dense_bound.
Qed.

(** zero-dimensional tensors cannot be resolved *)
Theorem C22_scalar_refuted a r key dt offset stride df :
  rebuild key dt offset [] stride = Ok df -> snd (execute a r df) = Err TypeError.
Proof. unfold rebuild. destruct (dtype_bytes dt); cbn; [|discriminate]. intros [= <-]. reflexivity. Qed.
(** boolean tensors cannot be unpickled, although their storage type is on the allowed list *)
Theorem C22_bool_refuted key offset shape stride : rebuild key Bool_ offset shape stride = Err TypeError.
Proof. reflexivity. Qed.
End P.

(** ** Concrete cases *)
Definition arch : archive nat := {| a_name := "pytorch_model"; a_members :=
  [("pytorch_model/data/0", [10; 11; 12; 13; 14; 15; 16; 17; 18; 19; 20; 21]); ("archive/data/1", [7; 8])] |}.
Example C21_nonvacuous :
  valid arch [("0", 8, 4); ("1", 0, 1); ("0", 2, 3)] /\
  snd (read_at arch (after arch new_reader [("0", 8, 4); ("1", 0, 1); ("0", 2, 3)]) "0" 4 2) = Ok [14; 15].
Proof.
  split; [|reflexivity]. intros n off len [E|[E|[E|[]]]]; injection E as <- _ _; eexists; [right|left|right]; try split; reflexivity.
Qed.
(** a read of a missing member spoils the next read of the member that was open before *)
Theorem C21_after_failed_open_refuted :
  let r := after arch new_reader [("0", 0, 4); ("2", 0, 1)] in
  holds arch "0" [10; 11; 12; 13; 14; 15; 16; 17; 18; 19; 20; 21] /\ snd (read_at arch r "0" 4 4) = Err ValueError.
Proof. split; [right; split; reflexivity|reflexivity]. Qed.

(** a transposed 2 x 3 matrix of 16-bit elements *)
Example C22_nonvacuous : dense [2; 3] [1; 2] /\ exists df t, rebuild "0" F16 0 [2; 3] [1; 2] = Ok df /\
  snd (execute arch new_reader df) = Ok t /\ element t [1; 2] = [Some 20; Some 21].
Proof.
  split.
  - split; [reflexivity|]. exists [(3, 2); (2, 1)]. split; [apply Permutation.perm_swap|reflexivity].
  - eexists. eexists. split; [reflexivity|]. split; reflexivity.
Qed.
(** every second element of a vector: what [execute] reads is too short *)
Theorem C22_gaps_refuted : exists df t, rebuild "0" F16 0 [3] [2] = Ok df /\ snd (execute arch new_reader df) = Ok t /\
  element t [2] = [None; None].
Proof. eexists. eexists. split; [reflexivity|]. split; reflexivity. Qed.

Print Assumptions C21_exact_bytes_partial.
Print Assumptions C21_reopen.
Print Assumptions C22_elements_partial.
Print Assumptions C22_scalar_refuted.
