(** What a well-numbered vocabulary is, and which vector a row of a permuted embedding should hold. *)
From Coq Require Import Reals.
From Verif.Base Require Import Py RList.
From Verif.Tokenizer Require Import Model.
Local Open Scope R_scope.

(** distinct tokens, ids exactly 0 .. n-1 *)
Definition contiguous (v : dict string Z) : Prop :=
  NoDup (dkeys v) /\ NoDup (dvals v) /\ forall i, In i (dvals v) <-> (0 <= i < Z.of_nat (length v))%Z.
(** a tokenizer whose ids are contiguous and whose tokens beyond the model are added tokens *)
Definition well_numbered (t : tok) : Prop :=
  contiguous (t_vocab t) /\
  (0 <= t_size t <= Z.of_nat (length (t_vocab t)))%Z /\
  (forall i, (t_size t <= i < Z.of_nat (length (t_vocab t)))%Z -> In i (dkeys (t_added t))) /\
  (forall i, In i (dkeys (t_added t)) -> (0 <= i < Z.of_nat (length (t_vocab t)))%Z).
(** every added token is in the vocabulary, under its id *)
Definition coherent (t : tok) : Prop :=
  forall i a, In (i, a) (t_added t) -> dget (t_vocab t) (a_content a) = Some i.

Section Rows.
Variables (ti : tokenizer_info) (tensors : dict string emb) (models : list string)
  (base : option string) (cfgs : dict string tcfg).

(** model [m] has output token [id], as its own token [j] *)
Definition owns (m : string) (id j : Z) : Prop :=
  exists p, dget (ti_perms ti) m = Some p /\ dget p id = Some j /\ (0 <= j)%Z.
(** row [j] of the embedding of model [m] *)
Definition vector (m : string) (j : Z) (r : list R) : Prop :=
  exists e, dget tensors m = Some e /\ nth_error (e_rows e) (Z.to_nat j) = Some r.
(** [r] is the componentwise mean of [rows] *)
Definition mean_of (rows : list (list R)) (cols : nat) (r : list R) : Prop :=
  rows <> nil /\ length r = cols /\
  forall c, (c < cols)%nat -> nth c r 0 = rsum (map (fun x => nth c x 0) rows) / INR (length rows).

(** the vector for a token not taken from the model itself *)
Definition default_row (cols : nat) (t : string) (id : Z) (r : list R) : Prop :=
  match dget cfgs t with
  | Some c =>
      match tc_source c with
      | STokenId m i => (0 <= i)%Z /\ vector m i r
      | SToken m s => exists v i, dget (ti_vocabs ti) m = Some v /\ dget v s = Some i /\ (0 <= i)%Z /\ vector m i r
      | SModel m => exists j, owns m id j /\ vector m j r
      | SZero | SNone => False
      end
  | None =>
      (exists b j, base = Some b /\ owns b id j /\ vector b j r) \/
      ((forall b j, base = Some b -> ~ owns b id j) /\
       exists holders, NoDup (map fst holders) /\
         (forall m, In m (map fst holders) <-> In m models /\ exists j, owns m id j) /\
         (forall m x, In (m, x) holders -> exists j, owns m id j /\ vector m j x) /\
         mean_of (map snd holders) cols r)
  end.
Definition forced (t : string) : Prop := exists c, dget cfgs t = Some c /\ tc_force c = true.
(** the row of output token [t] with id [id] in the matrix made for model [m] *)
Definition token_row (cols : nat) (m t : string) (id : Z) (r : list R) : Prop :=
  (~ forced t /\ exists j, owns m id j /\ vector m j r) \/
  ((forced t \/ forall j, ~ owns m id j) /\ default_row cols t id r).
End Rows.

(** [v] is the least multiple of [p] that is at least [n] *)
Definition least_multiple (p n v : Z) : Prop :=
  (p | v)%Z /\ (n <= v)%Z /\ forall k, (p | k)%Z -> (n <= k)%Z -> (v <= k)%Z.
