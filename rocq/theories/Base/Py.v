(** Python-like base vocabulary used by every model file: exceptions as values,
    insertion-ordered dictionaries, and a boolean-equality class. No project code is
    modelled here; each definition says which Python notion it stands for. *)
From Coq Require Export String Ascii ZArith Bool Arith List Lia.
Export ListNotations.
Open Scope list_scope.

(** Exception classes (messages are not modelled). *)
Inductive exn :=
| KeyError | IndexError | TypeError | ValueError | AttributeError | RuntimeError
| NotImplementedError | AssertionError | ZeroDivisionError | UnboundLocalError
| ValidationError | UnfeasibleError | OSError_
| OutOfFuel                          (** model artefact: a loop bound was too small; proved unreachable *)
| TaskError (code : nat).            (** an exception raised by a task's own code *)

Inductive result (A : Type) :=
| Ok (a : A)
| Err (e : exn).
Arguments Ok {A} a.
Arguments Err {A} e.

Definition rbind {A B} (r : result A) (f : A -> result B) : result B :=
  match r with Ok a => f a | Err e => Err e end.
Notation "'let!' x := r 'in' k" := (rbind r (fun x => k))
  (at level 200, x pattern, r at level 100, k at level 200).

Definition rmap {A B} (f : A -> B) (r : result A) : result B :=
  match r with Ok a => Ok (f a) | Err e => Err e end.

(** A Python loop collecting results: stops at the first exception. *)
Definition rmapM {A B} (f : A -> result B) : list A -> result (list B) :=
  fix go (l : list A) : result (list B) :=
  match l with
  | [] => Ok []
  | x :: xs => let! y := f x in let! ys := go xs in Ok (y :: ys)
  end.

Definition is_ok {A} (r : result A) : bool :=
  match r with Ok _ => true | Err _ => false end.

(** Decidable equality as a class ([==] on Python values that are hashable). *)
Class Eqb (A : Type) := {
  eqb : A -> A -> bool;
  eqb_iff : forall x y, eqb x y = true <-> x = y
}.

#[export] Instance Eqb_nat : Eqb nat := {| eqb := Nat.eqb; eqb_iff := Nat.eqb_eq |}.
#[export] Instance Eqb_Z : Eqb Z := {| eqb := Z.eqb; eqb_iff := Z.eqb_eq |}.
#[export] Instance Eqb_string : Eqb string := {| eqb := String.eqb; eqb_iff := String.eqb_eq |}.

Lemma option_eqb_iff {A} `{Eqb A} (x y : option A) :
  (match x, y with Some a, Some b => eqb a b | None, None => true | _, _ => false end) = true
  <-> x = y.
Proof.
  destruct x, y; try (split; congruence).
  rewrite eqb_iff. split; congruence.
Qed.
#[export] Instance Eqb_option {A} `{Eqb A} : Eqb (option A) :=
  {| eqb := fun x y => match x, y with Some a, Some b => eqb a b | None, None => true | _, _ => false end;
     eqb_iff := option_eqb_iff |}.

Lemma pair_eqb_iff {A B} `{Eqb A} `{Eqb B} (x y : A * B) :
  (eqb (fst x) (fst y) && eqb (snd x) (snd y)) = true <-> x = y.
Proof.
  destruct x, y; cbn. rewrite andb_true_iff, !eqb_iff. split; [intros []; congruence | intros [=]; auto].
Qed.
#[export] Instance Eqb_pair {A B} `{Eqb A} `{Eqb B} : Eqb (A * B) :=
  {| eqb := fun x y => eqb (fst x) (fst y) && eqb (snd x) (snd y); eqb_iff := pair_eqb_iff |}.

(** [x in l] *)
Fixpoint mem {A} `{Eqb A} (x : A) (l : list A) : bool :=
  match l with [] => false | y :: ys => if eqb x y then true else mem x ys end.

(** [set.add] on a set kept as a duplicate-free list *)
Definition set_add {A} `{Eqb A} (x : A) (l : list A) : list A :=
  if mem x l then l else l ++ [x].

(** keep the first occurrence of each element, in order (dict/DiGraph key order) *)
Fixpoint dedup_acc {A} `{Eqb A} (acc l : list A) : list A :=
  match l with
  | [] => acc
  | x :: xs => dedup_acc (set_add x acc) xs
  end.
Definition dedup {A} `{Eqb A} (l : list A) : list A := dedup_acc [] l.

(** Python [dict]: association list in insertion order. *)
Definition dict (K V : Type) := list (K * V).

Fixpoint dget {K V} `{Eqb K} (d : dict K V) (k : K) : option V :=
  match d with
  | [] => None
  | (k', v) :: d' => if eqb k k' then Some v else dget d' k
  end.

(** [d[k] = v] : an existing key keeps its position. *)
Fixpoint dset {K V} `{Eqb K} (d : dict K V) (k : K) (v : V) : dict K V :=
  match d with
  | [] => [(k, v)]
  | (k', v') :: d' => if eqb k k' then (k', v) :: d' else (k', v') :: dset d' k v
  end.

(** [del d[k]] (no error when absent) *)
Fixpoint ddel {K V} `{Eqb K} (d : dict K V) (k : K) : dict K V :=
  match d with
  | [] => []
  | (k', v') :: d' => if eqb k k' then ddel d' k else (k', v') :: ddel d' k
  end.

Definition dmem {K V} `{Eqb K} (d : dict K V) (k : K) : bool :=
  match dget d k with Some _ => true | None => false end.

Definition dkeys {K V} (d : dict K V) : list K := map fst d.
Definition dvals {K V} (d : dict K V) : list V := map snd d.

(** [d[k]] *)
Definition dgetE {K V} `{Eqb K} (d : dict K V) (k : K) : result V :=
  match dget d k with Some v => Ok v | None => Err KeyError end.

(** [dict(items)] / [{k: v for ...}] *)
Definition dict_of {K V} `{Eqb K} (l : list (K * V)) : dict K V :=
  fold_left (fun d kv => dset d (fst kv) (snd kv)) l [].

(** [l[i]] for a non-negative index *)
Definition nthE {A} (l : list A) (i : nat) : result A :=
  match nth_error l i with Some x => Ok x | None => Err IndexError end.

(** [l[i]] for any integer index (negative indices count from the end) *)
Definition py_index {A} (l : list A) (i : Z) : result A :=
  let n := Z.of_nat (length l) in
  if (0 <=? i)%Z then nthE l (Z.to_nat i)
  else if (- n <=? i)%Z then nthE l (Z.to_nat (n + i))
  else Err IndexError.

(** [sub in s] on strings *)
Fixpoint infix (sub s : string) : bool :=
  String.prefix sub s || match s with EmptyString => false | String _ s' => infix sub s' end.

(** [s.startswith(p)] is [String.prefix p s]. *)
