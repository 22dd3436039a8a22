(** Vocabulary for C38-C40. *)
From Coq Require Import Relations.
From Verif.Base Require Import Py PyStr.
From Verif.Common Require Import Model Spec.
From Verif.Graph Require Import Model.
From Verif.IO Require Model.
From Verif.Multimerge Require Import Model.

(** ** dependencies *)
Definition edge (deps : dict mname (list string)) (n m : mname) : Prop :=
  exists ds d, dget deps n = Some ds /\ In d ds /\ m = Some d.
Definition reaches deps := clos_refl_trans mname (edge deps).
(** one of the requested merges depends on a merge that depends on itself *)
Definition circular deps (requested : list mname) : Prop :=
  exists r x, In r requested /\ reaches deps r x /\ clos_trans mname (edge deps) x x.
(** the task of merge [n]: its arguments are the tasks of the merges it uses *)
Inductive tree_of (deps : dict mname (list string)) : mname -> mtask -> Prop :=
| tree_node n ds args : dget deps n = Some ds -> map fst args = ds ->
    (forall d t, In (d, t) args -> tree_of deps (Some d) t) -> tree_of deps n (Node n args).

(** ** configurations: references, other strings, numbers, lists and dictionaries *)
Inductive cfg := CRef (r : model_ref) | CStr (s : string) | CAtom (n : Z) | CList (l : list cfg) | CDict (d : list (string * cfg)).
Fixpoint dump (c : cfg) : val :=
  match c with
  | CRef r => dump_ref r
  | CStr s => VStr s
  | CAtom n => VAtom n
  | CList l => VList (map dump l)
  | CDict d => VDict (map (fun kv => (fst kv, dump (snd kv))) d)
  end.
(** replace the path of every reference that names a merge *)
Fixpoint subst (names : list string) (wd : string) (c : cfg) : cfg :=
  match c with
  | CRef r => CRef (if mem (mp_path (mr_model r)) names then with_path wd r else r)
  | CStr s => CStr s
  | CAtom n => CAtom n
  | CList l => CList (map (subst names wd) l)
  | CDict d => CDict (map (fun kv => (fst kv, subst names wd (snd kv))) d)
  end.
(** a reference occurs in a configuration *)
Inductive occurs (r : model_ref) : cfg -> Prop :=
| oc_ref : occurs r (CRef r)
| oc_list c l : In c l -> occurs r c -> occurs r (CList l)
| oc_dict k c d : In (k, c) d -> occurs r c -> occurs r (CDict d).
(** no other string can be mistaken for a reference to a merge, and no dictionary for a reference;
    references print unambiguously *)
Inductive distinct_from (names : list string) : cfg -> Prop :=
| df_ref r : plain_ref r \/ (exists r', serialize r = DFields r') -> distinct_from names (CRef r)
| df_str s r : parse_ref s = Ok r -> ~ In (mp_path (mr_model r)) names -> distinct_from names (CStr s)
| df_atom n : distinct_from names (CAtom n)
| df_list l : (forall c, In c l -> distinct_from names c) -> distinct_from names (CList l)
| df_dict d : ~ (forall k, In k (map fst d) <-> In k ["model"; "lora"; "override_architecture"]%string) -> (forall k c, In (k, c) d -> distinct_from names c) -> distinct_from names (CDict d).

(** validation at the positions of [c] reads [v] as [c] *)
Inductive reads : val -> cfg -> Prop :=
| rd_str s r : parse_ref s = Ok r -> reads (VStr s) (CRef r)
| rd_fields r : reads (fields_val r) (CRef r)
| rd_string s : reads (VStr s) (CStr s)
| rd_atom n : reads (VAtom n) (CAtom n)
| rd_list l cs : length l = length cs -> (forall v c, In (v, c) (combine l cs) -> reads v c) -> reads (VList l) (CList cs)
| rd_dict d cs : map fst d = map fst cs -> (forall v c, In (v, c) (combine (map snd d) (map snd cs)) -> reads v c) -> reads (VDict d) (CDict cs).

(** ** C40: directories left behind by attempts that died *)
Section LeftBehind.
Context {T : Type} (w : IO.Model.writer T) (jobs : list (string * IO.Model.content T)) (card : bool) (extra : list string).
(** every attempt but the last found no finished model, ran with some interleaving [q] of its shard writers, and died
    after the operations [p] *)
Inductive left_behind : IO.Model.fs T -> Prop :=
| lb_empty : left_behind []
| lb_run f q p r f' : left_behind f -> already_there f = false ->
    IO.Model.merged (map (fun j => IO.Model.write_file (fst j) (snd j)) jobs) q ->
    (q ++ IO.Model.finalize_ops w) ++ after_ops card extra = p ++ r ->
    IO.Model.apply_all p f = Ok f' -> left_behind f'.
End LeftBehind.
(** file names the tensor writer may use *)
Definition model_like (n : string) : bool := String.prefix "model" n || String.prefix "pytorch_model" n.
