(** Specification vocabulary for C37: what a weight-name template is and what it stands for, without reference
    to the scanner that interprets it. *)
From Verif.Base Require Import Py PyStr.
Local Open Scope string_scope.
Local Open Scope list_scope.

(** A template is a sequence of literal texts and the six variables. *)
Inductive shift := Minus1 | Zero | Plus1.
Inductive part := Text (s : string) | LayerIndex (d : shift) | NumLayers (d : shift).

Definition plain (c : ascii) : bool := negb (Ascii.eqb c "$").
Definition part_ok (p : part) : Prop := match p with Text s => all_chars plain s = true | _ => True end.

Definition shift_syntax (d : shift) : string := match d with Minus1 => "-1" | Zero => "" | Plus1 => "+1" end.
Definition shift_by (d : shift) (z : Z) : Z := match d with Minus1 => z - 1 | Zero => z | Plus1 => z + 1 end%Z.

(** how the part is written in the JSON file *)
Definition written (p : part) : string :=
  match p with
  | Text s => s
  | LayerIndex d => ("${layer_index" ++ shift_syntax d ++ "}")%string
  | NumLayers d => ("${num_layers" ++ shift_syntax d ++ "}")%string
  end.
(** what it means for a model with [n] layers, at layer [i] *)
Definition meaning (n i : Z) (p : part) : string :=
  match p with Text s => s | LayerIndex d => str_of_Z (shift_by d i) | NumLayers d => str_of_Z (shift_by d n) end.

Definition cat (l : list string) : string := fold_right String.append "" l.
Definition template (ps : list part) : string := cat (map written ps).
Definition name_at (n i : Z) (ps : list part) : string := cat (map (meaning n i) ps).

Definition has_layer_index (ps : list part) : Prop := exists d, In (LayerIndex d) ps.

(** [r] starts with something other than a digit *)
Definition stops_number (r : string) : Prop :=
  match r with "" => True | String c _ => is_digit c = false end.
