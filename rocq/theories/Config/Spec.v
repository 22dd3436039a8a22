(** Vocabulary for the statements about configuration values. *)
From Coq Require Import QArith.
From Verif.Base Require Import Py.
From Verif.Config Require Import Model.
Local Open Scope Q_scope.

(** Piecewise-linear interpolation of the control points [ps], the i-th at abscissa i:
    [on_segment ps x v] - the value at abscissa [x] is [v] according to some segment containing [x]. *)
Definition on_segment (ps : list Q) (x v : Q) : Prop :=
  exists (i : nat) a b, nth_error ps i = Some a /\ nth_error ps (S i) = Some b /\
    inject_Z (Z.of_nat i) <= x <= inject_Z (Z.of_nat (S i)) /\
    v == a + (x - inject_Z (Z.of_nat i)) * (b - a).

(** depth [t] in [0,1] is abscissa [t * (n-1)] *)
Definition abscissa (n : nat) (t : Q) : Q := t * inject_Z (Z.of_nat n - 1).

(** a conditional's filter applies to a tensor name *)
Definition applies (name : option string) (f : option string) : Prop :=
  f = None \/ f = Some "*"%string \/
  exists s sub a b, name = Some s /\ s <> EmptyString /\ f = Some sub /\ s = (a ++ sub ++ b)%string.

(** the settings consulted for a parameter, most specific first *)
Definition levels {M} `{Eqb M} (r : reader M) (name : string) (model : option M) : list pval :=
  let present (p : params) := match p with Some d => match dget d name with Some v => [v] | None => [] end | None => [] end in
  match r_slice r with
  | Some s =>
      (match model with
       | Some m => flat_map (fun src : input_slice M => if Py.eqb (is_model src) m then present (is_params src) else []) (os_sources s)
       | None => []
       end) ++ present (os_params s)
  | None => []
  end
  ++ match r_module r with Some m => present (om_params m) | None => [] end
  ++ present (mc_params (r_config r)).
