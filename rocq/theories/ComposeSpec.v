(* ComposeSpec.v -- trees that do not meddle with each other's reports *)
From Coq Require Import ZArith List.
From Verif Require Import Py Descriptor StreamSpec.
Import ListNotations.
Local Open Scope list_scope.
Local Open Scope Z_scope.

(** the reports the values of a tree are in: Input, Output or Feature and id *)
Definition reports_of (t : tree) : list (Z * Z) :=
  flat_map (fun x => match x with LVal r v => [(py_int (v_way v), r)] | _ => [] end) (fst (entered 0 t)).

(** no value comes before the first Report *)
Definition starts_reports (t : tree) : Prop := forall r, fst (entered r t) = fst (entered 0 t).

Definition apart (t1 t2 : tree) : Prop := forall x, In x (reports_of t1) -> In x (reports_of t2) -> False.
