(* OptBackSpec.v -- the trees whose optimised descriptor decompiles;
   independent of the model. *)
From Coq Require Import ZArith List Bool.
From Verif Require Import Py Usage Item Descriptor HidSpec StreamSpec OptSpec AllSpec ExtractSpec TreeSpec BackSpec.
Import ListNotations.
Open Scope Z_scope.

(** a usage per logical value *)
Definition spanning (v : value) : Prop :=
  Z.of_nat (length (field_usages v)) = or0 (v_lmax v) - or0 (v_lmin v) + 1.

(** A Value that comes back from its items, in the collections [open],
    innermost first:
    - it is no NamedArray with a usage of its own, and it has a field;
    - when it is a single field with a usage per logical value, it is in a
      collection that is neither Logical nor a NamedArray;
    - when it has no flag and a usage per logical value, it has a usage, no
      unit and no physical range. *)
Definition comes_back (x : BackSpec.place * Z * value) : Prop :=
  let '(open, _, v) := x in
  data_value v = true ->
  boxed v = false /\ 0 < v_count v /\
  (v_count v = 1 -> spanning v -> exists k u o, open = (k, u) :: o /\ py_int k <> 2 /\ py_int k <> 4) /\
  (py_int (v_flags v) = 0 -> spanning v ->
     field_usages v <> [] /\ py_int (v_unit v) = 0 /\ v_uexp v = 0 /\
     (is_array v = false -> or0 (v_pmin v) = or0 (v_lmin v) /\ or0 (v_pmax v) = or0 (v_lmax v))).

(** neighbours, which the optimiser joins, are variables with a usage each,
    neither buffers of bytes nor with a single logical value *)
Definition joinable_leaves (ls : list leaf) : Prop :=
  forall v1 v2, neighbours ls v1 v2 ->
    is_variable (py_int (v_flags v1)) = true /\ is_buffered (py_int (v_flags v1)) = false /\ ~ spanning v1.
