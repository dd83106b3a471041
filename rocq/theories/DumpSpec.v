(* DumpSpec.v -- when a rebuilt tree is the same as the dumped one, and which
   decompiled trees can be dumped; independent of the Dumper. *)
From Coq Require Import ZArith List Bool.
From Verif Require Import Py Usage Item Descriptor HidSpec StreamSpec.
Import ListNotations.
Local Open Scope Z_scope.

(** the same objects up to the names of constants *)
Definition same_array (a b : option narr) : Prop :=
  match a, b with
  | None, None => True
  | Some (NList l), Some (NList m) => map py_int m = map py_int l
  | Some (NRange r), Some (NRange q) => py_int (r_min q) = py_int (r_min r) /\ py_int (r_max q) = py_int (r_max r)
  | _, _ => False
  end.

Record rebuilt (v w : value) : Prop := {
  rb_kind : v_kind w = v_kind v;
  rb_way : py_int (v_way w) = py_int (v_way v);
  rb_usage : usage_list (v_usage w) = usage_list (v_usage v);
  rb_size : v_size w = v_size v;
  rb_flags : py_int (v_flags w) = py_int (v_flags v);
  rb_lmin : v_lmin w = v_lmin v;
  rb_lmax : v_lmax w = v_lmax v;
  rb_pmin : v_pmin w = v_pmin v;
  rb_pmax : v_pmax w = v_pmax v;
  rb_named : same_array (v_named v) (v_named w);
  rb_unit : py_int (v_unit w) = py_int (v_unit v);
  rb_uexp : v_uexp w = v_uexp v;
  rb_desig : v_desig w = v_desig v;
  rb_str : v_str w = v_str v;
  rb_count : v_count w = v_count v;
  rb_align : v_align w = v_align v
}.

Inductive same_tree : tree -> tree -> Prop :=
| same_value v w : rebuilt v w -> same_tree (TValue v) (TValue w)
| same_top ms ns : same_members ms ns -> same_tree (TTop ms) (TTop ns)
| same_report id ms ns : same_members ms ns -> same_tree (TReport id ms) (TReport id ns)
| same_coll k u k' u' ms ns :
    py_int k' = py_int k -> option_map py_int u' = option_map py_int u -> same_members ms ns ->
    same_tree (TColl k u ms) (TColl k' u' ns)
with same_members : list tree -> list tree -> Prop :=
| same_none : same_members [] []
| same_more m n ms ns : same_tree m n -> same_members ms ns -> same_members (m :: ms) (n :: ns).

(** the constants whose printed name is not their name in Python (C20):
    desktop.TabletPCSystem, desktop.Start, desktop.Select,
    simulation.AntiTorqueControl *)
Definition misprinted : list Z := [0x10009; 0x1003d; 0x1003e; 0x200b2].

Definition printed_right (u : pval) : Prop := ~ In (py_int u) misprinted.

(** - the usage is neither misprinted nor 0;
    - only the nine flags defined by HID are set;
    - the unit is not 0xf011, printed as Unit.Velocity. *)
Definition dumpable_value (v : value) : Prop :=
  v_kind v = KValue ->
  match usage_list (v_usage v) with [] => True | u :: _ => u <> 0 /\ ~ In u misprinted end /\
  0 <= py_int (v_flags v) < 512 /\
  py_int (v_unit v) <> 0xf011 /\
  match v_named v with
  | None => True
  | Some (NList l) => Forall printed_right l
  | Some (NRange r) => printed_right (r_min r) /\ printed_right (r_max r)
  end.

Fixpoint dumpable (t : tree) : Prop :=
  let all := fix all ms := match ms with [] => True | m :: r => dumpable m /\ all r end in
  match t with
  | TValue v => dumpable_value v
  | TTop ms | TReport _ ms => all ms
  | TColl k u ms =>
      py_int k < 7 /\ match u with Some u => printed_right u | None => True end /\ all ms
  end.

(** collection kinds are not negative *)
Fixpoint kinds_ok (t : tree) : Prop :=
  let all := fix all ms := match ms with [] => True | m :: r => kinds_ok m /\ all r end in
  match t with
  | TValue _ => True
  | TTop ms | TReport _ ms => all ms
  | TColl k _ ms => 0 <= py_int k /\ all ms
  end.
