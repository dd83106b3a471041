(* TreeSpec.v -- trees whose optimised stream keeps its meaning; independent
   of the Streamer and of the optimiser. *)
From Coq Require Import ZArith List Bool.
From Verif Require Import Py Usage Item Descriptor HidSpec StreamSpec OptSpec.
Import ListNotations.
Open Scope Z_scope.

(** the last thing in the tree is a collection *)
Inductive closed_tree : tree -> Prop :=
| cl_coll k u ms : closed_tree (TColl k u ms)
| cl_top ms m : closed_tree m -> closed_tree (TTop (ms ++ [m]))
| cl_report id ms m : closed_tree m -> closed_tree (TReport id (ms ++ [m])).

(** a Value with data, as opposed to constant bits *)
Definition data_value (v : value) : bool :=
  match v_kind v with KValue => negb (is_constant (py_int (v_flags v))) | _ => false end.

Definition plain_leaf (x : leaf) : bool :=
  match x with LVal _ v => match v_kind v with KValue => false | _ => true end | _ => false end.

(** a named array with a usage gets a collection of its own *)
Definition boxed (v : value) : bool :=
  is_array v && match usage_list (v_usage v) with [] => false | _ => true end.

Definition field_usages (v : value) : list Z :=
  if is_array v then array_usages (v_named v) else usage_list (v_usage v).

(** one value, none for 0 *)
Definition one_of (z : Z) : list Z := if z =? 0 then [] else [z].

(** two values that follow each other, apart from Align and Padding, with the
    same report, flags, size, ranges and unit; the first is not repeated *)
Definition neighbours (ls : list leaf) (v1 v2 : value) : Prop :=
  exists l1 r mid l2,
    ls = l1 ++ LVal r v1 :: mid ++ LVal r v2 :: l2 /\
    forallb plain_leaf mid = true /\
    data_value v1 = true /\ data_value v2 = true /\ boxed v1 = false /\ boxed v2 = false /\
    value_attrs r v1 = value_attrs r v2 /\ v_count v1 = 1.

(** values that can share their local items: both or none have a usage, a
    string, a designator; arrays have the same *)
Definition even_values (v1 v2 : value) : Prop :=
  if is_variable (py_int (v_flags v1))
  then one_each (field_usages v1) (field_usages v2) /\
       one_each (one_of (v_desig v1)) (one_of (v_desig v2)) /\
       one_each (one_of (v_str v1)) (one_of (v_str v2))
  else same_first (Z.to_nat (or0 (v_lmax v1) - or0 (v_lmin v1) + 1)) (field_usages v1) (field_usages v2) /\
       v_desig v1 = v_desig v2 /\ v_str v1 = v_str v2.

Definition uniform_leaves (ls : list leaf) : Prop :=
  forall v1 v2, neighbours ls v1 v2 -> even_values v1 v2.

(** all usages have their page *)
Definition leaf_usages (x : leaf) : list Z :=
  match x with
  | LOpen _ (Some u) => [py_int u]
  | LVal _ v => if data_value v then usage_list (v_usage v) ++ array_usages (v_named v) else []
  | _ => []
  end.
Definition paged_leaves (ls : list leaf) : Prop :=
  Forall (fun x => Forall (fun u => 65536 <= u) (leaf_usages x)) ls.

(** no value has physical bounds of its own, or all have bounds to be
    declared together: no array has a usage, no logical bounds are both 0 *)
Definition scaling_ok (ls : list leaf) : Prop :=
  (forall v, In v (leaf_values ls) -> data_value v = true -> is_array v = true \/ (v_pmin v = v_lmin v /\ v_pmax v = v_lmax v)) \/
  (forall v, In v (leaf_values ls) -> data_value v = true -> boxed v = false /\ ~ (or0 (v_lmin v) = 0 /\ or0 (v_lmax v) = 0)).

(** the usages of an array are of one page, and those of neighbours *)
Definition of_page (p : Z) (us : list Z) : Prop := Forall (fun u => u / 65536 = p) us.
Definition same_pages (ls : list leaf) : Prop :=
  (forall v, In v (leaf_values ls) -> data_value v = true -> exists p, of_page p (array_usages (v_named v))) /\
  (forall v1 v2, neighbours ls v1 v2 ->
     (exists p, of_page p (field_usages v1 ++ field_usages v2)) /\ (field_usages v1 = [] <-> field_usages v2 = [])).

(** all usages have their page, and the page or the number fits in a byte *)
Definition compact_leaves (ls : list leaf) : Prop :=
  Forall (fun x => Forall (fun u => 65536 <= u /\ (u / 65536 < 256 \/ u mod 65536 < 256)) (leaf_usages x)) ls.
