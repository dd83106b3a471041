(* TitleSpec.v -- fields without their strings and designators *)
From Coq Require Import ZArith List Bool.
From Verif Require Import Py Item Descriptor HidSpec StreamSpec OptSpec TreeSpec.
Import ListNotations.
Open Scope Z_scope.

Definition title_tag (c : icls) : bool :=
  match c with
  | DesignatorIndex | DesignatorMinimum | DesignatorMaximum | StringIndex | StringMinimum | StringMaximum => true
  | _ => false
  end.

(** the items without strings and designators *)
Definition no_titles (l : list witem) : list witem := filter (fun w => negb (title_tag (w_cls w))) l.

(** a field without its strings and designators *)
Definition untitled (e : event) : event :=
  match e with
  | EvColl k us _ _ dl => EvColl k us [] [] dl
  | EvVar a u _ _ dl => EvVar a u None None dl
  | EvArr a us ds ss dl => EvArr a us (map (fun _ => None) ds) (map (fun _ => None) ss) dl
  | _ => e
  end.

(** values that can share their usages: both or none have one; arrays have
    the same *)
Definition even_usages (v1 v2 : value) : Prop :=
  if is_variable (py_int (v_flags v1))
  then one_each (field_usages v1) (field_usages v2)
  else same_first (Z.to_nat (or0 (v_lmax v1) - or0 (v_lmin v1) + 1)) (field_usages v1) (field_usages v2).

Definition uniform_usages (ls : list leaf) : Prop :=
  forall v1 v2, neighbours ls v1 v2 -> even_usages v1 v2.
