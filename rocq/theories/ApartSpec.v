(* ApartSpec.v -- one report of a tree and of a descriptor; independent of the
   Streamer. *)
From Coq Require Import ZArith List.
From Verif Require Import Py Item Descriptor HidSpec StreamSpec.
Import ListNotations.
Open Scope Z_scope.

(** the fields of the reports with id [r] that a host reads, in order *)
Definition fields_of (r : Z) (ev : list event) : list event :=
  filter (fun e => match e with
    | EvColl _ _ _ _ _ | EvEnd => false
    | EvPad _ q _ _ => q =? r
    | EvVar a _ _ _ _ => f_rid a =? r
    | EvArr a _ _ _ _ => f_rid a =? r
    end) ev.

(** the values of a tree after a Report of id [r] and before the next Report *)
Definition values_of (r : Z) (ls : list leaf) : list value :=
  flat_map (fun x => match x with LVal q v => if q =? r then [v] else [] | _ => [] end) ls.

(** the Input, Output or Feature fields among them *)
Definition kind_of (c : icls) (ev : list event) : list event :=
  filter (fun e => match e with
    | EvColl _ _ _ _ _ | EvEnd => false
    | EvPad w _ _ _ => icls_eqb w c
    | EvVar a _ _ _ _ => icls_eqb (f_way a) c
    | EvArr a _ _ _ _ => icls_eqb (f_way a) c
    end) ev.

Definition kind_values (c : icls) (vs : list value) : list value :=
  filter (fun v => icls_eqb (way_class (py_int (v_way v))) c) vs.
