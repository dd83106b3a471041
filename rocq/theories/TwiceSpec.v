(* TwiceSpec.v -- which values of a decompiled tree are found again when the
   tree is compiled and decompiled once more; independent of the Streamer and of
   the Extractor. *)
From Coq Require Import ZArith List Bool.
From Verif Require Import Py Usage Item Descriptor HidSpec StreamSpec BackSpec.
Import ListNotations.
Open Scope Z_scope.

(** - a NamedArray with a usage has a NamedArray usage;
    - a NamedArray without usage is in a collection that is not taken for the
      one of a NamedArray;
    - another value of count one with as many usages as logical values is in
      such a collection, too, and not an array. *)
Definition found_again (db : udb) (x : place * Z * value) : Prop :=
  let '(open, _, v) := x in
  let flags := py_int (v_flags v) in
  real v = true ->
  if is_array v then
    match usage_list (v_usage v) with
    | [] => apart db open 0
    | _ => nary db (v_usage v)
    end
  else
    v_count v = 1 -> Z.of_nat (length (usage_list (v_usage v))) = or0 (v_lmax v) - or0 (v_lmin v) + 1 ->
    apart db open flags /\ flags <> 0.

(** the report ids of the values, in order *)
Definition ids (ls : list leaf) : list Z := map (fun x => snd (fst x)) (located [] ls).
