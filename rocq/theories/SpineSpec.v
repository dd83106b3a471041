(* SpineSpec.v -- trees that differ in their collections only; independent of
   the Streamer. *)
From Coq Require Import ZArith List.
From Verif Require Import Py Item Descriptor HidSpec.
Import ListNotations.
Open Scope Z_scope.

Inductive entry := EReport (id : Z) | EValue (v : value).

(** the Reports and values of a tree as they are written from top to bottom *)
Fixpoint spine (t : tree) : list entry :=
  let all := fix all ms := match ms with [] => [] | m :: r => spine m ++ all r end in
  match t with
  | TValue v => [EValue v]
  | TReport id ms => EReport id :: all ms
  | TTop ms | TColl _ _ ms => all ms
  end.

(** the fields a host reads, without the collections *)
Definition fields (ev : list event) : list event :=
  filter (fun e => match e with EvColl _ _ _ _ _ | EvEnd => false | _ => true end) ev.
