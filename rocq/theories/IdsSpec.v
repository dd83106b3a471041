(* IdsSpec.v -- the report ids a tree gives; independent of the Streamer. *)
From Coq Require Import ZArith List.
From Verif Require Import Py Item Descriptor HidSpec.
Import ListNotations.
Open Scope Z_scope.

(** the ids of the Reports other than Report(0), in the order in which the
    Reports begin *)
Fixpoint given_ids (t : tree) : list Z :=
  let all := fix all ms := match ms with [] => [] | m :: r => given_ids m ++ all r end in
  match t with
  | TValue _ => []
  | TReport id ms => (if id =? 0 then [] else [id]) ++ all ms
  | TTop ms | TColl _ _ ms => all ms
  end.

(** the numbers of the ReportID items of a descriptor *)
Definition declared_ids (ws : list witem) : list Z :=
  flat_map (fun w => match w_cls w with ReportID => [w_val w] | _ => [] end) ws.

(** a value proper is among the members, with only values, paddings and
    alignments before it *)
Definition holds_value (ms : list tree) : Prop := exists ws v r,
  ms = map TValue ws ++ TValue v :: r /\ v_kind v = KValue.
