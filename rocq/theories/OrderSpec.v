(* OrderSpec.v -- streams that give global items in another order: C91. *)
From Verif Require Import Py Item HidSpec Spec RepeatSpec.
Local Open Scope list_scope.
Local Open Scope Z_scope.

(** Items are given by class and number.  Two neighbours that may change
    places: global items of different classes, neither of them Push or Pop; a
    ReportCount only inside a collection or before one, as in RepeatSpec. *)
Definition may_trade (x y : icls * Z) (rest : list (icls * Z)) : Prop :=
  kind_of (fst x) = Global /\ kind_of (fst y) = Global /\ fst x <> fst y /\
  fst x <> Push /\ fst x <> Pop /\ fst y <> Push /\ fst y <> Pop /\
  (fst x = ReportCount \/ fst y = ReportCount -> open_after rest).

(** the same items, global items in another order *)
Inductive reordered : list item -> list item -> Prop :=
| ro_same : forall l, reordered l l
| ro_trade : forall a x y b l, may_trade (what x) (what y) (map what b) ->
    reordered (a ++ y :: x :: b) l -> reordered (a ++ x :: y :: b) l.

(** the same in bytes *)
Inductive rearranged : list Z -> list Z -> Prop :=
| ra_same : forall b, rearranged b b
| ra_trade : forall ba bx by_ bb b wa wx wy wb,
    blob_means ba wa -> blob_means bx [wx] -> blob_means by_ [wy] -> blob_means bb wb ->
    Forall number_allowed (wa ++ wx :: wy :: wb) -> may_trade (w_what wx) (w_what wy) (map w_what wb) ->
    rearranged (ba ++ by_ ++ bx ++ bb) b -> rearranged (ba ++ bx ++ by_ ++ bb) b.

(** both fail, or both give as many bytes that a host reads alike *)
Definition as_good (r r' : result (list Z)) : Prop :=
  match r, r' with
  | Ok b, Ok b' => length b = length b' /\ forall m ev, host_reads m b ev <-> host_reads m b' ev
  | Err _, Err _ => True
  | _, _ => False
  end.
