(* RepeatSpec.v -- streams that say some things more than once: C89. *)
From Verif Require Import Py Item.
Local Open Scope list_scope.
Local Open Scope Z_scope.

(** Items are given by class and number. *)

(** The items before say that c is v: the last one of that class does, or
    there is none and v is the default of the HID specification. *)
Definition said (c : icls) (v : Z) (before : list (icls * Z)) : Prop :=
  (exists a b, before = a ++ (c, v) :: b /\ Forall (fun i => fst i <> c) b) \/
  ((c = Unit \/ c = UnitExponent) /\ v = 0 /\ Forall (fun i => fst i <> c) before).

(** not among the local items of a main item *)
Definition apart (before : list (icls * Z)) : Prop :=
  before = [] \/ exists a j, before = a ++ [j] /\ kind_of (fst j) <> Local.

(** classes that may be said again anywhere *)
Definition free_class (c : icls) : Prop :=
  c = UsagePage \/ c = ReportSize \/ c = ReportID \/ c = Unit \/ c = UnitExponent.

(** two main items follow, the second of them no data item *)
Definition open_after (l : list (icls * Z)) : Prop :=
  exists p m q n r, l = p ++ m :: q ++ n :: r /\ kind_of (fst m) = Main /\
    (fst n = Collection \/ fst n = EndCollection).

(** x between a and b says again what has been said: anywhere for most
    classes, ReportCount inside a collection or before one, logical bounds
    where no physical ones are given. *)
Definition says_again (a : list (icls * Z)) (x : icls * Z) (b : list (icls * Z)) : Prop :=
  apart a /\ said (fst x) (snd x) a /\
  (free_class (fst x) \/
   (fst x = ReportCount /\ open_after b) \/
   ((fst x = LogicalMinimum \/ fst x = LogicalMaximum) /\
    Forall (fun i => fst i <> PhysicalMinimum /\ fst i <> PhysicalMaximum) (a ++ b))).

Definition what (i : item) : icls * Z := (ic i, ival i).
