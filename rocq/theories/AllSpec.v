(* AllSpec.v -- specifications for the whole optimiser, independent of it. *)
From Coq Require Import ZArith List Bool.
From Verif Require Import Item HidSpec OptSpec.
Import ListNotations.
Open Scope Z_scope.

(** no physical bounds apart from zeros *)
Definition no_physical (l : list spec_item) : Prop :=
  Forall (fun x => physical_tag (fst x) = true -> snd x = 0) l.

(** before a main item there are no bounds, or all four and the physical ones
    differ from the logical ones *)
Definition own_physical (c : list spec_item) : Prop :=
  Forall (fun x => bounds_tag (fst x) = false) c \/
  exists p q a b, all_bounds c p q a b /\ (p, q) <> (a, b).

(** a stream without what the optimiser cannot keep: usages without their
    page, delimiters, designators 0, and physical bounds in force where none
    are meant *)
Definition regular (l : list spec_item) : Prop :=
  extended l /\
  Forall (fun x => fst x <> Delimiter /\ (fst x = DesignatorIndex -> snd x <> 0)) l /\
  (no_physical l \/ Forall own_physical (chunks l)).

(** the usages of two main items are of one page; both have usages or none *)
Definition same_page (e1 e2 : mstate) : Prop :=
  let '(g1, x1, _, _) := e1 in
  let '(g2, x2, _, _) := e2 in
  let us1 := values AtDecl (g_page g1) (lo_us x1) in
  let us2 := values AtDecl (g_page g2) (lo_us x2) in
  (exists p, Forall (fun u => u / 65536 = p) (us1 ++ us2)) /\ (us1 = [] <-> us2 = []).

(** single usages, no pages *)
Definition bare_usages (l : list spec_item) : Prop :=
  Forall (fun x => fst x <> UsageMinimum /\ fst x <> UsageMaximum /\ fst x <> UsagePage) l.

(** the last item opens or closes a collection *)
Definition closed_stream (l : list spec_item) : Prop :=
  exists l' x, l = l' ++ [x] /\ main_tag (fst x) = true /\ data_tag (fst x) = false.

(** no Push or Pop *)
Definition unstacked (l : list spec_item) : Prop := Forall (fun x => fst x <> Push /\ fst x <> Pop) l.
