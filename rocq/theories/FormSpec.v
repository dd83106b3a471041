(* FormSpec.v -- how small optimised output has to be, from
   doc/optimizations.rst; independent of the optimiser. *)
From Coq Require Import ZArith List Bool.
From Verif Require Import Item HidSpec OptSpec.
Import ListNotations.
Local Open Scope list_scope.
Local Open Scope Z_scope.

(** the main items, each with its number; data items with the ReportCount
    written last, [count] so far *)
Fixpoint counted_mains (count : Z) (l : list spec_item) : list (spec_item * Z) :=
  match l with
  | [] => []
  | (c, v) :: r =>
      if icls_eqb c ReportCount then counted_mains v r
      else if data_tag c then ((c, v), count) :: counted_mains count r
      else if main_tag c then ((c, v), 0) :: counted_mains count r
      else counted_mains count r
  end.

(** the globals that say what the fields of a data item are like *)
Definition describes (c : icls) : bool :=
  match c with
  | LogicalMinimum | LogicalMaximum | PhysicalMinimum | PhysicalMaximum | Unit | UnitExponent | ReportSize | ReportID => true
  | _ => false
  end.

Definition put (g : icls -> Z) (c : icls) (v : Z) : icls -> Z := fun c' => if icls_eqb c' c then v else g c'.

Definition is_same (x y : spec_item) : bool := icls_eqb (fst x) (fst y) && (snd x =? snd y).

Definition ended (run : option (spec_item * Z)) : list (spec_item * Z) :=
  match run with Some x => [x] | None => [] end.

(** A data item joins the run of equal ones before it when no collection
    begins or ends between them, nothing is written in between that describes
    fields otherwise, and the items of the run have one field each.  [g]: the
    globals written so far, [count]: the ReportCount, [run]: the run so far,
    with the number of its fields. *)
Fixpoint joined (g : icls -> Z) (count : Z) (run : option (spec_item * Z)) (l : list spec_item) : list (spec_item * Z) :=
  match l with
  | [] => ended run
  | (c, v) :: r =>
      if icls_eqb c ReportCount then joined g v run r
      else if describes c then
        if g c =? v then joined g count run r else ended run ++ joined (put g c v) count None r
      else if data_tag c then
        let '(before, n) := match run with
                            | Some (x, n) => if is_same (c, v) x then ([], n) else ([(x, n)], 0)
                            | None => ([], 0)
                            end in
        before ++ (if count =? 1 then joined g count (Some ((c, v), n + 1)) r
                   else ((c, v), n + count) :: joined g count None r)
      else if main_tag c then ended run ++ ((c, v), 0) :: joined g count None r
      else joined g count run r
  end.

(* ------------------------------------------------------------------ *)
(** Ranges *)

(** v, v + 1, ... *)
Fixpoint up_from (v : Z) (n : nat) : list Z :=
  match n with O => [] | S k => v :: up_from (v + 1) k end.

Definition numbers (c : icls) (l : list spec_item) : list Z := map snd (filter (fun x => icls_eqb (fst x) c) l).

(** the items before a main item: no three or more singles that count up *)
Definition ranged (lk mn mx : icls) (l : list spec_item) : Prop :=
  numbers mn l = [] -> numbers mx l = [] -> forall v n, 0 < v -> numbers lk l = up_from v n -> (n <= 2)%nat.

(** usages with the page written last *)
Fixpoint with_pages (page : Z) (l : list spec_item) : list spec_item :=
  match l with
  | [] => []
  | (c, v) :: r =>
      if icls_eqb c UsagePage then with_pages v r
      else (if usage_tag c && (v <? 65536) then (c, page * 65536 + v) else (c, v)) :: with_pages page r
  end.

(** every run of three or more usages, strings or designators of a main item
    is written as a range *)
Definition all_ranged (l : list spec_item) : Prop :=
  Forall (ranged Usage UsageMinimum UsageMaximum) (chunks (with_pages 0 l)) /\
  Forall (ranged StringIndex StringMinimum StringMaximum) (chunks l) /\
  Forall (ranged DesignatorIndex DesignatorMinimum DesignatorMaximum) (chunks l).

(* ------------------------------------------------------------------ *)
(** Defaults *)

(** the globals that are 0 before anything is written *)
Definition zero_at_first (c : icls) : bool :=
  match c with PhysicalMinimum | PhysicalMaximum | Unit | UnitExponent => true | _ => false end.

(** the items before each item at which [stop] holds, since the one before *)
Fixpoint groups (stop : icls -> bool) (acc l : list spec_item) : list (list spec_item) :=
  match l with
  | [] => []
  | x :: r => if stop (fst x) then acc :: groups stop [] r else groups stop (acc ++ [x]) r
  end.

(** no physical bounds where they would equal the logical ones, 0 unless
    written *)
Definition bounds_needed (l : list spec_item) : Prop :=
  last (numbers PhysicalMinimum l) 0 = last (numbers LogicalMinimum l) 0 ->
  last (numbers PhysicalMaximum l) 0 = last (numbers LogicalMaximum l) 0 ->
  numbers PhysicalMinimum l = [] /\ numbers PhysicalMaximum l = [].

(** not the one designator 0, which says that there is none *)
Definition designator_needed (l : list spec_item) : Prop := numbers DesignatorIndex l <> [0].

(** no more than the one designator 0 *)
Definition no_designator (l : list spec_item) : Prop := numbers DesignatorIndex l = [] \/ numbers DesignatorIndex l = [0].
