(* OptSpec.v -- specifications for the optimiser properties, independent of
   the optimiser. *)
From Coq Require Import ZArith List Bool.
From Verif Require Import Item HidSpec.
Import ListNotations.
Open Scope Z_scope.

(** an item as tag and number *)
Definition spec_item : Type := icls * Z.

Definition main_tag (c : icls) : bool :=
  match hid_kind c with KMain => true | _ => false end.
Definition data_tag (c : icls) : bool :=
  match c with Input | Output | Feature => true | _ => false end.

Definition mains (l : list spec_item) : list spec_item := filter (fun x => main_tag (fst x)) l.

(** a data item directly followed by an equal one counts once *)
Definition repeats (x y : spec_item) : bool :=
  data_tag (fst x) && icls_eqb (fst x) (fst y) && (snd x =? snd y).

Fixpoint collapse (l : list spec_item) : list spec_item :=
  match l with
  | [] => []
  | x :: r =>
      match collapse r with
      | [] => [x]
      | y :: r' => if repeats x y then y :: r' else x :: y :: r'
      end
  end.

(** what is left of a field when only its place counts *)
Inductive place :=
| POpen (kind : Z)
| PClose
| PField (way : icls) (rid size : Z).

Definition place_of (e : event) : place :=
  match e with
  | EvColl k _ _ _ _ => POpen k
  | EvEnd => PClose
  | EvPad w r _ s => PField w r s
  | EvVar a _ _ _ _ => PField (f_way a) (f_rid a) (f_size a)
  | EvArr a _ _ _ _ => PField (f_way a) (f_rid a) (f_size a)
  end.

(** the runs of global and local items between main items *)
Fixpoint chunks (l : list spec_item) : list (list spec_item) :=
  match l with
  | [] => [[]]
  | x :: r =>
      if main_tag (fst x) then [] :: chunks r
      else match chunks r with
           | [] => [[x]]
           | c :: cs => (x :: c) :: cs
           end
  end.

Definition usage_tag (c : icls) : bool :=
  match c with Usage | UsageMinimum | UsageMaximum => true | _ => false end.

(** items that may change the usage page in force *)
Definition page_tag (c : icls) : bool :=
  match c with UsagePage | Push | Pop => true | _ => false end.

(** no change of page after a usage *)
Fixpoint page_settled (l : list spec_item) : Prop :=
  match l with
  | [] => True
  | (c, _) :: r =>
      (usage_tag c = true -> Forall (fun x => page_tag (fst x) = false) r) /\ page_settled r
  end.

(** the usages before a main item: all with their page, or all without and
    declared after the last change of page; no delimiters *)
Definition plain_usages (l : list spec_item) : Prop :=
  Forall (fun x => fst x <> Delimiter) l /\
  (Forall (fun x => usage_tag (fst x) = true -> 65536 <= snd x) l \/
   (Forall (fun x => usage_tag (fst x) = true -> snd x < 65536) l /\ page_settled l)).

(** single values that are all consecutive become one range *)
Definition merged_chunk (lk mn mx : icls) (c c' : list spec_item) : Prop :=
  forall a b, 0 < a -> a + 2 <= b ->
    Forall (fun x => fst x <> mn /\ fst x <> mx) c ->
    map snd (filter (fun x => icls_eqb (fst x) lk) c) = upto a b ->
    c' = filter (fun x => negb (icls_eqb (fst x) lk)) c ++ [(mn, a); (mx, b)].

(* ------------------------------------------------------------------ *)
(** global items *)

Definition global_tag (c : icls) : bool :=
  match hid_kind c with KGlobal => true | _ => false end.

(** what was last written for each global item, Push and Pop ignored; the
    four items whose default is 0 count as written *)
Definition last_written : Type := icls -> option Z.
Definition defaults : last_written :=
  fun c => match c with
           | PhysicalMinimum | PhysicalMaximum | Unit | UnitExponent => Some 0
           | _ => None
           end.
Definition write (k : last_written) (c : icls) (v : Z) : last_written :=
  fun c' => if icls_eqb c' c then Some v else k c'.

(** no global item writes again what was written last *)
Fixpoint no_repeats (k : last_written) (l : list spec_item) : Prop :=
  match l with
  | [] => True
  | (c, v) :: r =>
      if global_tag c
      then (c = Push \/ c = Pop \/ k c <> Some v) /\ no_repeats (write k c v) r
      else no_repeats k r
  end.

(** the table in force and the saved ones after a global item *)
Definition table_step (gs : gtab * list gtab) (c : icls) (v : Z) : gtab * list gtab :=
  match c with
  | Push => (fst gs, fst gs :: snd gs)
  | Pop => match snd gs with g :: r => (g, r) | [] => gs end
  | _ => (g_set c v (fst gs), snd gs)
  end.

(** an item that writes again what was written last does not change the
    table in force either (a Pop may have changed it since) *)
Fixpoint fresh (k : last_written) (gs : gtab * list gtab) (l : list spec_item) : Prop :=
  match l with
  | [] => True
  | (c, v) :: r =>
      if global_tag c
      then (c <> Push -> c <> Pop -> k c = Some v -> g_set c v (fst gs) = fst gs) /\
           fresh (write k c v) (table_step gs c v) r
      else fresh k gs r
  end.

(* ------------------------------------------------------------------ *)
(** usage pages *)

(** all usages include their page *)
Definition extended (l : list spec_item) : Prop :=
  Forall (fun x => usage_tag (fst x) = true -> 65536 <= snd x) l.

(** the usages before a main item are of one page *)
Definition one_page (l : list spec_item) : Prop :=
  exists p, Forall (fun x => usage_tag (fst x) = true -> snd x / 65536 = p) l.

Definition pages (l : list spec_item) : list spec_item := filter (fun x => icls_eqb (fst x) UsagePage) l.
Definition no_pages (l : list spec_item) : list spec_item := filter (fun x => negb (icls_eqb (fst x) UsagePage)) l.

(** a usage without its page *)
Definition strip (x : spec_item) : spec_item := if usage_tag (fst x) then (fst x, snd x mod 65536) else x.

(* ------------------------------------------------------------------ *)
(** consecutive main items that may become one *)

(** a main item with the state a host has when it reads it *)
Definition mstate : Type := gtab * locals * icls * Z.
Definition main_states (l : list witem) : list mstate :=
  snd (h_run (fun g x c v => [(g, x, c, v)]) h_init l).

(** same kind of report, flags and attributes; the first is a single field *)
Definition may_join (e1 e2 : mstate) : Prop :=
  let '(g1, _, c1, v1) := e1 in
  let '(g2, _, c2, v2) := e2 in
  data_tag c1 = true /\ c1 = c2 /\ v1 = v2 /\
  g_set UsagePage 0 (g_set ReportCount 0 g1) = g_set UsagePage 0 (g_set ReportCount 0 g2) /\ g_count g1 = 1.

(** one value each, or none at all *)
Definition one_each (a b : list Z) : Prop := (length a = 1%nat /\ b <> []) \/ (a = [] /\ b = []).

(** the same first [n] values, or none at all *)
Definition same_first (n : nat) (a b : list Z) : Prop :=
  n = 0%nat \/ (a = [] /\ b = []) \/ ((n <= length a)%nat /\ firstn n a = firstn n b).

(** one value repeated, the same in both, or none at all *)
Definition same_one (a b : list Z) : Prop :=
  (a = [] /\ b = []) \/ (a <> [] /\ b <> [] /\ exists z, Forall (eq z) a /\ Forall (eq z) b).

(** no minimum without maximum or conversely *)
Definition paired (x : locals) : Prop :=
  Forall (fun t => l_min t = None /\ l_max t = None) [lo_us x; lo_ds x; lo_ss x].

Definition uniform (m : binding) (e1 e2 : mstate) : Prop :=
  let '(g1, x1, c, v) := e1 in
  let '(g2, x2, _, _) := e2 in
  let us g x := values m (g_page g) (lo_us x) in
  let ds g x := values m (g_page g) (lo_ds x) in
  let ss g x := values m (g_page g) (lo_ss x) in
  (m = AtMain -> g_page g1 = g_page g2) /\ paired x1 /\
  (is_constant v = false ->
     lo_dl x1 = [] /\ lo_dl x2 = [] /\
     if is_variable v
     then one_each (us g1 x1) (us g2 x2) /\ one_each (ds g1 x1) (ds g2 x2) /\ one_each (ss g1 x1) (ss g2 x2)
     else same_first (Z.to_nat (g_lmax g1 - g_lmin g1 + 1)) (us g1 x1) (us g2 x2) /\
          same_one (ds g1 x1) (ds g2 x2) /\ same_one (ss g1 x1) (ss g2 x2)).

(** every two consecutive main items that may become one are uniform *)
Definition joins (R : mstate -> mstate -> Prop) (l : list mstate) : Prop :=
  forall l1 e1 e2 l2, l = l1 ++ e1 :: e2 :: l2 -> may_join e1 e2 -> R e1 e2.

(* ------------------------------------------------------------------ *)
(** physical bounds *)

Definition physical_tag (c : icls) : bool :=
  match c with PhysicalMinimum | PhysicalMaximum => true | _ => false end.
Definition bounds_tag (c : icls) : bool :=
  match c with PhysicalMinimum | PhysicalMaximum | LogicalMinimum | LogicalMaximum => true | _ => false end.

Fixpoint last_of (c : icls) (l : list spec_item) : option Z :=
  match l with
  | [] => None
  | x :: r => match last_of c r with
              | Some v => Some v
              | None => if icls_eqb (fst x) c then Some (snd x) else None
              end
  end.

Definition all_bounds (l : list spec_item) (p q a b : Z) : Prop :=
  last_of PhysicalMinimum l = Some p /\ last_of PhysicalMaximum l = Some q /\
  last_of LogicalMinimum l = Some a /\ last_of LogicalMaximum l = Some b.

(** Between two main items there are: no bounds; or all four; or, as long as
    no physical bounds are in force, only zeros for the physical ones.
    [needed] are the last physical bounds that differ from the logical ones
    and [given] the last physical bounds.  When the physical bounds equal the
    logical ones, no others are needed at that point. *)
Fixpoint physical_ok (needed given : Z * Z) (cs : list (list spec_item)) : Prop :=
  match cs with
  | [] => True
  | l :: r =>
      (Forall (fun x => bounds_tag (fst x) = false) l /\ physical_ok needed given r) \/
      (needed = (0, 0) /\ given = (0, 0) /\ Forall (fun x => physical_tag (fst x) = true -> snd x = 0) l /\
       physical_ok needed given r) \/
      exists p q a b, all_bounds l p q a b /\
        (((p, q) = (a, b) /\ (needed = (0, 0) \/ needed = (a, b)) /\ physical_ok needed (p, q) r) \/
         ((p, q) <> (a, b) /\ physical_ok (p, q) (p, q) r))
  end.

(* ------------------------------------------------------------------ *)
(** designators: 0 means none *)

Definition some_desig (o : option Z) : option Z :=
  match o with Some d => if d =? 0 then None else Some d | None => None end.

Definition zero_desig (e : event) : event :=
  match e with
  | EvVar a u d s dl => EvVar a u (some_desig d) s dl
  | EvArr a us ds ss dl => EvArr a us (map some_desig ds) ss dl
  | EvColl k us ds ss dl => EvColl k us (filter (fun d => negb (d =? 0)) ds) ss dl
  | _ => e
  end.

Definition local_tag (c : icls) : bool :=
  match hid_kind c with KLocal => true | _ => false end.

Definition desig_tag (c : icls) : bool :=
  match c with DesignatorIndex | DesignatorMinimum | DesignatorMaximum => true | _ => false end.

(** between two DesignatorIndex items there are only local items *)
Definition one_run (l : list spec_item) : Prop :=
  forall a x b y c, l = a ++ x :: b ++ y :: c -> fst x = DesignatorIndex -> fst y = DesignatorIndex ->
    Forall (fun z => local_tag (fst z) = true) b.

(** the items before a main item: no DesignatorIndex is 0, or all of them
    are in one run of local items and there are no designator ranges *)
Definition designators_ok (l : list spec_item) : Prop :=
  Forall (fun x => fst x = DesignatorIndex -> snd x <> 0) l \/
  (Forall (fun x => fst x <> DesignatorMinimum /\ fst x <> DesignatorMaximum) l /\ one_run l).
