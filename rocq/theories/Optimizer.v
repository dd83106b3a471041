(* Optimizer.v -- model of hrdc/stream/optimizer/*.py *)
From Verif Require Import Py Usage Item.

(** A pass is an object with a downstream stream.  [p_append s i] gives the
    new state and the items the pass appends downstream while handling
    [append(i)]; [p_close s] gives the items it appends downstream while
    handling [close()], just before it calls [self.stream.close()].  Every
    close method of the package ends with exactly one [self.stream.close()]
    (designator_uniq.py:15, global_merge.py:23, main_merge.py:90,
    physical_merge.py:53, range_merge.py:42, usage_page.py:31). *)
Record pass := Pass {
  p_state : Type;
  p_init : p_state;
  p_append : p_state -> item -> p_state * list item;
  p_close : p_state -> list item
}.

(** Calling append for each item of a list. *)
Fixpoint feed (p : pass) (s : p_state p) (l : list item)
  : p_state p * list item :=
  match l with
  | [] => (s, [])
  | i :: r =>
      let (s1, o1) := p_append p s i in
      let (s2, o2) := feed p s1 r in
      (s2, o1 ++ o2)
  end.

(** Everything the final sink receives when [l] is appended and the stream
    closed. *)
Definition run_pass (p : pass) (l : list item) : list item :=
  let (s, o) := feed p (p_init p) l in o ++ p_close p s.

(* --- DesignatorUniq: designator_uniq.py:3-35 ------------------------- *)

(* self.designatorToFilter: None, False, or the item to filter.  Items are
   compared by identity ([is not], line 31); the model records the position
   of that object in self.pending.  (If the same object is appended twice,
   line 28 has already replaced it by False.) *)
Inductive dfilter := DNone | DFalse | DAt (pos : nat).

Record du_state := DU { du_pending : list item; du_filter : dfilter }.

Fixpoint remove_nth {A} (n : nat) (l : list A) : list A :=
  match n, l with
  | _, [] => []
  | O, _ :: r => r
  | S k, x :: r => x :: remove_nth k r
  end.

(* designator_uniq.py:17-35 *)
Definition du_append (s : du_state) (i : item) : du_state * list item :=
  let pending := du_pending s ++ [i] in
  match ikd i with
  | Local =>
      match ic i with
      | DesignatorIndex =>
          let f := match du_filter s with
                   | DNone => if ival i =? 0 then DAt (length (du_pending s))
                              else DFalse
                   | _ => DFalse
                   end in
          (DU pending f, [])
      | _ => (DU pending (du_filter s), [])
      end
  | _ =>
      let out := match du_filter s with
                 | DAt n => remove_nth n pending
                 | _ => pending
                 end in
      (DU [] DNone, out)
  end.

(* close does not flush self.pending -- designator_uniq.py:14-15 *)
Definition designator_uniq : pass :=
  Pass du_state (DU [] DNone) du_append (fun _ => []).

(* --- MainMerge: main_merge.py:3-90 ----------------------------------- *)

(* main_merge.py:7-16 *)
Definition to_watch (c : icls) : bool :=
  match c with
  | LogicalMinimum | LogicalMaximum | PhysicalMinimum | PhysicalMaximum
  | Unit | UnitExponent | ReportSize | ReportID => true
  | _ => false
  end.

Definition is_data (c : icls) : bool :=
  match c with Input | Output | Feature => true | _ => false end.

Definition upd {A} (f : icls -> A) (c : icls) (v : A) : icls -> A :=
  fun c' => if icls_eqb c' c then v else f c'.

Record mm_state := MM {
  mm_before : list item;      (* beforeMain *)
  mm_mains : list item;       (* mainItems *)
  mm_after : list item;       (* afterMain *)
  mm_bcount : Z;              (* beforeCount *)
  mm_acount : Z;              (* afterCount *)
  mm_props : icls -> Z        (* props, for the watched tags *)
}.

(* main_merge.py:18-29 *)
Definition mm_init : mm_state := MM [] [] [] 0 0 (fun _ => 0).

(* ReportCount(self.beforeCount) -- main_merge.py:75: the ctor is
   Item.__init__, beforeCount is a non-negative int. *)
Definition rc_item (n : Z) : item := Item ReportCount (VInt n).

Definition not_rc (i : item) : bool := negb (icls_eqb (ic i) ReportCount).

(* flush -- main_merge.py:67-81 *)
Definition mm_flush (s : mm_state) : mm_state * list item :=
  let out :=
    filter not_rc (mm_before s) ++
    match mm_mains s with
    | [] => []
    | m :: _ => [rc_item (mm_bcount s); m]
    end in
  (MM (mm_after s) [] [] 0 (mm_acount s) (mm_props s), out).

(* append -- main_merge.py:31-65.  Simplification: self.afterCount and
   self.beforeCount hold int(value); with a NamedConstant as count (never
   produced by the parsers or by the Streamer for int counts) line 60 would
   raise TypeError. *)
Definition mm_append (s : mm_state) (i : item) : mm_state * list item :=
  match ikd i with
  | Local =>
      (MM (mm_before s) (mm_mains s) (mm_after s ++ [i]) (mm_bcount s)
          (mm_acount s) (mm_props s), [])
  | Global =>
      let s1 := MM (mm_before s) (mm_mains s) (mm_after s ++ [i])
                   (mm_bcount s) (mm_acount s) (mm_props s) in
      let (s2, out) :=
        if to_watch (ic i) && negb (mm_props s (ic i) =? ival i) then
          mm_flush (MM (mm_before s1) (mm_mains s1) (mm_after s1)
                       (mm_bcount s1) (mm_acount s1)
                       (upd (mm_props s1) (ic i) (ival i)))
        else (s1, []) in
      let s3 :=
        match ic i with
        | ReportCount =>
            MM (mm_before s2) (mm_mains s2) (mm_after s2) (mm_bcount s2)
               (ival i) (mm_props s2)
        | _ => s2
        end in
      (s3, out)
  | Main =>
      if negb (is_data (ic i)) then
        mm_flush (MM (mm_before s) (mm_mains s) (mm_after s ++ [i])
                     (mm_bcount s) (mm_acount s) (mm_props s))
      else
        let (s1, o1) :=
          match mm_mains s with
          | m :: _ => if item_eqb i m then (s, []) else mm_flush s
          | [] => (s, [])
          end in
        let flush_after := negb (mm_acount s1 =? 1) in
        let s2 := MM (mm_before s1 ++ mm_after s1) (mm_mains s1 ++ [i]) []
                     (mm_bcount s1 + mm_acount s1) (mm_acount s1)
                     (mm_props s1) in
        if flush_after then
          let (s3, o2) := mm_flush s2 in (s3, o1 ++ o2)
        else (s2, o1)
  end.

(* close -- main_merge.py:83-90 *)
Definition mm_close (s : mm_state) : list item :=
  mm_before s ++ mm_mains s ++ mm_after s.

Definition main_merge : pass := Pass mm_state mm_init mm_append mm_close.

(* --- PhysicalMerge: physical_merge.py:3-53 --------------------------- *)

Record pm_state := PM {
  pm_current : icls -> Z;     (* int values of self.current *)
  pm_changed : icls -> Z;     (* int values of self.changed *)
  pm_pending : list item
}.

(* physical_merge.py:6-19.  self.current is never assigned again. *)
Definition pm_init : pm_state := PM (fun _ => 0) (fun _ => 0) [].

Definition is_phys (c : icls) : bool :=
  match c with PhysicalMinimum | PhysicalMaximum => true | _ => false end.
Definition is_log (c : icls) : bool :=
  match c with LogicalMinimum | LogicalMaximum => true | _ => false end.

(* append -- physical_merge.py:21-48 *)
Definition pm_append (s : pm_state) (i : item) : pm_state * list item :=
  match ikd i with
  | Main =>
      let drop :=
        (pm_current s PhysicalMinimum =? 0)
        && (pm_current s PhysicalMaximum =? 0)
        && (pm_changed s PhysicalMinimum =? pm_changed s LogicalMinimum)
        && (pm_changed s PhysicalMaximum =? pm_changed s LogicalMaximum) in
      let pending :=
        if drop then filter (fun x => negb (is_phys (ic x))) (pm_pending s)
        else pm_pending s in
      (PM (pm_current s) (pm_current s) [], pending ++ [i])
  | _ =>
      let changed :=
        if is_phys (ic i) || is_log (ic i)
        then upd (pm_changed s) (ic i) (ival i) else pm_changed s in
      (PM (pm_current s) changed (pm_pending s ++ [i]), [])
  end.

(* close -- physical_merge.py:50-53 *)
Definition physical_merge : pass :=
  Pass pm_state pm_init pm_append pm_pending.

(* --- GlobalMerge: global_merge.py:3-40 ------------------------------- *)

(* self.globals; Python's None is [None].  self.locals is never read. *)
Definition gm_state := icls -> option item.

(* global_merge.py:6-20: Unit(0), UnitExponent(0), PhysicalMinimum(0),
   PhysicalMaximum(0) are preset *)
Definition gm_init : gm_state :=
  fun c => match c with
           | Unit | UnitExponent | PhysicalMinimum | PhysicalMaximum =>
               Some (Item c (VInt 0))
           | _ => None
           end.

(* append -- global_merge.py:25-40 *)
Definition gm_append (g : gm_state) (i : item) : gm_state * list item :=
  match ikd i with
  | Global =>
      let differs := match g (ic i) with
                     | None => true
                     | Some j => negb (item_eqb j i)
                     end in
      let keep := differs || icls_eqb (ic i) Push || icls_eqb (ic i) Pop in
      (upd g (ic i) (Some i), if keep then [i] else [])
  | _ => (g, [i])
  end.

Definition global_merge : pass := Pass gm_state gm_init gm_append (fun _ => []).

(* --- RangeMerge and its subclasses: range_merge.py:3-84 -------------- *)

Record rm_state := RM {
  rm_merging : bool;
  rm_min : option pval;
  rm_max : option pval;
  rm_pending : list item
}.

Definition rm_init : rm_state := RM true None None [].

(* Item.itemclass(Item.Local, tag)(value) -- range_merge.py:23-29.  The
   constructor cannot fail because the value comes from an existing item of
   an unsigned class (OptFacts.rebuild_ok). *)
Definition rebuild (db : udb) (c : icls) (v : pval) : list item :=
  match mk_item db c (Some v) with Ok i => [i] | Err _ => [] end.

Definition opt_truthy (v : option pval) : bool :=
  match v with None => false | Some x => truthy x end.

(* flush -- range_merge.py:16-38; returns the items sent downstream.
   Afterwards the state is [rm_init]. *)
Definition rm_flush (db : udb) (lk mn mx : icls) (s : rm_state) : list item :=
  match rm_min s, rm_max s with
  | Some a, Some b =>
      if truthy a && truthy b && rm_merging s then
        filter (fun x => negb (icls_eqb (ic x) lk || icls_eqb (ic x) mn
                               || icls_eqb (ic x) mx)) (rm_pending s)
        ++ (if py_int a =? py_int b then rebuild db lk a
            else if 1 <? py_int b - py_int a
                 then rebuild db mn a ++ rebuild db mx b
                 else rebuild db lk a ++ rebuild db lk b)
      else rm_pending s
  | _, _ => rm_pending s
  end.

(* the updates of merging, min and max -- range_merge.py:45-57 *)
Definition rm_note (lk mn mx : icls) (s : rm_state) (i : item) : rm_state :=
  if rm_merging s && ikind_eqb (ikd i) Local then
    if icls_eqb (ic i) mn || icls_eqb (ic i) mx then
      RM false (rm_min s) (rm_max s) (rm_pending s)
    else if icls_eqb (ic i) lk then
      match rm_max s with
      | None => RM (rm_merging s) (Some (iv i)) (Some (iv i)) (rm_pending s)
      | Some b =>
          if ival i =? py_int b + 1
          then RM (rm_merging s) (rm_min s) (Some (iv i)) (rm_pending s)
          else RM false (rm_min s) (rm_max s) (rm_pending s)
      end
    else s
  else s.

(* append -- range_merge.py:44-63 *)
Definition rm_append (db : udb) (lk mn mx : icls) (s : rm_state) (i : item)
  : rm_state * list item :=
  let s1 := rm_note lk mn mx s i in
  match ikd i with
  | Main => (RM true None None [i], rm_flush db lk mn mx s1)
  | _ => (RM (rm_merging s1) (rm_min s1) (rm_max s1) (rm_pending s1 ++ [i]), [])
  end.

(* RangeMerge(stream, lookup, min, max); close = flush -- range_merge.py:40-42 *)
Definition range_merge (db : udb) (lk mn mx : icls) : pass :=
  Pass rm_state rm_init (rm_append db lk mn mx) (rm_flush db lk mn mx).

(* range_merge.py:65-84 *)
Definition designator_merge (db : udb) : pass :=
  range_merge db DesignatorIndex DesignatorMinimum DesignatorMaximum.
Definition string_merge (db : udb) : pass :=
  range_merge db StringIndex StringMinimum StringMaximum.
Definition usage_merge (db : udb) : pass :=
  range_merge db Usage UsageMinimum UsageMaximum.

(* --- UsagePage: usage_page.py:3-31 ----------------------------------- *)

Definition is_usage (c : icls) : bool :=
  match c with Usage | UsageMinimum | UsageMaximum => true | _ => false end.

(* state: self.page; append -- usage_page.py:10-28 *)
Definition up_append (db : udb) (page : option Z) (i : item)
  : option Z * list item :=
  if is_usage (ic i) then
    let (sp, su) := split (lookup db (iv i)) in
    let change := match page with
                  | None => true
                  | Some p => negb (p =? py_int sp)
                  end in
    let page' := if change then Some (py_int sp) else page in
    (page', (if change then rebuild db UsagePage sp else [])
            ++ rebuild db (ic i) su)
  else
    (match ic i with UsagePage => Some (ival i) | _ => page end, [i]).

Definition usage_page_pass (db : udb) : pass :=
  Pass (option Z) None (up_append db) (fun _ => []).

(* --- Optimizer.new: base.py:3-19 ------------------------------------- *)

(** The final stream given to Optimizer.new: it keeps what it receives. *)
Definition sink : pass :=
  Pass unit tt (fun s i => (s, [i])) (fun _ => []).

(** [o(stream)]: the object [o] whose downstream is [s].  Each item that [o]
    appends goes through [s.append] immediately. *)
Definition compose (o s : pass) : pass :=
  Pass (p_state o * p_state s) (p_init o, p_init s)
       (fun st i =>
          let (so, out) := p_append o (fst st) i in
          let (ss, out') := feed s (snd st) out in
          ((so, ss), out'))
       (fun st =>
          let out := p_close o (fst st) in
          let (ss, out') := feed s (snd st) out in
          out' ++ p_close s ss).

(* Optimizer.registry in import order (optimizer/__init__.py:1-7), with the
   precedence attributes (designator_uniq.py:4, global_merge.py:4,
   main_merge.py:4, physical_merge.py:4, range_merge.py:66,73,80,
   usage_page.py:4). *)
Definition opt_registry (db : udb) : list (Z * pass) :=
  [(70, designator_uniq); (40, global_merge); (60, main_merge);
   (50, physical_merge); (30, designator_merge db); (35, string_merge db);
   (20, usage_merge db); (10, usage_page_pass db)].

(* sorted(registry, key = precedence): stable insertion sort *)
Fixpoint insert_prec {A} (e : Z * A) (l : list (Z * A)) : list (Z * A) :=
  match l with
  | [] => [e]
  | x :: r => if fst e <? fst x then e :: l else x :: insert_prec e r
  end.

Definition sort_prec {A} (l : list (Z * A)) : list (Z * A) :=
  fold_left (fun acc e => insert_prec e acc) l [].

(* Optimizer.new(stream, min, max) -- base.py:12-19 *)
Definition optimizer_new (db : udb) (stream : pass) (mn mx : Z) : pass :=
  fold_left (fun s e => if (mn <? fst e) && (fst e <? mx)
                        then compose (snd e) s else s)
            (sort_prec (opt_registry db)) stream.

(* default arguments min = 0, max = 100 *)
Definition optimize (db : udb) (l : list item) : list item :=
  run_pass (optimizer_new db sink 0 100) l.
