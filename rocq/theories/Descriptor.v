(* Descriptor.v -- model of hrdc/descriptor/descriptor.py, streamer.py and
   compiler.py *)
From Verif Require Import Py Usage Item Parser Optimizer.

(** namedArray argument: a list of usages or a UsageRange *)
Inductive narr := NList (l : list pval) | NRange (r : urange).

(* len(namedArray) *)
Definition narr_len (a : narr) : result Z :=
  match a with
  | NList l => Ok (Z.of_nat (length l))
  | NRange r => range_len r
  end.

(* bool(namedArray); None is false *)
Definition narr_truthy (a : option narr) : result bool :=
  match a with
  | None => Ok false
  | Some a => let* n := narr_len a in Ok (negb (n =? 0))
  end.

(* iteration over namedArray *)
Definition narr_iter (db : udb) (a : narr) : list pval :=
  match a with NList l => l | NRange r => range_iter db r end.

(** Value, Align and Padding objects -- descriptor.py:57-135.
    Simplification: size, logical/physical bounds, unitExponent, designator,
    string, count and alignment are ints (or None where the code allows it),
    as documented in doc/descriptor.rst:75-110. *)
Inductive vkind := KValue | KAlign (boundary : Z) | KPadding.

Record value := Value {
  v_kind : vkind;
  v_way : pval;
  v_usage : option pval;
  v_size : Z;
  v_flags : pval;
  v_lmin : option Z;
  v_lmax : option Z;
  v_pmin : option Z;
  v_pmax : option Z;
  v_named : option narr;
  v_unit : pval;
  v_uexp : Z;
  v_desig : Z;
  v_str : Z;
  v_count : Z;
  v_align : Z
}.

(** Arguments of Value(...) with their defaults -- descriptor.py:81-90 *)
Record vargs := VArgs {
  a_way : pval;
  a_usage : option pval;
  a_size : Z;
  a_flags : pval;
  a_lmin : option Z;
  a_lmax : option Z;
  a_pmin : option Z;
  a_pmax : option Z;
  a_named : option narr;
  a_unit : pval;
  a_uexp : Z;
  a_desig : Z;
  a_str : Z;
  a_count : Z;
  a_align : option Z
}.

Definition default_args (way : pval) (usage : option pval) (size : Z) : vargs :=
  VArgs way usage size (VInt 2) (Some 1) None None None None (VInt 0) 0 0 0 1
        None.

Definition zero_or_none (o : option Z) : bool :=
  match o with None => true | Some z => z =? 0 end.

Definition or_zero (o : option Z) : Z :=
  match o with None => 0 | Some z => z end.

(* Value.__init__ -- descriptor.py:81-123 *)
Definition mk_value (k : vkind) (a : vargs) : result value :=
  let align := match a_align a with
               | None => Z.min 8 (a_size a)
               | Some n => n
               end in
  let* named := narr_truthy (a_named a) in
  if (match a_lmax a with None => true | Some _ => false end
      || match a_lmin a with None => true | Some _ => false end)
     && negb named
     && (Z.land (py_int (a_flags a)) fl_Constant =? 0)
  then Err ValueError
  else
    let '(pmin, pmax) :=
      if zero_or_none (a_pmin a) && zero_or_none (a_pmax a)
      then (a_lmin a, a_lmax a)
      else (Some (or_zero (a_pmin a)), Some (or_zero (a_pmax a))) in
    let mk flags lmax :=
      Value k (a_way a) (a_usage a) (a_size a) flags (a_lmin a) lmax pmin pmax
            (a_named a) (a_unit a) (a_uexp a) (a_desig a) (a_str a)
            (a_count a) align in
    match a_named a, named with
    | Some arr, true =>
        let flags := match a_usage a with
                     | Some u => if truthy u then VNamed "Variable" 2
                                 else VInt 0
                     | None => VInt 0
                     end in
        let* n := narr_len arr in
        match a_lmin a with
        | None => Err TypeError
        | Some lm => Ok (mk flags (Some (n + lm - 1)))
        end
    | _, _ => Ok (mk (a_flags a) (a_lmax a))
    end.

(* Align.__init__ -- descriptor.py:128-131 *)
Definition mk_align (way : pval) (boundary : Z) (flags : pval) : result value :=
  mk_value (KAlign boundary)
    (VArgs way (Some (VInt 0)) 0 flags (Some 1) None None None None (VInt 0) 0
           0 0 1 None).

(* Padding.__init__ -- descriptor.py:133-135 *)
Definition mk_padding (way : pval) (size : Z) : result value :=
  mk_value KPadding
    (VArgs way (Some (VInt 0)) size (VInt 3) (Some 1) None None None None
           (VInt 0) 0 0 0 1 None).

(** Descriptor trees -- descriptor.py:11-55 *)
Inductive tree :=
| TValue (v : value)
| TReport (id : Z) (ms : list tree)
| TTop (ms : list tree)
| TColl (kind : pval) (usage : option pval) (ms : list tree).

(* --- Streamer: streamer.py ------------------------------------------- *)

(** report_size (streamer.py:9-13): per way (8, 9, 0xb), 256 counters *)
Record sst := SST { s_rid : Z; s_size : Z -> Z -> Z }.

Definition sst_init : sst := SST 0 (fun _ _ => 0).

(* self.report_size[int(way)][self.report_id]: KeyError / IndexError, and
   Python's negative indices *)
Definition rs_key (way id : Z) : result Z :=
  if (way =? 8) || (way =? 9) || (way =? 11) then
    let j := if id <? 0 then id + 256 else id in
    if (j <? 0) || (256 <=? j) then Err IndexError else Ok j
  else Err KeyError.

Definition rs_add (st : sst) (way n : Z) : result sst :=
  let* j := rs_key way (s_rid st) in
  Ok (SST (s_rid st)
          (fun w k => if (w =? way) && (k =? j) then s_size st w k + n
                      else s_size st w k)).

(** A run of [a(item.X(v))] calls *)
Fixpoint mk_items (db : udb) (l : list (icls * option pval))
  : result (list item) :=
  match l with
  | [] => Ok []
  | (c, v) :: r =>
      let* i := mk_item db c v in
      let* is := mk_items db r in
      Ok (i :: is)
  end.

(* item.Item.itemclass(item.Item.Main, e.way) *)
Definition main_class (way : Z) : result icls :=
  match itemclass 0 way with Some c => Ok c | None => Err KeyError end.

Definition opt_int (o : option Z) : option pval :=
  match o with None => None | Some z => Some (VInt z) end.

Definition opt_Z_eqb (a b : option Z) : bool :=
  match a, b with
  | None, None => true
  | Some x, Some y => x =? y
  | _, _ => false
  end.

Definition usage_truthy (u : option pval) : bool := opt_truthy u.

(* the items requested for the data part of a Value that is neither Align
   nor Padding -- streamer.py:59-96; [main] is the class of e.way *)
Definition value_reqs (db : udb) (e : value) (named : bool) (main : icls)
  : list (icls * option pval) :=
  let constant := negb (Z.land (py_int (v_flags e)) fl_Constant =? 0) in
  (if constant then [] else
     (if usage_truthy (v_usage e) then [(Usage, v_usage e)] else [])
     ++
     (if named then
        [(PhysicalMinimum, Some (VInt 0)); (PhysicalMaximum, Some (VInt 0))]
        ++ (if usage_truthy (v_usage e)
            then [(Collection, Some (VNamed "Logical" 2))] else [])
        ++ map (fun u => (Usage, Some u))
               (match v_named e with
                | Some a => narr_iter db a
                | None => []
                end)
      else if opt_Z_eqb (v_pmin e) (v_lmin e)
              && opt_Z_eqb (v_pmax e) (v_lmax e)
      then [(PhysicalMinimum, Some (VInt 0)); (PhysicalMaximum, Some (VInt 0))]
      else [(PhysicalMinimum, opt_int (v_pmin e));
            (PhysicalMaximum, opt_int (v_pmax e))])
     ++ [(LogicalMinimum, opt_int (v_lmin e));
         (LogicalMaximum, opt_int (v_lmax e));
         (Unit, Some (v_unit e));
         (UnitExponent, Some (VInt (v_uexp e)))]
     ++ (if v_desig e =? 0 then []
         else [(DesignatorIndex, Some (VInt (v_desig e)))])
     ++ (if v_str e =? 0 then []
         else [(StringIndex, Some (VInt (v_str e)))]))
  ++ [(ReportCount, Some (VInt (v_count e)));
      (ReportSize, Some (VInt (v_size e)));
      (main, Some (v_flags e))]
  ++ (if named && negb constant && usage_truthy (v_usage e)
      then [(EndCollection, Some (VInt 0))] else []).

(* Streamer.element -- streamer.py:34-96.  Simplification: when an exception
   is raised, the items already appended are not recorded (Interrupt.v does); the report size is
   looked up before the items are made, so that of two exceptions the other
   one may be reported. *)
Definition element (db : udb) (st : sst) (e : value)
  : result (sst * list item) :=
  let way := py_int (v_way e) in
  let align := match v_kind e with
               | KAlign b => b
               | KPadding => 0
               | KValue => v_align e
               end in
  let pad0 := match v_kind e with KPadding => v_size e | _ => 0 end in
  let* pad :=
    (if 1 <? align then
       let* j := rs_key way (s_rid st) in
       let partial := s_size st way j mod align in
       Ok (if partial =? 0 then 0 else align - partial)
     else Ok pad0) in
  let* (st1, out1) :=
    (if pad =? 0 then Ok (st, []) else
       let* st1 := rs_add st way pad in
       let* c := main_class way in
       let* o := mk_items db [(ReportCount, Some (VInt 1));
                              (ReportSize, Some (VInt pad));
                              (c, Some (VInt 3))] in
       Ok (st1, o)) in
  match v_kind e with
  | KValue =>
      let* named := narr_truthy (v_named e) in
      let* st2 := rs_add st1 way (v_size e) in
      let* c := main_class way in
      let* o := mk_items db (value_reqs db e named c) in
      Ok (st2, out1 ++ o)
  | _ => Ok (st1, out1)
  end.

(* Hierarchical.accept with Streamer.enter / leave
   -- descriptor.py:15-19, 125-126; streamer.py:16-32 *)
Fixpoint stream_tree (db : udb) (st : sst) (t : tree) {struct t}
  : result (sst * list item) :=
  let members :=
    (fix go (st : sst) (ms : list tree) {struct ms}
       : result (sst * list item) :=
       match ms with
       | [] => Ok (st, [])
       | m :: r =>
           let* (st1, o1) := stream_tree db st m in
           let* (st2, o2) := go st1 r in
           Ok (st2, o1 ++ o2)
       end) in
  match t with
  | TValue v => element db st v
  | TReport id ms =>
      let* o := (if id =? 0 then Ok []
                 else mk_items db [(ReportID, Some (VInt id))]) in
      let* (st1, o1) := members (SST id (s_size st)) ms in
      Ok (st1, o ++ o1)
  | TTop ms => members st ms
  | TColl kind usage ms =>
      let* o := mk_items db [(Usage, usage); (Collection, Some kind)] in
      let* (st1, o1) := members st ms in
      let* o2 := mk_items db [(EndCollection, Some (VInt 0))] in
      Ok (st1, o ++ o1 ++ o2)
  end.

Fixpoint stream_members (db : udb) (st : sst) (ms : list tree)
  : result (sst * list item) :=
  match ms with
  | [] => Ok (st, [])
  | m :: r =>
      let* (st1, o1) := stream_tree db st m in
      let* (st2, o2) := stream_members db st1 r in
      Ok (st2, o1 ++ o2)
  end.

(* desc.accept(Streamer(output)) *)
Definition stream_items (db : udb) (t : tree) : result (list item) :=
  let* (_, o) := stream_tree db sst_init t in Ok o.

(* compile_main -- compiler.py:26-34 with the binary formatter;
   [opt] is [not args.no_optimize] *)
Definition compile (db : udb) (opt : bool) (t : tree) : result (list Z) :=
  let* l := stream_items db t in
  serialize (if opt then optimize db l else l).
