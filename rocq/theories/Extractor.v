(* Extractor.v -- model of hrdc/descriptor/extractor.py *)
From Verif Require Import Py Usage Item Parser Optimizer Descriptor.

(** Objects built while extracting.  A Value carries the single report id set
    by addValue (extractor.py:130-132); for a Collection the attribute
    __report_ids is the union over its members (reportIdMerge,
    extractor.py:125-128), computed here by [e_ids]; members are never
    modified after it has been computed. *)
Inductive etree :=
| EVal (v : value) (rid : Z)
| EColl (kind : pval) (usage : option pval) (ms : list etree).

(* set([..]) as a duplicate-free list *)
Definition zadd (z : Z) (l : list Z) : list Z :=
  if existsb (Z.eqb z) l then l else l ++ [z].
Definition zunion (a b : list Z) : list Z := fold_left (fun s z => zadd z s) b a.

Fixpoint e_ids (t : etree) : list Z :=
  match t with
  | EVal _ r => [r]
  | EColl _ _ ms =>
      (fix go (ms : list etree) : list Z :=
         match ms with [] => [] | m :: r => zunion (e_ids m) (go r) end) ms
  end.

(* the object as a descriptor tree *)
Fixpoint raw (t : etree) : tree :=
  match t with
  | EVal v _ => TValue v
  | EColl k u ms =>
      TColl k u ((fix go (ms : list etree) : list tree :=
                    match ms with [] => [] | m :: r => raw m :: go r end) ms)
  end.

(** An open level: TopLevel (no kind) or Collection(kind, usage), with the
    members appended so far *)
Record level := Level {
  lv_head : option (pval * option pval);
  lv_members : list etree
}.

Record xst := XST {
  x_globals : icls -> pval;             (* self.globals, all 0 initially *)
  x_usages : list pval;
  x_strings : list pval;
  x_designators : list pval;
  x_locals : icls -> option pval;       (* self.locals *)
  x_stack : list level;                 (* self.stack, top first *)
  x_current : level;                    (* self.currentLevel *)
  x_innamed : bool;                     (* self.inNamedArrayCollection *)
  x_root : option tree                  (* self.root, absent initially *)
}.

(* Extractor.__init__ -- extractor.py:8-16 *)
Definition xst_init : xst :=
  XST (fun _ => VInt 0) [] [] [] (fun _ => None) [] (Level None []) false None.

(* localsClear -- extractor.py:18-28 *)
Definition locals_clear (s : xst) : xst :=
  XST (x_globals s) [] [] [] (fun _ => None) (x_stack s) (x_current s)
      (x_innamed s) (x_root s).

(* self.globalValue(tag) as an int.  Simplification: the int value of a
   NamedConstant is used where the code would raise TypeError on it
   (subtraction, range()); parsers put plain ints in these globals. *)
Definition gval (s : xst) (c : icls) : Z := py_int (x_globals s c).

(* l[min(len(l)-1, index)] *)
Definition last_repeat {A} (l : list A) (index : nat) : option A :=
  nth_error l (Nat.min (length l - 1) index).

(* usage(index) -- extractor.py:36-42 *)
Definition x_usage (db : udb) (s : xst) (index : nat) : option pval :=
  match last_repeat (x_usages s) index with
  | None => None
  | Some u =>
      if negb (Z.shiftr (py_int u) 16 =? 0) then Some u
      else Some (lookup db (VInt (Z.lor (Z.shiftl (gval s UsagePage) 16)
                                        (py_int u))))
  end.

(* string(index) / designator(index) -- extractor.py:44-52 *)
Definition x_string (s : xst) (index : nat) : Z :=
  match last_repeat (x_strings s) index with None => 0 | Some v => py_int v end.
Definition x_designator (s : xst) (index : nat) : Z :=
  match last_repeat (x_designators s) index with
  | None => 0 | Some v => py_int v end.

(* one row of the range expansion of extractor.py:86-93 *)
Definition expand (s : xst) (mn mx : icls) (target : list pval) : list pval :=
  match x_locals s mn, x_locals s mx, target with
  | Some a, Some b, [] => map VInt (zrange (py_int a) (py_int b + 1))
  | _, _, _ => target
  end.

Definition expand_ranges (s : xst) : xst :=
  XST (x_globals s)
      (expand s UsageMinimum UsageMaximum (x_usages s))
      (expand s StringMinimum StringMaximum (x_strings s))
      (expand s DesignatorMinimum DesignatorMaximum (x_designators s))
      (x_locals s) (x_stack s) (x_current s) (x_innamed s) (x_root s).

Definition set_levels (s : xst) (stack : list level) (cur : level)
           (innamed : bool) : xst :=
  XST (x_globals s) (x_usages s) (x_strings s) (x_designators s) (x_locals s)
      stack cur innamed (x_root s).

(* enter -- extractor.py:115-117 *)
Definition x_enter (s : xst) (kind : pval) (usage : option pval) : xst :=
  set_levels s (x_current s :: x_stack s) (Level (Some (kind, usage) ) [])
             (x_innamed s).

(* an open level turned into the member appended to its parent; leaving the
   TopLevel itself is impossible because the stack is then empty *)
Definition close_level (l : level) : list etree :=
  match lv_head l with
  | Some (k, u) => [EColl k u (lv_members l)]
  | None => []
  end.

(* leave(level) -- extractor.py:119-123.  [keep] is true for
   leave(self.currentLevel), false for leave(); an empty level is false in
   [if level] (Hierarchical.__len__, descriptor.py:33-34) and is not
   appended. *)
Definition x_leave (s : xst) (keep : bool) : result xst :=
  match x_stack s with
  | [] => Err IndexError
  | p :: r =>
      let kept := if keep then
                    match lv_members (x_current s) with
                    | [] => []
                    | _ => close_level (x_current s)
                    end
                  else [] in
      Ok (set_levels s r (Level (lv_head p) (lv_members p ++ kept))
                     (x_innamed s))
  end.

(* addValue -- extractor.py:130-132 *)
Definition add_value (s : xst) (v : value) : xst :=
  set_levels s (x_stack s)
    (Level (lv_head (x_current s))
           (lv_members (x_current s) ++ [EVal v (gval s ReportID)]))
    (x_innamed s).

(** reportInsert -- extractor.py:141-166.  [ri_add acc cur m] handles one
    member: [acc] are the members already closed, [cur] is currentReport. *)
Definition ri_close (cur : option (Z * list tree)) : list tree :=
  match cur with None => [] | Some (id, ms) => [TReport id ms] end.

Definition zmem (z : Z) (l : list Z) : bool := existsb (Z.eqb z) l.

Fixpoint report_insert (t : etree) : tree :=
  match t with
  | EVal v _ => TValue v
  | EColl k u ms =>
      TColl k u
        ((fix go (ms : list etree) (cur : option (Z * list tree))
            : list tree :=
            match ms with
            | [] => ri_close cur
            | m :: r =>
                match e_ids m with
                | [id] =>
                    match cur with
                    | Some (id', l) =>
                        if zmem id' (e_ids m)
                        then go r (Some (id', l ++ [raw m]))
                        else ri_close cur ++ go r (Some (id, [raw m]))
                    | None => go r (Some (id, [raw m]))
                    end
                | _ => ri_close cur ++ report_insert m :: go r None
                end
            end) ms None)
  end.

Fixpoint report_insert_members (ms : list etree)
         (cur : option (Z * list tree)) : list tree :=
  match ms with
  | [] => ri_close cur
  | m :: r =>
      match e_ids m with
      | [id] =>
          match cur with
          | Some (id', l) =>
              if zmem id' (e_ids m)
              then report_insert_members r (Some (id', l ++ [raw m]))
              else ri_close cur ++ report_insert_members r (Some (id, [raw m]))
          | None => report_insert_members r (Some (id, [raw m]))
          end
      | _ => ri_close cur ++ report_insert m :: report_insert_members r None
      end
  end.

(* ended -- extractor.py:134-139, called with the TopLevel (the stack is
   empty).  The test of line 138 is never true: members of the result are
   Reports and Collections. *)
Definition x_ended (s : xst) : xst :=
  XST (x_globals s) (x_usages s) (x_strings s) (x_designators s) (x_locals s)
      (x_stack s) (x_current s) (x_innamed s)
      (Some (TTop (report_insert_members (lv_members (x_current s)) None))).

(* the second condition of extractor.py:173-182, evaluated left to right;
   self.currentLevel.kind raises AttributeError on a TopLevel *)
Definition in_named_collection (db : udb) (s : xst) (i : item)
  : result bool :=
  match lv_head (x_current s) with
  | None => Err AttributeError
  | Some (kind, usage) =>
      if (ival i =? fl_Variable) && (py_int kind =? 4) then Ok true
      else if py_int kind =? 2 then utype_test db NAry usage
      else Ok false
  end.

(* the list of usages or, when possible, a UsageRange
   -- extractor.py:189-193, 210-215 *)
Definition named_of_usages (db : udb) (s : xst) : narr :=
  let l := flat_map (fun k => match x_usage db s k with
                              | Some u => [u] | None => [] end)
                    (seq 0 (length (x_usages s))) in
  match from_array l with Ok r => NRange r | Err _ => NList l end.

(* Value(i.tag, usage, ReportSize, logicalMin = .., namedArray = uArray,
   designator = self.designator(), string = self.string())
   -- extractor.py:196-202, 218-224 *)
Definition named_value (db : udb) (s : xst) (i : item) (usage : option pval)
           (arr : narr) : result value :=
  mk_value KValue
    (VArgs (VNamed (tag_name (ic i)) (tag_of (ic i))) usage
           (gval s ReportSize) (VInt 2) (Some (gval s LogicalMinimum)) None
           None None (Some arr) (VInt 0) 0 (x_designator s 0) (x_string s 0) 1
           None).

(* the Values of extractor.py:231-243 (count = ReportCount) and 250-261 *)
Definition plain_value (db : udb) (s : xst) (i : item) (n : nat) (count : Z)
  : result value :=
  mk_value KValue
    (VArgs (VNamed (tag_name (ic i)) (tag_of (ic i))) (x_usage db s n)
           (gval s ReportSize) (iv i) (Some (gval s LogicalMinimum))
           (Some (gval s LogicalMaximum)) (Some (gval s PhysicalMinimum))
           (Some (gval s PhysicalMaximum)) None (x_globals s Unit)
           (gval s UnitExponent) (x_designator s n) (x_string s n) count None).

Fixpoint add_values (s : xst) (l : list (result value)) : result xst :=
  match l with
  | [] => Ok s
  | r :: l' => let* v := r in add_values (add_value s v) l'
  end.

(* handleDataItem -- extractor.py:168-262 *)
Definition handle_data (db : udb) (s : xst) (i : item) : result xst :=
  let count := gval s ReportCount in
  let matches := Z.of_nat (length (x_usages s)) =?
                 gval s LogicalMaximum - gval s LogicalMinimum + 1 in
  if negb (Z.land (ival i) fl_Constant =? 0) then
    let* v := mk_padding (VNamed (tag_name (ic i)) (tag_of (ic i)))
                         (gval s ReportSize * count) in
    Ok (add_value s v)
  else
    let* inn := (if (count =? 1) && matches then in_named_collection db s i
                 else Ok false) in
    if inn then
      let coll := x_current s in
      let* s1 := x_leave s false in
      match lv_members coll, lv_head coll with
      | [], Some (_, u) =>
          let* v := named_value db s i u (named_of_usages db s) in
          Ok (add_value (set_levels s1 (x_stack s1) (x_current s1) true) v)
      | _, _ => Err AssertionError
      end
    else if (ival i =? 0) && matches then
      let arr := named_of_usages db s in
      add_values s (repeat (named_value db s i None arr) (Z.to_nat count))
    else if negb (Z.land (ival i) fl_BufferedBytes =? 0) then
      let* v := plain_value db s i 0 count in
      Ok (add_value s v)
    else
      add_values s (map (fun n => plain_value db s i n 1)
                        (seq 0 (Z.to_nat count))).

(* _append -- extractor.py:67-113 *)
Definition x_append (db : udb) (s : xst) (i : item) : result xst :=
  match ikd i with
  | Global =>
      Ok (XST (upd (x_globals s) (ic i) (iv i)) (x_usages s) (x_strings s)
              (x_designators s) (x_locals s) (x_stack s) (x_current s)
              (x_innamed s) (x_root s))
  | Local =>
      let set u st d l :=
        XST (x_globals s) u st d l (x_stack s) (x_current s) (x_innamed s)
            (x_root s) in
      Ok (match ic i with
          | Usage => set (x_usages s ++ [iv i]) (x_strings s)
                         (x_designators s) (x_locals s)
          | DesignatorIndex => set (x_usages s) (x_strings s)
                                   (x_designators s ++ [iv i]) (x_locals s)
          | StringIndex => set (x_usages s) (x_strings s ++ [iv i])
                               (x_designators s) (x_locals s)
          | c => set (x_usages s) (x_strings s) (x_designators s)
                     (upd (x_locals s) c (Some (iv i)))
          end)
  | Main =>
      let s := expand_ranges s in
      let* s1 :=
        match ic i with
        | Collection => Ok (x_enter s (iv i) (x_usage db s 0))
        | EndCollection =>
            let* s1 :=
              (if x_innamed s
               then Ok (set_levels s (x_stack s) (x_current s) false)
               else x_leave s true) in
            Ok (match x_stack s1 with [] => x_ended s1 | _ => s1 end)
        | _ => handle_data db s i
        end in
      Ok (locals_clear s1)
  end.

Fixpoint x_run (db : udb) (s : xst) (l : list item) : result xst :=
  match l with
  | [] => Ok s
  | i :: r => let* s1 := x_append db s i in x_run db s1 r
  end.

(* Feeding a whole stream to an Extractor and reading extractor.root
   (AttributeError when it was never set) -- extractor.py:286-292 *)
Definition extract (db : udb) (l : list item) : result tree :=
  let* s := x_run db xst_init l in
  match x_root s with Some t => Ok t | None => Err AttributeError end.

(* the decompiler on a binary blob -- extractor.py:264-292 *)
Definition decompile (db : udb) (blob : list Z) : result tree :=
  let r := blob_parse db blob in
  let* s := x_run db xst_init (appended r) in
  let* _ := finished r in
  match x_root s with Some t => Ok t | None => Err AttributeError end.
