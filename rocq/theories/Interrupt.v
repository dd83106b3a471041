(* Interrupt.v -- runs of the compiler and of the converter that raise an
   exception: the items that have reached the output by then, in the order in
   which the code appends them.  compiler.py:24-34, converter.py:24-36,
   streamer.py, descriptor.py:15-19, formatter/*.py.
   The result type [run] is that of the parser: the items, then either the end
   of the program or the exception. *)
From Verif Require Import Py Usage Item Parser Optimizer Descriptor.

(** What the streamer has done so far: the items appended, and its state or
    the exception. *)
Record srun := SRun { s_items : list item; s_end : result sst }.

Definition s_ok (st : sst) : srun := SRun [] (Ok st).
Definition s_fail (e : exn) : srun := SRun [] (Err e).

(** one statement after another *)
Definition after (r : srun) (f : sst -> srun) : srun :=
  match s_end r with
  | Ok st => SRun (s_items r ++ s_items (f st)) (s_end (f st))
  | Err e => r
  end.

(** a(item.X(v)), several times *)
Fixpoint emits (db : udb) (l : list (icls * option pval)) (st : sst) : srun :=
  match l with
  | [] => s_ok st
  | (c, v) :: r =>
      match mk_item db c v with
      | Ok i => SRun (i :: s_items (emits db r st)) (s_end (emits db r st))
      | Err e => s_fail e
      end
  end.

(** self.report_size[int(e.way)][self.report_id] += n *)
Definition counts (way n : Z) (st : sst) : srun :=
  match rs_add st way n with Ok st' => s_ok st' | Err e => s_fail e end.

(** a(item.Item.itemclass(item.Item.Main, e.way)(v)) *)
Definition emits_main (db : udb) (way : Z) (v : pval) (st : sst) : srun :=
  match main_class way with Ok c => emits db [(c, Some v)] st | Err e => s_fail e end.

(** the padding to append -- streamer.py:36-51 *)
Definition pad_of (st : sst) (e : value) : result Z :=
  let way := py_int (v_way e) in
  let align := match v_kind e with KAlign b => b | KPadding => 0 | KValue => v_align e end in
  let pad0 := match v_kind e with KPadding => v_size e | _ => 0 end in
  if 1 <? align then
    let* j := rs_key way (s_rid st) in
    let partial := s_size st way j mod align in
    Ok (if partial =? 0 then 0 else align - partial)
  else Ok pad0.

Definition pad_run (db : udb) (e : value) (pad : Z) (st : sst) : srun :=
  (* streamer.py:53-57 *)
  if pad =? 0 then s_ok st
  else after (emits db [(ReportCount, Some (VInt 1)); (ReportSize, Some (VInt pad))] st) (fun st =>
       after (counts (py_int (v_way e)) pad st) (fun st =>
       emits_main db (py_int (v_way e)) (VInt 3) st)).

(* the items of a value before the report size is counted
   -- streamer.py:60-91 *)
Definition value_before (db : udb) (e : value) (named : bool) : list (icls * option pval) :=
  let constant := negb (Z.land (py_int (v_flags e)) fl_Constant =? 0) in
  (if constant then [] else
     (if usage_truthy (v_usage e) then [(Usage, v_usage e)] else [])
     ++
     (if named then
        [(PhysicalMinimum, Some (VInt 0)); (PhysicalMaximum, Some (VInt 0))]
        ++ (if usage_truthy (v_usage e)
            then [(Collection, Some (VNamed "Logical" 2))] else [])
        ++ map (fun u => (Usage, Some u))
               (match v_named e with Some a => narr_iter db a | None => [] end)
      else if opt_Z_eqb (v_pmin e) (v_lmin e) && opt_Z_eqb (v_pmax e) (v_lmax e)
      then [(PhysicalMinimum, Some (VInt 0)); (PhysicalMaximum, Some (VInt 0))]
      else [(PhysicalMinimum, opt_int (v_pmin e)); (PhysicalMaximum, opt_int (v_pmax e))])
     ++ [(LogicalMinimum, opt_int (v_lmin e));
         (LogicalMaximum, opt_int (v_lmax e));
         (Unit, Some (v_unit e));
         (UnitExponent, Some (VInt (v_uexp e)))]
     ++ (if v_desig e =? 0 then [] else [(DesignatorIndex, Some (VInt (v_desig e)))])
     ++ (if v_str e =? 0 then [] else [(StringIndex, Some (VInt (v_str e)))]))
  ++ [(ReportCount, Some (VInt (v_count e))); (ReportSize, Some (VInt (v_size e)))].

(* the end of the collection around a named array -- streamer.py:95-96 *)
Definition value_after (e : value) (named : bool) : list (icls * option pval) :=
  if named && negb (negb (Z.land (py_int (v_flags e)) fl_Constant =? 0)) && usage_truthy (v_usage e)
  then [(EndCollection, Some (VInt 0))] else [].

(* Streamer.element -- streamer.py:34-96.  The length of a named array cannot
   be negative here (its truth has been asked for already, descriptor.py:118), so it does not
   matter that its truth is looked at once, at the start. *)
Definition element_run (db : udb) (st : sst) (e : value) : srun :=
  match pad_of st e with
  | Err x => s_fail x
  | Ok pad =>
      after (pad_run db e pad st) (fun st =>
      match v_kind e with
      | KValue =>
          match narr_truthy (v_named e) with
          | Err x => s_fail x
          | Ok named =>
              after (emits db (value_before db e named) st) (fun st =>
              after (counts (py_int (v_way e)) (v_size e) st) (fun st =>
              after (emits_main db (py_int (v_way e)) (v_flags e) st) (fun st =>
              emits db (value_after e named) st)))
          end
      | _ => s_ok st
      end)
  end.

(* Hierarchical.accept with Streamer.enter / leave
   -- descriptor.py:15-19, 125-126; streamer.py:16-32 *)
Fixpoint tree_run (db : udb) (st : sst) (t : tree) {struct t} : srun :=
  let members :=
    (fix go (ms : list tree) (st : sst) {struct ms} : srun :=
       match ms with
       | [] => s_ok st
       | m :: r => after (tree_run db st m) (go r)
       end) in
  match t with
  | TValue v => element_run db st v
  | TReport id ms =>
      after (emits db (if id =? 0 then [] else [(ReportID, Some (VInt id))]) (SST id (s_size st)))
        (members ms)
  | TTop ms => members ms st
  | TColl kind usage ms =>
      after (emits db [(Usage, usage); (Collection, Some kind)] st) (fun st =>
      after (members ms st) (fun st =>
      emits db [(EndCollection, Some (VInt 0))] st))
  end.

(** desc.accept(Streamer(output)); then output.close() *)
Definition stream_run (db : udb) (t : tree) : run :=
  let r := tree_run db sst_init t in
  Run (s_items r) (match s_end r with Ok _ => Ok tt | Err e => Err e end).

(** An optimiser in between.  Everything is handed on as soon as it is
    produced; after an exception nobody calls [close]
    -- optimizer/base.py:3-19 *)
Definition through (p : pass) (r : run) : run :=
  Run (snd (feed p (p_init p) (appended r)) ++
       match finished r with
       | Ok _ => p_close p (fst (feed p (p_init p) (appended r)))
       | Err _ => []
       end) (finished r).

(** The formatters: each asks the item for its bytes and then writes; the
    exception of an item that has none ends the run
    -- formatter/binary.py:11-12, hex.py:7-9, code.py:8-16 *)
Fixpoint reach (l : list item) (e : result unit) : run :=
  match l with
  | [] => Run [] e
  | i :: r =>
      match bytes i with
      | Ok _ => Run (i :: appended (reach r e)) (finished (reach r e))
      | Err x => Run [] (Err x)
      end
  end.

(** the items that get written, with or without optimiser *)
Definition written (db : udb) (opt : bool) (r : run) : run :=
  let r' := if opt then through (optimizer_new db sink 0 100) r else r in
  reach (appended r') (finished r').

(* compile_main -- compiler.py:24-34; [opt] is [not args.no_optimize] *)
Definition compile_run (db : udb) (opt : bool) (t : tree) : run := written db opt (stream_run db t).

(* converter.py:24-36 on binary input *)
Definition convert_run (db : udb) (opt : bool) (b : list Z) : run := written db opt (blob_parse db b).
