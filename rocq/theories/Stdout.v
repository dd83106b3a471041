(* Stdout.v -- what the decompiler leaves on standard output besides the
   script: hrdc/descriptor/extractor.py:205-216.
   Not modelled: what is printed when an exception ends the run
   (extractor.py:59-64). *)
From Verif Require Import Py Usage Item Parser Optimizer Descriptor Extractor TextFormats Dumper Tools.
Local Open Scope string_scope.
Local Open Scope list_scope.
Local Open Scope Z_scope.

(* str of the ValueError of UsageRange.from_array -- usage/usage.py:87-94 *)
Definition range_error (arr : list pval) : option text :=
  match arr with
  | _ :: _ :: _ => if contiguous arr then None else Some (str "Noncontiguous values"%string)
  | _ => Some (str "Cannot create range from array with less than 2 elements"%string)
  end.

(* the print(e) of handleDataItem -- extractor.py:205-215, with the tests of
   the branches before it (extractor.py:168-183); only those that let the run
   go on matter *)
Definition data_prints (db : udb) (s : xst) (i : item) : text :=
  let matches := Z.of_nat (length (x_usages s)) =?
                 gval s LogicalMaximum - gval s LogicalMinimum + 1 in
  if negb (Z.land (ival i) fl_Constant =? 0) then []
  else match (if (gval s ReportCount =? 1) && matches then in_named_collection db s i else Ok false) with
  | Ok false =>
      if (ival i =? 0) && matches then
        match range_error (flat_map (fun k => match x_usage db s k with Some u => [u] | None => [] end)
                                    (seq 0 (length (x_usages s)))) with
        | Some m => (m ++ line)
        | None => []
        end
      else []
  | _ => []
  end.

(* _append -- extractor.py:67-113 *)
Definition x_prints (db : udb) (s : xst) (i : item) : text :=
  match ic i with
  | Input | Output | Feature => data_prints db (expand_ranges s) i
  | _ => []
  end.

Fixpoint x_says (db : udb) (s : xst) (l : list item) : text :=
  match l with
  | [] => []
  | i :: r => (x_prints db s i ++ match x_append db s i with Ok s1 => x_says db s1 r | Err _ => [] end)
  end.

(* extractor.py:264-292: standard output, and the named file if there is one;
   the script goes to args.output, "-" being standard output *)
Definition decompiler_run (loc : locale) (db : udb) (fin : string) (src dst : file) (content : list Z)
  : result (text * text) :=
  let* i := get fin in
  let* s := decompiler_tool loc db fin src content in
  let said := x_says db xst_init (appended (read_items loc db i src content)) in
  Ok (match dst with Standard => ((said ++ s), []) | Named => (said, s) end).

(* the same on a binary descriptor, to standard output *)
Definition decompile_stdout (db : udb) (blob : list Z) : result text :=
  let* s := decompile_text db blob in
  Ok (x_says db xst_init (appended (blob_parse db blob)) ++ s).
