(* Dumper.v -- model of hrdc/descriptor/dumper.py *)
From Verif Require Import Py Usage Item Parser Descriptor TextFormats Extractor.
Local Open Scope Z_scope.

Definition line : text := [nl].

(* indent(offset) with __indent + offset = n -- dumper.py:19-20 *)
Definition indentation (n : nat) : text := repeat " "%char (n * 4).

(* str(v) for an int or a NamedConstant -- named_constant.py:10-11 *)
Definition show (v : pval) : text := str (pval_name v).
Definition show_int (z : Z) : text := str (dec_of_Z z).
Definition show_usage (db : udb) (u : pval) : text := show (lookup db u).

(* str(r) -- usage.py:74-75 *)
Definition show_range (r : urange) : text :=
  str "UsageRange(" ++ show (r_min r) ++ str ", " ++ show (r_max r) ++ str ")".

(* [A-Za-z] *)
Definition is_letter (c : ascii) : bool := between 65 90 c || between 97 122 c.

(* re.sub(r"([A-Za-z]+)", r"P\1", t): [p] is put before each maximal run of
   letters.  [inside] tells whether the previous character is in a run. *)
Fixpoint qualify (p : text) (inside : bool) (t : text) : text :=
  match t with
  | [] => []
  | c :: r =>
      if is_letter c then
        (if inside then [] else p) ++ c :: qualify p true r
      else c :: qualify p false r
  end.

(* bool(e.usage) *)
Definition usage_given (u : option pval) : bool :=
  match u with None => false | Some v => truthy v end.

(* ", name = text" *)
Definition keyword (n : string) (t : text) : text := str ", " ++ str n ++ str " = " ++ t.

Definition opt_eqb (a b : option Z) : bool :=
  match a, b with
  | Some x, Some y => x =? y
  | None, None => true
  | _, _ => false
  end.

(* the flags argument -- dumper.py:63-68 *)
Definition dump_flags (v : value) : result text :=
  let f := py_int (v_flags v) in
  if f =? 2 then Ok []
  else
    let* named := narr_truthy (v_named v) in
    if negb (named && usage_given (v_usage v) && (f =? 2))
       && negb (named && negb (usage_given (v_usage v)) && (f =? 0))
    then Ok (keyword "flags" (qualify (str "Value.") false (show (v_flags v))))
    else Ok [].

(* namedArray, or the bounds -- dumper.py:72-86 *)
Definition dump_range (n : nat) (v : value) : text :=
  match v_named v with
  | Some (NRange r) => keyword "namedArray" (show_range r)
  | Some (NList l) =>
      keyword "namedArray" (str "[" ++ line)
      ++ flat_map (fun u => indentation (S n) ++ show u ++ str "," ++ line) l
      ++ indentation (S n) ++ str "]"
  | None =>
      match v_lmax v with None => [] | Some z => keyword "logicalMax" (show_int z) end
      ++ (if opt_eqb (v_pmin v) (v_lmin v) && opt_eqb (v_pmax v) (v_lmax v) then []
          else
            match v_pmin v with None => [] | Some z => keyword "physicalMin" (show_int z) end
            ++ match v_pmax v with None => [] | Some z => keyword "physicalMax" (show_int z) end)
  end.

(* ", name = z" unless z is the default *)
Definition unless (d : Z) (n : string) (z : Z) : text :=
  if z =? d then [] else keyword n (show_int z).

(* the rest -- dumper.py:87-100 *)
Definition dump_rest (v : value) : text :=
  (if py_int (v_unit v) =? 0 then []
   else keyword "unit" (qualify (str "Unit.") false (show (v_unit v))))
  ++ unless 0 "unitExponent" (v_uexp v) ++ unless 0 "designator" (v_desig v)
  ++ unless 0 "string" (v_str v) ++ unless 1 "count" (v_count v)
  ++ unless (Z.min 8 (v_size v)) "alignment" (v_align v).

(* element -- dumper.py:53-101; logicalMin None prints "None" *)
Definition dump_value (db : udb) (n : nat) (v : value) : result text :=
  match v_kind v with
  | KAlign b =>
      Ok (indentation n ++ str "Align(Value." ++ show (v_way v) ++ str ", " ++ show_int b
          ++ str ")," ++ line)
  | KPadding =>
      Ok (indentation n ++ str "Padding(Value." ++ show (v_way v) ++ str ", "
          ++ show_int (v_size v) ++ str ")," ++ line)
  | KValue =>
      let* fl := dump_flags v in
      Ok (indentation n ++ str "Value(Value." ++ show (v_way v) ++ str ", "
          ++ match v_usage v with
             | Some u => if truthy u then show_usage db u else str "None"
             | None => str "None"
             end
          ++ str ", " ++ show_int (v_size v) ++ fl
          ++ (if opt_eqb (v_lmin v) (Some 1) then []
              else keyword "logicalMin"
                     match v_lmin v with Some z => show_int z | None => str "None" end)
          ++ dump_range n v ++ dump_rest v ++ str ")," ++ line)
  end.

(* dumper.py:23-27 *)
Definition prelude : text :=
  str "from hrdc.usage import *" ++ line ++ str "from hrdc.descriptor import *" ++ line
  ++ line ++ str "descriptor = ".

(* dumper.py:47-51 *)
Definition postlude : text :=
  line ++ str "if __name__ == ""__main__"":" ++ line ++ str "    compile_main(descriptor)" ++ line.

(* enter and leave around the members -- dumper.py:22-51 *)
Definition bracketed (n : nat) (head body : text) : text :=
  (match n with O => prelude | S _ => [] end)
  ++ indentation n ++ head ++ body ++ indentation n ++ str ")"
  ++ (match n with O => [] | S _ => str "," end) ++ line
  ++ (match n with O => postlude | S _ => [] end).

(* t.accept(Dumper(output)) -- dumper.py, descriptor.py:15-21; [n] is the
   indentation on entry.  Text written before an exception is not modelled:
   there is no exception (C96). *)
Fixpoint dump (db : udb) (n : nat) (t : tree) : result text :=
  let members := (fix go (ms : list tree) : result text :=
    match ms with
    | [] => Ok []
    | m :: r => let* a := dump db (S n) m in let* b := go r in Ok (a ++ b)
    end) in
  match t with
  | TValue v => dump_value db n v
  | TTop ms => let* b := members ms in Ok (bracketed n (str "TopLevel(" ++ line) b)
  | TReport id ms =>
      let* b := members ms in
      Ok (bracketed n (str "Report(" ++ show_int id ++ str "," ++ line) b)
  | TColl k u ms =>
      let* b := members ms in
      Ok (bracketed n
            (str "Collection(Collection." ++ show k ++ str ", "
             ++ match u with Some u => show_usage db u | None => str "None" end
             ++ str "," ++ line) b)
  end.

(* the decompiler: extractor.py:264-292 *)
Definition decompile_text (db : udb) (blob : list Z) : result text :=
  let* t := decompile db blob in dump db 0 t.
