(* Tools.v -- model of the command line tools: hrdc/converter.py:5-36,
   hrdc/descriptor/compiler.py:9-34, hrdc/descriptor/extractor.py:264-292 and
   the helper for tests, hrdc/descriptor/test.py:1-9, for every format and for
   named files as well as standard input and output.
   Not modelled: argparse itself (the options are arguments here).  What stays
   in the output when an exception is raised is in Interrupt.v. *)
From Verif Require Import Py Usage Item Parser Optimizer Descriptor Extractor TextFormats Dumper.
Local Open Scope string_scope.

Inductive format := FBinary | FHex | FCode.

(* Parser.get, Formatter.get -- parser/base.py:16-18, formatter/base.py:15-17.
   The metaclasses register each class under its lower-case name
   (parser/base.py:5-11, formatter/base.py:3-9); the base classes do not get
   in, because their names are not bound yet when their own metaclass runs. *)
Definition get (name : string) : result format :=
  if String.eqb name "binary" then Ok FBinary
  else if String.eqb name "hex" then Ok FHex
  else if String.eqb name "code" then Ok FCode
  else Err KeyError.

(** How the interpreter turns the bytes of a file opened in text mode into
    text, and back: encoding of the locale, newline translation. *)
Record locale := Locale { l_read : list Z -> result text; l_write : text -> result (list Z) }.

(** argparse.FileType: "-" is standard input or output, anything else a file
    opened by name, always in text mode -- converter.py:15-21,
    compiler.py:17-19, extractor.py:274-280 *)
Inductive file := Standard | Named.

(* Parser.read -- parser/binary.py:4-14, hex.py:5-8, code.py:5-12.  Binary uses
   the bytes below standard input; of a named file it gets a str, and
   blobParse fails on its first character: header & 0x3 (base.py:27-28) is a
   TypeError for a str.  An empty str is falsy, so nothing happens. *)
Definition read_items (loc : locale) (db : udb) (f : format) (src : file) (content : list Z) : run :=
  match f, src with
  | FBinary, Standard => blob_parse db content
  | FBinary, Named =>
      match l_read loc content with
      | Err e => Run [] (Err e)
      | Ok [] => Run [] (Ok tt)
      | Ok (_ :: _) => Run [] (Err TypeError)
      end
  | FHex, _ =>
      match l_read loc content with Err e => Run [] (Err e) | Ok t => parse_hex db t end
  | FCode, _ =>
      match l_read loc content with Err e => Run [] (Err e) | Ok t => parse_code db t end
  end.

(* Formatter.append on each item -- formatter/binary.py:4-12, hex.py:7-9,
   code.py:8-16.  Binary uses the bytes below standard output; a file opened
   in text mode does not accept bytes (TypeError).  Simplification: the text
   is encoded as a whole. *)
Definition write_items (loc : locale) (f : format) (dst : file) (l : list item) : result (list Z) :=
  match f, dst with
  | FBinary, Standard => serialize l
  | FBinary, Named =>
      match l with
      | [] => Ok []
      | i :: _ => let* _ := bytes i in Err TypeError
      end
  | FHex, _ => let* t := format_hex l in l_write loc t
  | FCode, _ => let* t := format_code l in l_write loc t
  end.

(* converter.py:24-36.  When both the parser and the formatter fail, the
   parser's exception is given here. *)
Definition converter_tool (loc : locale) (db : udb) (fin : string) (src : file) (fout : string) (dst : file)
  (opt : bool) (content : list Z) : result (list Z) :=
  let* i := get fin in
  let* o := get fout in
  let r := read_items loc db i src content in
  let* _ := finished r in
  write_items loc o dst (if opt then optimize db (appended r) else appended r).

(* compiler.py:24-34; [opt] is [not args.no_optimize] *)
Definition compiler_tool (loc : locale) (db : udb) (fout : string) (dst : file) (opt : bool) (t : tree)
  : result (list Z) :=
  let* o := get fout in
  let* l := stream_items db t in
  write_items loc o dst (if opt then optimize db l else l).

(* extractor.py:282-292; the script, before it is encoded *)
Definition decompiler_tool (loc : locale) (db : udb) (fin : string) (src : file) (content : list Z)
  : result text :=
  let* i := get fin in
  let r := read_items loc db i src content in
  let* s := x_run db xst_init (appended r) in
  let* _ := finished r in
  match x_root s with Some t => dump db 0 t | None => Err AttributeError end.

(* descriptor_expected -- descriptor/test.py:1-9 *)
Definition descriptor_expected (db : udb) (t : tree) (expected : text) : result unit :=
  let* bytes := code_blob_of expected in
  let* l := stream_items db t in
  let* p := exp_run bytes 0 (optimize db l) in
  if Nat.eqb p (length bytes) then Ok tt else Err AssertionError.
