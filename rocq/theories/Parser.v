(* Parser.v -- model of hrdc/stream/parser/base.py and binary.py *)
From Verif Require Import Py Usage Item.

(** What a run of the parser does to the output stream: the items appended,
    in order, and then either [close] (Ok) or an exception that leaves the
    stream unclosed. *)
Record run := Run { appended : list item; finished : result unit }.

(* Item constructors called by Parser.append never fail here; the [Err]
   branch keeps the model total and is shown unreachable (ParserFacts). *)

(* Parser.append -- parser/base.py:38-48.  State: self.usagePage. *)
Definition parser_append (db : udb) (page : Z) (i : item)
  : Z * result item :=
  let '(page1, i1) :=
    match ic i with
    | UsagePage =>
        (ival i, mk_item db UsagePage (Some (usage_page (ival i))))
    | _ => (page, Ok i)
    end in
  match i1 with
  | Err e => (page1, Err e)
  | Ok i2 =>
      match ic i2 with
      | Usage | UsageMinimum | UsageMaximum =>
          if Z.shiftr (ival i2) 16 =? 0 then
            (page1, mk_item db (ic i2) (Some (inpage db page1 (ival i2))))
          else (page1, Ok i2)
      | _ => (page1, Ok i2)
      end
  end.

(* data_size -- parser/base.py:28-29 *)
Definition data_size (h : Z) : nat :=
  let size := Z.land h 3 in
  Z.to_nat (if size =? 0 then 1 else Z.shiftl 1 (size - 1) + 1).

(* Parser.blobParse -- parser/base.py:25-36.  The while loop is recursion on
   fuel; each round removes at least one byte, so [length blob] rounds are
   enough ([blob_parse]); running out of fuel is not reachable
   (ParserFacts.blob_parse_fuel_enough). *)
Fixpoint blob_parse_fuel (fuel : nat) (db : udb) (page : Z) (blob : list Z)
  : run :=
  match blob with
  | [] => Run [] (Ok tt)
  | h :: _ =>
      match fuel with
      | O => Run [] (Err IndexError)
      | S f =>
          let n := data_size h in
          let it := firstn n blob in
          let rest := skipn n blob in
          match parse db it with
          | Err e => Run [] (Err e)
          | Ok i =>
              match parser_append db page i with
              | (_, Err e) => Run [] (Err e)
              | (page', Ok i') =>
                  let r := blob_parse_fuel f db page' rest in
                  Run (i' :: appended r) (finished r)
              end
          end
      end
  end.

(* Binary.read = blobParse of the bytes read -- parser/binary.py:12-14 *)
Definition blob_parse (db : udb) (blob : list Z) : run :=
  blob_parse_fuel (length blob) db 0 blob.

(** Serialising a list of items: the Binary formatter
    (formatter/binary.py:11-12) writes the bytes of each item in turn. *)
Fixpoint serialize (l : list item) : result (list Z) :=
  match l with
  | [] => Ok []
  | i :: r =>
      let* b := bytes i in
      let* s := serialize r in
      Ok (b ++ s)
  end.

(* hrdc/converter.py:27-36 without -O, binary in, binary out *)
Definition convert (db : udb) (blob : list Z) : result (list Z) :=
  let r := blob_parse db blob in
  let* out := serialize (appended r) in
  let* _ := finished r in
  Ok out.
