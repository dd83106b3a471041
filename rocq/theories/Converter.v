(* Converter.v -- model of hrdc/converter.py with -O *)
From Verif Require Import Py Usage Item Parser Optimizer.

(* hrdc/converter.py:27-36 with -O, binary in, binary out: the parser appends
   to the optimiser, which appends to the Binary formatter.  What has been
   written before an exception is not kept. *)
Definition convert_opt (db : udb) (blob : list Z) : result (list Z) :=
  let r := blob_parse db blob in
  let* _ := finished r in
  serialize (optimize db (appended r)).
