(* Properties_Plain.v -- C84: numbers are parsed as plain ints *)
From Verif Require Import Py Usage Item Parser Optimizer TextFormats Tools Spec PlainSpec PlainProofs Properties_Extract.
Local Open Scope list_scope. Local Open Scope Z_scope.

(** C84: whatever is read in, from a blob or from any file, the items the
    decompiler and MainMerge compute with hold plain ints, which have all
    operators (a NamedConstant has no subtraction: C69). *)
Theorem C84 : (forall db b, Forall (fun i => plain_number (ic i) (iv i)) (appended (blob_parse db b))) /\
  forall loc db f src content, Forall (fun i => plain_number (ic i) (iv i)) (appended (read_items loc db f src content)).
Proof. split; [intros db b; exact (parsed_plain (length b) db 0 b)|exact c84]. Qed.
Print Assumptions C84.

(** a count and a maximum as ints, a page and a flag word as named constants *)
Example C84_case : map iv (appended (blob_parse empty_db [0x95; 0x03; 0x25; 0xff; 0x05; 0x09; 0x81; 0x02])) =
  [VInt 3; VInt (-1); VNamed "Button" 9; VNamed "Variable" 2].
Proof. vm_compute. reflexivity. Qed.
