(* Properties_Text.v -- C10 to C13: the hex and C text formats and the
   ExpectedStream comparer. *)
From Verif Require Import Py Usage Item Parser HidSpec Spec ItemFacts TextFormats UsageTable UsageModules
  TextProofs TextNames.
Local Open Scope Z_scope.

(** C10: what the hex formatter writes is read back as the same bytes. *)
Theorem C10 : forall l b,
  serialize l = Ok b -> exists t, format_hex l = Ok t /\ hex_blob t = b.
Proof. exact c10. Qed.
Print Assumptions C10.

Theorem C10_items : forall db l b,
  Forall constructed l -> serialize l = Ok b ->
  exists t l', format_hex l = Ok t /\ parse_hex db t = Run l' (Ok tt)
             /\ Forall2 (fun i j => item_eqb i j = true) l' l.
Proof. exact c10_items. Qed.
Print Assumptions C10_items.

(** any text of two-digit tokens, with or without 0x, and separators *)
Theorem C10_tokens : forall t l, tokens t l -> hex_blob t = l.
Proof. exact tokens_ok. Qed.
Print Assumptions C10_tokens.

(** the bytes read from an arbitrary text: those of its maximal words that
    are two hexadecimal digits, with or without 0x *)
Theorem C10_words : forall t, hex_blob t = flat_map word_bytes (words t).
Proof. exact hex_words. Qed.
Print Assumptions C10_words.

Example C10_case :
  tokens (str "{ 05,0x01;") [5; 1] /\
  words (str "a1 0xFf ,x2") = [str "a1"; str "0xFf"; str ""; str "x2"] /\
  hex_blob (str "a1 0xFf ,x2") = [0xa1; 0xff] /\
  format_hex [Item UsagePage (VInt 0x1234); Item EndCollection (VInt 0)]
  = Ok (str "06 34 12" ++ [nl] ++ str "c0" ++ [nl])%list.
Proof.
  split; [|repeat split].
  apply (tk_sep "{"%char); [reflexivity|]. apply (tk_sep " "%char); [reflexivity|].
  apply (tk_tok (str "05") 5 ","%char (str "0x01;") [1]); [reflexivity..|].
  apply (tk_tok (str "0x01") 1 ";"%char [] []); [reflexivity..|]. constructor.
Qed.

(** C11: what the code formatter writes, from any indentation level and
    whatever the names in the comments (without newline), is read back as the
    same bytes. *)
Theorem C11 : forall n l b,
  serialize l = Ok b -> Forall (fun i => no_nl (str (item_str i))) l ->
  exists m lines, code_run n l = Ok (m, lines) /\ code_blob_of (concat lines) = Ok b.
Proof. exact c11. Qed.
Print Assumptions C11.

Theorem C11_items : forall db l b,
  Forall constructed l -> serialize l = Ok b -> Forall (fun i => no_nl (str (item_str i))) l ->
  exists t l', format_code l = Ok t /\ parse_code db t = Run l' (Ok tt)
             /\ Forall2 (fun i j => item_eqb i j = true) l' l.
Proof. exact c11_items. Qed.
Print Assumptions C11_items.

(** In the converter the names come from the registry: with a registry
    without newlines, going through C code gives the bytes of the direct
    conversion. *)
Theorem C11_converter : forall db db' b out,
  clean_db not_nl db -> convert db b = Ok out ->
  exists t, format_code (appended (blob_parse db b)) = Ok t /\ code_blob_of t = Ok out
            /\ parse_code db' t = blob_parse db' out.
Proof. exact c11_converter. Qed.
Print Assumptions C11_converter.

(** the package's registry is such a registry, after any calls *)
Theorem C11_registry : forall h, clean_db not_nl (db_after h).
Proof. exact (clean_after not_nl not_nl_printable). Qed.
Print Assumptions C11_registry.

Definition odd_name : item :=
  Item Usage (VUsage "/* 0x01, // */ 0x02," 0x10002 []).

Example C11_case :
  (exists b, serialize [odd_name; Item EndCollection (VInt 0)] = Ok b) /\
  Forall (fun i => no_nl (str (item_str i))) [odd_name; Item EndCollection (VInt 0)] /\
  (exists t, format_code [odd_name; Item EndCollection (VInt 0)] = Ok t /\
     code_blob_of t = Ok [0x0b; 2; 0; 1; 0; 0xc0]).
Proof.
  split; [eexists; reflexivity|]. split.
  - repeat constructor; apply clean_no_nl, (cleanb_ok not_nl not_nl_printable); reflexivity.
  - eexists. split; reflexivity.
Qed.

(** Without the hypothesis on names C11 fails: the comment of a usage whose
    name has a newline spills over. *)
Example C11_newline : exists i b t,
  bytes i = Ok b /\ format_code [i] = Ok t /\ code_blob_of t <> Ok b.
Proof.
  exists (Item Usage (VUsage (newline ++ "0x03,")%string 0x10002 [])).
  eexists. eexists. split; [reflexivity|]. split; [reflexivity|]. vm_compute. discriminate.
Qed.

(** C12: one line per item, indented by the collections that enclose it. *)
Theorem C12 : forall l t,
  format_code l = Ok t ->
  exists lines, t = concat lines /\ length lines = length l /\
    forall k i, nth_error l k = Some i ->
      exists p, ~ In slash p /\
        nth_error lines k = Some (p ++ str "// "
          ++ repeat " "%char (Z.to_nat (4 * enclosing (firstn k l) i)) ++ str (item_str i) ++ [nl])%list.
Proof. exact c12. Qed.
Print Assumptions C12.

Theorem C12_warns : forall l w, code_warns l = Ok w -> (w = true <-> opens l <> closes l).
Proof. exact c12_warns. Qed.
Print Assumptions C12_warns.

Example C12_case :
  let l := [Item Collection (VNamed "Logical" 2); Item Collection (VNamed "Logical" 2);
            Item Input (VNamed "Constant" 1); Item EndCollection (VInt 0)] in
  (exists t, format_code l = Ok t) /\ code_warns l = Ok true /\
  enclosing (firstn 2 l) (Item Input (VNamed "Constant" 1)) = 2 /\
  enclosing (firstn 3 l) (Item EndCollection (VInt 0)) = 1.
Proof.
  cbv zeta. split; [eexists; vm_compute; reflexivity|].
  split; [vm_compute; reflexivity|]. split; vm_compute; reflexivity.
Qed.

(** C13: the comparer passes exactly when the bytes are the expected ones. *)
Theorem C13 : forall t l,
  expect t l = Ok tt <->
  exists b, code_blob_of t = Ok b /\ serialize l = Ok b.
Proof. exact c13. Qed.
Print Assumptions C13.

Example C13_case :
  expect (str "0x05, 0x01, /* x */ 0xc0") [Item UsagePage (VInt 1); Item EndCollection (VInt 0)] = Ok tt /\
  expect (str "0x05, 0x01, 0xc0, 0xc0") [Item UsagePage (VInt 1); Item EndCollection (VInt 0)]
    = Err AssertionError /\
  expect (str "0x05, 0x01") [Item UsagePage (VInt 1); Item EndCollection (VInt 0)] = Err AssertionError.
Proof. split; [|split]; vm_compute; reflexivity. Qed.
