(* ToolSpec.v -- what is assumed of the interpreter's text files and of the
   names that end up in comments *)
From Coq Require Import ZArith List String Ascii.
From Verif Require Import Py Usage Item Descriptor TextFormats Tools.
Import ListNotations.
Local Open Scope Z_scope.

(** the printable ASCII characters *)
Definition plain_char (c : ascii) : Prop := 32 <= Z.of_nat (nat_of_ascii c) <= 126.

(** a text file of printable ASCII characters and line feeds is read as it was
    written *)
Definition faithful (loc : locale) : Prop :=
  forall t, Forall (fun c => plain_char c \/ c = ascii_of_nat 10) t ->
    exists b, l_write loc t = Ok b /\ l_read loc b = Ok t.

Definition plain_name (s : string) : Prop := Forall plain_char (list_ascii_of_string s).

(** the names in the registry *)
Definition plain_registry (db : udb) : Prop := forall z n ks, db z = Some (n, ks) -> plain_name n.

Definition plain_val (v : pval) : Prop :=
  match v with VInt _ => True | VNamed n _ | VUsage n _ _ => plain_name n end.
Definition plain_opt (v : option pval) : Prop := match v with None => True | Some x => plain_val x end.

(** the names in a tree *)
Inductive plain_tree : tree -> Prop :=
| plain_value v :
    plain_opt (v_usage v) -> plain_val (v_flags v) -> plain_val (v_unit v) ->
    match v_named v with Some (NList l) => Forall plain_val l | _ => True end ->
    plain_tree (TValue v)
| plain_report id ms : plain_trees ms -> plain_tree (TReport id ms)
| plain_top ms : plain_trees ms -> plain_tree (TTop ms)
| plain_coll k u ms : plain_val k -> plain_opt u -> plain_trees ms -> plain_tree (TColl k u ms)
with plain_trees : list tree -> Prop :=
| plain_none : plain_trees []
| plain_more m ms : plain_tree m -> plain_trees ms -> plain_trees (m :: ms).

(** the formats that are text *)
Definition text_format (name : string) : Prop := name = "hex"%string \/ name = "code"%string.

(** the tools make of [y], in format [fout], what they make of the bytes [b] on
    standard input *)
Definition reads_like (loc : locale) (fout : string) (y b : list Z) : Prop := forall db src,
  (forall o dst opt, converter_tool loc db fout src o dst opt y = converter_tool loc db "binary" Standard o dst opt b) /\
  decompiler_tool loc db fout src y = decompiler_tool loc db "binary" Standard b.
