(* Properties_CodeC.v -- C75: C output is a C initialiser of the bytes. *)
From Coq Require Import ZArith List Bool Ascii String.
From Verif Require Import Py Usage Item Parser Spec TextFormats TextProofs TextNames CSpec CProofs CodeC.
Import ListNotations.
Local Open Scope list_scope.
Local Open Scope Z_scope.

(** C75: what the code formatter writes for items whose names have no newline
    is, to a C compiler, an initialiser of the bytes of the items; no comment
    runs over the end of its line. *)
Theorem C75 : forall l b t,
  serialize l = Ok b -> Forall (fun i => no_nl (str (item_str i))) l -> format_code l = Ok t ->
  c_bytes t b /\ ~ continued t.
Proof. exact c75. Qed.
Print Assumptions C75.

(** there is such an output whenever the items have bytes *)
Theorem C75_total : forall l b, serialize l = Ok b -> exists t, format_code l = Ok t.
Proof. exact c75_total. Qed.
Print Assumptions C75_total.

(** a text is an initialiser of one sequence of bytes only *)
Theorem C75_single : forall t zs zs', c_bytes t zs -> c_bytes t zs' -> zs = zs'.
Proof. exact c_bytes_one. Qed.
Print Assumptions C75_single.

(** in the converter, whose names come from the registry *)
Theorem C75_converter : forall db b out,
  clean_db not_nl db -> convert db b = Ok out ->
  exists t, format_code (appended (blob_parse db b)) = Ok t /\ c_bytes t out /\ ~ continued t /\
    forall zs, c_bytes t zs -> zs = out.
Proof. exact c75_converter. Qed.
Print Assumptions C75_converter.

(** a usage with slashes, stars and a backslash in its name *)
Example C75_case :
  let l := [Item UsagePage (VInt 0x1234); Item Usage (VUsage "a.*/ /* // 0x7f, \" 0x12340002 []); Item Push (VInt 0)] in
  Forall (fun i => no_nl (str (item_str i))) l /\ serialize l = Ok [0x06; 0x34; 0x12; 0x0b; 2; 0; 0x34; 0x12; 0xa5; 0] /\
  exists t, format_code l = Ok t /\
    nth_error (split_on is_nl t) 1 = Some (str "     0x0b, 0x02, 0x00, 0x34, 0x12,  // Usage (a.*/ /* // 0x7f, \)").
Proof.
  cbv zeta. split; [|split].
  - repeat constructor; intros I; vm_compute in I; repeat (destruct I as [I|I]; [discriminate I|]); exact I.
  - vm_compute. reflexivity.
  - eexists. split; [vm_compute; reflexivity|]. vm_compute. reflexivity.
Qed.

(** with a newline in a name the rest of the name may be read as a number *)
Example C75_newline : exists i b t,
  bytes i = Ok b /\ format_code [i] = Ok t /\ c_bytes t (b ++ [3]).
Proof.
  exists (Item Usage (VUsage (newline ++ "0x03, //")%string 0x10002 [])).
  eexists. eexists. split; [reflexivity|]. split; [reflexivity|].
  exists (spaces 5 ++ byte_pieces [0x0b; 2; 0; 1; 0] ++ [Blank " "; Blank " "; LineComment (str " Usage (")]
          ++ byte_pieces [3] ++ [Blank " "; LineComment (str ")")]).
  split; [vm_compute; reflexivity|]. split; [|repeat constructor; discriminate].
  apply c_list_gaps; [apply spaces_gap|].
  apply (c_list_bytes [0x0b; 2; 0; 1; 0]); [repeat constructor; discriminate|].
  apply c_list_gaps.
  { repeat constructor; intros I; vm_compute in I; repeat (destruct I as [I|I]; [discriminate I|]); exact I. }
  apply (c_list_bytes [3]); [repeat constructor; discriminate|].
  apply c_end. repeat constructor; intros I; vm_compute in I; repeat (destruct I as [I|I]; [discriminate I|]); exact I.
Qed.
