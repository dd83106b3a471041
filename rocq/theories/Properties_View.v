(* Properties_View.v -- C93: what the decompiler makes of a descriptor depends
   on what each main item says and on nothing else. *)
From Verif Require Import Py Usage Item Parser Optimizer Descriptor Extractor UsageModules HidSpec Spec StreamSpec OptSpec AllSpec
  ExtractSpec ItemFacts ParserFacts OptFacts PassFacts CodecProofs ExtractAgain DumpSpec
  Properties_Accept Properties_Verdict AcceptSpec VerdictSpec VerdictProofs ViewSpec ViewProofs.
Local Open Scope list_scope.
Local Open Scope Z_scope.

(** C93: descriptors that show the same at each main item (of data: the global
    table, usages with their page, strings, designators, kind and number) decompile to the same
    tree up to names, or raise the same exception. *)
Theorem C93 : forall db blob blob' ws ws', blob_means blob ws -> blob_means blob' ws' -> Forall number_allowed ws -> Forall number_allowed ws' ->
  views g_init [] (map w_what ws) = views g_init [] (map w_what ws') ->
  match decompile db blob, decompile db blob' with Ok t, Ok t' => same_tree t t' | Err e, Err e' => e' = e | _, _ => False end.
Proof. exact c93. Qed.
Print Assumptions C93.

(** hence they compile again to the same bytes *)
Theorem C93_compiled : forall db db' opt blob blob' ws ws' t t', blob_means blob ws -> blob_means blob' ws' -> Forall number_allowed ws -> Forall number_allowed ws' ->
  views g_init [] (map w_what ws) = views g_init [] (map w_what ws') ->
  decompile default_db blob = Ok t -> decompile default_db blob' = Ok t' -> compile db' opt t' = compile db opt t.
Proof. exact c93_compiled. Qed.
Print Assumptions C93_compiled.

(** in particular the order of items of different classes between two main
    items, Push, Pop and Delimiter, and what is overwritten before it is used *)
Theorem C93_order : forall db blob blob' ws ws', blob_means blob ws -> blob_means blob' ws' -> Forall number_allowed ws -> Forall number_allowed ws' ->
  idle_same (map w_what ws) (map w_what ws') ->
  match decompile db blob, decompile db blob' with Ok t, Ok t' => same_tree t t' | Err e, Err e' => e' = e | _, _ => False end.
Proof. intros. eapply c93; eauto. apply idle_views. assumption. Qed.
Print Assumptions C93_order.

(** the same fields, said in two ways: short and extended usages, single ones
    and ranges, another order, Push and Pop *)
Definition one93 : list item := items
  [(UsagePage, 1); (Usage, 2); (Collection, 1); (LogicalMinimum, 0); (LogicalMaximum, 1); (ReportSize, 1); (ReportCount, 3);
   (UsagePage, 9); (UsageMinimum, 1); (UsageMaximum, 3); (StringMinimum, 4); (StringMaximum, 6); (Input, 2);
   (ReportCount, 1); (ReportSize, 5); (Input, 1); (EndCollection, 0)].
Definition two93 : list item := items
  [(Push, 0); (ReportSize, 1); (Usage, 0x10002); (UsagePage, 1); (Collection, 1); (Pop, 0); (StringIndex, 4); (Usage, 0x90001); (ReportCount, 5);
   (ReportCount, 3); (StringIndex, 5); (StringIndex, 6); (LogicalMaximum, 1); (Usage, 2); (Usage, 0x90003); (UsagePage, 9); (StringMinimum, 17); (Input, 2);
   (ReportSize, 5); (ReportCount, 1); (Usage, 0x10030); (Usage, 0x10031); (Input, 1); (EndCollection, 0)].

Definition views93 (l : list item) : list view := views g_init [] (map w_what (map wire l)).

Example C93_case : readable54 one93 (written one93) /\ readable54 two93 (written two93) /\
  views93 one93 = views93 two93 /\ length (views93 one93) = 4%nat /\ written one93 <> written two93 /\
  exists t, decompile empty_db (written one93) = Ok t /\ decompile empty_db (written two93) = Ok t.
Proof.
  split; [unfold readable54; readable|]. split; [unfold readable54; readable|]. split; [vm_compute; reflexivity|]. split; [vm_compute; reflexivity|].
  split; [vm_compute; discriminate|]. eexists. split; [vm_compute; reflexivity|vm_compute; reflexivity].
Qed.

Definition first93 : list item := items [(UsagePage, 1); (Usage, 2); (Collection, 1); (EndCollection, 0)].
Definition second93 : list item := items [(Usage, 2); (UsagePage, 1); (Push, 0); (Collection, 1); (EndCollection, 0)].

Example C93_order_case : readable54 first93 (written first93) /\ readable54 second93 (written second93) /\
  idle_same (map w_what (map wire first93)) (map w_what (map wire second93)).
Proof.
  split; [unfold readable54; readable|]. split; [unfold readable54; readable|].
  apply is_trans with (m := [(Usage, 2); (UsagePage, 1); (Collection, 1); (EndCollection, 0)]).
  - apply (is_trade [] (UsagePage, 1) (Usage, 2)); discriminate.
  - apply is_sym. apply (is_idle [(Usage, 2); (UsagePage, 1)] Push 0). left. reflexivity.
Qed.
