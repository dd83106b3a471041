(* Properties_Follow.v -- C94: a descriptor made of two that stand on their own
   decompiles to the trees of both. *)
From Verif Require Import Py Usage Item Parser Optimizer Descriptor Extractor UsageModules HidSpec Spec StreamSpec OptSpec AllSpec
  ExtractSpec ItemFacts ParserFacts OptFacts PassFacts CodecProofs ExtractAgain DumpSpec
  Properties_Accept Properties_Verdict AcceptSpec VerdictSpec VerdictProofs ViewSpec ViewProofs FollowSpec ComposeSpec FollowProofs Properties_View.
Local Open Scope list_scope.
Local Open Scope Z_scope.

(** C94: if the first descriptor closes what it opens, and the main items of the
    second show the same after it as on their own, then both together decompile
    to the members of the first tree followed by those of the second, where the
    report that the first ends with goes on if the second begins with it. *)
Theorem C94 : forall db b1 b2 ws1 ws2 m1 m2, blob_means b1 ws1 -> blob_means b2 ws2 -> Forall number_allowed ws1 -> Forall number_allowed ws2 ->
  closes (map w_cls ws1) ->
  views g_init [] (map w_what (ws1 ++ ws2)) = views g_init [] (map w_what ws1) ++ views g_init [] (map w_what ws2) ->
  decompile db b1 = Ok (TTop m1) -> decompile db b2 = Ok (TTop m2) ->
  exists t, decompile db (b1 ++ b2) = Ok t /\ same_tree t (TTop (joined m1 m2)).
Proof. exact c94. Qed.
Print Assumptions C94.

(** C94: and what is wrong with the second is wrong with both, but for the
    AttributeError of a descriptor without any collection closed. *)
Theorem C94_error : forall db b1 b2 ws1 ws2 m1 e, blob_means b1 ws1 -> blob_means b2 ws2 -> Forall number_allowed ws1 -> Forall number_allowed ws2 ->
  closes (map w_cls ws1) ->
  views g_init [] (map w_what (ws1 ++ ws2)) = views g_init [] (map w_what ws1) ++ views g_init [] (map w_what ws2) ->
  decompile db b1 = Ok (TTop m1) -> decompile db b2 = Err e -> e <> AttributeError -> decompile db (b1 ++ b2) = Err e.
Proof. exact c94_error. Qed.
Print Assumptions C94_error.

(** C94: if moreover they have no report in common, and not the same Report at
    the border, the tree of both compiles exactly when each does, to the bytes
    of the one followed by those of the other. *)
Theorem C94_compiled : forall db b1 b2 ws1 ws2 m1 m2, blob_means b1 ws1 -> blob_means b2 ws2 -> Forall number_allowed ws1 -> Forall number_allowed ws2 ->
  closes (map w_cls ws1) ->
  views g_init [] (map w_what (ws1 ++ ws2)) = views g_init [] (map w_what ws1) ++ views g_init [] (map w_what ws2) ->
  decompile default_db b1 = Ok (TTop m1) -> decompile default_db b2 = Ok (TTop m2) ->
  (forall m i l k n, m1 = m ++ [TReport i l] -> m2 = TReport i k :: n -> False) -> ComposeSpec.apart (TTop m1) (TTop m2) ->
  exists t, decompile default_db (b1 ++ b2) = Ok t /\ forall b, compile db false t = Ok b <->
    exists c1 c2, compile db false (TTop m1) = Ok c1 /\ compile db false (TTop m2) = Ok c2 /\ b = c1 ++ c2.
Proof. exact c94_compiled. Qed.
Print Assumptions C94_compiled.

(** a device with buttons, one with two axes *)
Definition buttons94 (id : Z) : list item := items
  [(UsagePage, 1); (Usage, 2); (Collection, 1); (ReportID, id); (LogicalMinimum, 0); (LogicalMaximum, 1); (ReportSize, 1); (ReportCount, 3);
   (UsagePage, 9); (UsageMinimum, 1); (UsageMaximum, 3); (Input, 2); (ReportCount, 1); (ReportSize, 5); (Input, 1); (EndCollection, 0)].
Definition axes94 (id : Z) : list item := items
  [(UsagePage, 1); (Usage, 4); (Collection, 1); (ReportID, id); (LogicalMinimum, -127); (LogicalMaximum, 127); (ReportSize, 8); (ReportCount, 2);
   (Usage, 0x30); (Usage, 0x31); (Input, 2); (EndCollection, 0)].

Definition shows94 (l : list item) : list view := views g_init [] (map w_what (map wire l)).

Example C94_case : readable54 (buttons94 1) (written (buttons94 1)) /\ readable54 (axes94 2) (written (axes94 2)) /\
  closes (map w_cls (map wire (buttons94 1))) /\
  shows94 (buttons94 1 ++ axes94 2) = shows94 (buttons94 1) ++ shows94 (axes94 2) /\
  exists c1 c2, decompile empty_db (written (buttons94 1)) = Ok (TTop [TReport 1 [c1]]) /\
    decompile empty_db (written (axes94 2)) = Ok (TTop [TReport 2 [c2]]) /\
    decompile empty_db (written (buttons94 1) ++ written (axes94 2)) = Ok (TTop [TReport 1 [c1]; TReport 2 [c2]]).
Proof.
  split; [unfold readable54; readable|]. split; [unfold readable54; readable|].
  split. { split; [vm_compute; reflexivity|]. eexists (firstn 15 (map w_cls (map wire (buttons94 1)))), []. split; [vm_compute; reflexivity|constructor]. }
  split; [vm_compute; reflexivity|]. eexists _, _. split; [vm_compute; reflexivity|]. split; [vm_compute; reflexivity|]. vm_compute. reflexivity.
Qed.

(** the same report in both: one Report with both collections *)
Example C94_joined_case : exists c1 c2, decompile empty_db (written (buttons94 7)) = Ok (TTop [TReport 7 [c1]]) /\
  decompile empty_db (written (axes94 7)) = Ok (TTop [TReport 7 [c2]]) /\
  decompile empty_db (written (buttons94 7) ++ written (axes94 7)) = Ok (TTop [TReport 7 [c1; c2]]) /\
  joined [TReport 7 [c1]] [TReport 7 [c2]] = [TReport 7 [c1; c2]].
Proof. eexists _, _. split; [vm_compute; reflexivity|]. split; [vm_compute; reflexivity|]. split; [vm_compute; reflexivity|reflexivity]. Qed.

(** a second descriptor that goes wrong: a collection is closed twice *)
Definition broken94 : list item := items
  [(UsagePage, 1); (Usage, 4); (Collection, 1); (EndCollection, 0); (EndCollection, 0)].

Example C94_error_case : readable54 broken94 (written broken94) /\
  shows94 (buttons94 1 ++ broken94) = shows94 (buttons94 1) ++ shows94 broken94 /\
  decompile empty_db (written broken94) = Err IndexError /\ decompile empty_db (written (buttons94 1) ++ written broken94) = Err IndexError.
Proof.
  split; [unfold readable54; readable|]. split; [vm_compute; reflexivity|]. split; vm_compute; reflexivity.
Qed.

(** C94_compiled: the trees of C94_case with the shipped registry *)
Example C94_compiled_case : exists m1 m2 c1 c2, decompile default_db (written (buttons94 1)) = Ok (TTop m1) /\
  decompile default_db (written (axes94 2)) = Ok (TTop m2) /\
  (forall m i l k n, m1 = m ++ [TReport i l] -> m2 = TReport i k :: n -> False) /\ ComposeSpec.apart (TTop m1) (TTop m2) /\
  compile empty_db false (TTop m1) = Ok c1 /\ compile empty_db false (TTop m2) = Ok c2 /\ c1 <> [] /\ c2 <> [].
Proof.
  eexists _, _, _, _. split; [vm_compute; reflexivity|]. split; [vm_compute; reflexivity|]. split.
  { intros m i l k n E1 E2. injection E2 as <- _ _. destruct m as [|x [|y m]]; discriminate E1. }
  split. { intros x I J. vm_compute in I, J. intuition congruence. }
  split; [vm_compute; reflexivity|]. split; [vm_compute; reflexivity|]. split; discriminate.
Qed.
