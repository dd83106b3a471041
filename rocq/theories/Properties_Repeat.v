(* Properties_Repeat.v -- C89: saying something again makes no difference to
   optimised output. *)
From Coq Require Import Lia.
From Verif Require Import Py Usage Item Parser Optimizer Converter HidSpec Spec ParserFacts RepeatSpec RepeatProofs.
Local Open Scope list_scope.
Local Open Scope Z_scope.

(** C89 for streams of items: one more item that says what is said already
    does not show in the output.  Missing: a ReportCount after the last
    collection or end of one but one main item, logical bounds where there are
    physical ones, physical bounds, items among the local items of a main
    item; for each of these it is false. *)
Theorem C89_partial : forall db a x b, says_again (map what a) (what x) (map what b) ->
  optimize db (a ++ x :: b) = optimize db (a ++ b).
Proof. exact optimize_again. Qed.
Print Assumptions C89_partial.

(** a gamepad's two axes and its buttons, with page, size, unit, bounds and
    count said again before the second field *)
Definition first_part : list item :=
  [Item UsagePage (VInt 1); Item Usage (VInt 0x10005); Item Collection (VInt 1);
   Item LogicalMinimum (VInt (-127)); Item LogicalMaximum (VInt 127); Item ReportSize (VInt 8); Item ReportCount (VInt 1);
   Item Usage (VInt 0x10030); Item Input (VInt 2)].
Definition second_part : list item :=
  [Item Usage (VInt 0x10031); Item Input (VInt 2); Item EndCollection (VInt 0)].

Ltac said_before n := left; exists (firstn n (map what first_part)), (skipn (S n) (map what first_part)); split;
  [reflexivity|repeat constructor; discriminate].
Ltac apart_here := right; exists (map what (firstn 8 first_part)), (Input, 2); split; [reflexivity|discriminate].

Example C89_case :
  says_again (map what first_part) (ReportSize, 8) (map what second_part) /\
  says_again (map what first_part) (UsagePage, 1) (map what second_part) /\
  says_again (map what first_part) (Unit, 0) (map what second_part) /\
  says_again (map what first_part) (ReportCount, 1) (map what second_part) /\
  says_again (map what first_part) (LogicalMinimum, -127) (map what second_part) /\
  map what (optimize empty_db (first_part ++ Item ReportSize (VInt 8) :: second_part)) =
    [(UsagePage, 1); (Usage, 5); (Collection, 1); (LogicalMinimum, -127); (LogicalMaximum, 127); (ReportSize, 8);
     (ReportCount, 2); (Usage, 48); (Usage, 49); (Input, 2); (EndCollection, 0)].
Proof.
  split; [split; [apart_here|]; split; [said_before 5%nat|left; right; left; reflexivity]|].
  split; [split; [apart_here|]; split; [said_before 0%nat|left; left; reflexivity]|].
  split; [split; [apart_here|]; split; [right; split; [left; reflexivity|]; split; [reflexivity|repeat constructor; discriminate]|]|].
  { left. right. right. right. left. reflexivity. }
  split; [split; [apart_here|]; split; [said_before 6%nat|right; left]|].
  { split; [reflexivity|]. exists [(Usage, 0x10031)], (Input, 2), [], (EndCollection, 0), []. repeat split. right. reflexivity. }
  split; [split; [apart_here|]; split; [said_before 3%nat|right; right]|].
  { split; [left; reflexivity|]. repeat constructor; discriminate. }
  vm_compute. reflexivity.
Qed.

(** C89 for the converter: one more such item in a blob does not change what
    converter -O writes, nor whether it fails. *)
Theorem C89_blob_partial : forall db ba bx bb wa wx wb,
  blob_means ba wa -> blob_means bx [wx] -> blob_means bb wb -> Forall number_allowed (wa ++ wx :: wb) ->
  says_again (map w_what wa) (w_what wx) (map w_what wb) ->
  convert_opt db (ba ++ bx ++ bb) = convert_opt db (ba ++ bb).
Proof. exact convert_again. Qed.
Print Assumptions C89_blob_partial.

(** the same in bytes, the size given once more in two bytes *)
Example C89_blob_case :
  let ba := [0x05; 0x01; 0x0b; 0x05; 0x00; 0x01; 0x00; 0xa1; 0x01; 0x15; 0x81; 0x25; 0x7f; 0x75; 0x08; 0x95; 0x01;
             0x0b; 0x30; 0x00; 0x01; 0x00; 0x81; 0x02] in
  let bx := [0x76; 0x08; 0x00] in
  let bb := [0x0b; 0x31; 0x00; 0x01; 0x00; 0x81; 0x02; 0xc0] in
  blob_means ba (map wire first_part) /\ blob_means bx [W ReportSize 8 false] /\ blob_means bb (map wire second_part) /\
  Forall number_allowed (map wire first_part ++ W ReportSize 8 false :: map wire second_part) /\
  says_again (map w_what (map wire first_part)) (w_what (W ReportSize 8 false)) (map w_what (map wire second_part)) /\
  convert_opt empty_db (ba ++ bx ++ bb) =
    Ok [0x05; 0x01; 0x09; 0x05; 0xa1; 0x01; 0x15; 0x81; 0x25; 0x7f; 0x75; 0x08; 0x95; 0x02; 0x09; 0x30; 0x09; 0x31; 0x81; 0x02; 0xc0].
Proof.
  cbv zeta. split; [apply serialize_means; reflexivity|]. split; [|split; [apply serialize_means; reflexivity|]].
  { exists [Raw 1 7 [8; 0]]. split; [|reflexivity]. apply (si_cons 0x76 [8; 0] [] []); [lia|repeat constructor; lia|reflexivity|constructor]. }
  split; [repeat constructor; unfold number_allowed, no_number; cbn; intuition congruence|].
  split; [exact (proj1 C89_case)|]. vm_compute. reflexivity.
Qed.

(** It is false for logical bounds along with physical ones: PhysicalMerge
    compares only what has been said since the last main item. *)
Theorem C89_refuted : exists db a x b, apart (map what a) /\ said (ic x) (ival x) (map what a) /\
  (ic x = LogicalMinimum \/ ic x = LogicalMaximum) /\ optimize db (a ++ x :: b) <> optimize db (a ++ b).
Proof.
  exists empty_db, [Item LogicalMaximum (VInt 5); Item ReportSize (VInt 8); Item ReportCount (VInt 1); Item Input (VInt 2)],
    (Item LogicalMaximum (VInt 5)), [Item PhysicalMaximum (VInt 5); Item Output (VInt 2)].
  split; [right; exists [(LogicalMaximum, 5); (ReportSize, 8); (ReportCount, 1)], (Input, 2); split; [reflexivity|discriminate]|].
  split; [left; exists [], [(ReportSize, 8); (ReportCount, 1); (Input, 2)]; split; [reflexivity|repeat constructor; discriminate]|].
  split; [right; reflexivity|]. vm_compute. discriminate.
Qed.
Print Assumptions C89_refuted.

(** It is false for physical bounds. *)
Theorem C89_physical_refuted : exists db a x b, apart (map what a) /\ said (ic x) (ival x) (map what a) /\
  (ic x = PhysicalMinimum \/ ic x = PhysicalMaximum) /\ optimize db (a ++ x :: b) <> optimize db (a ++ b).
Proof.
  exists empty_db, [Item PhysicalMaximum (VInt 5); Item ReportSize (VInt 8); Item ReportCount (VInt 1); Item Input (VInt 2)],
    (Item PhysicalMaximum (VInt 5)), [Item PhysicalMinimum (VInt 1); Item LogicalMinimum (VInt 1); Item LogicalMaximum (VInt 5); Item Output (VInt 2)].
  split; [right; exists [(PhysicalMaximum, 5); (ReportSize, 8); (ReportCount, 1)], (Input, 2); split; [reflexivity|discriminate]|].
  split; [left; exists [], [(ReportSize, 8); (ReportCount, 1); (Input, 2)]; split; [reflexivity|repeat constructor; discriminate]|].
  split; [right; reflexivity|]. vm_compute. discriminate.
Qed.
Print Assumptions C89_physical_refuted.

(** It is false for a count before the end of the last collection: fields
    merged before have changed the count. *)
Theorem C89_count_refuted : exists db a x b, apart (map what a) /\ said (ic x) (ival x) (map what a) /\
  ic x = ReportCount /\ optimize db (a ++ x :: b) <> optimize db (a ++ b).
Proof.
  exists empty_db, [Item ReportSize (VInt 8); Item ReportCount (VInt 1); Item Input (VInt 2); Item Input (VInt 2)],
    (Item ReportCount (VInt 1)), [Item EndCollection (VInt 0)].
  split; [right; exists [(ReportSize, 8); (ReportCount, 1); (Input, 2)], (Input, 2); split; [reflexivity|discriminate]|].
  split; [left; exists [(ReportSize, 8)], [(Input, 2); (Input, 2)]; split; [reflexivity|repeat constructor; discriminate]|].
  split; [reflexivity|]. vm_compute. discriminate.
Qed.
Print Assumptions C89_count_refuted.

(** It is false among local items: DesignatorUniq looks at those since the
    last item that is not local. *)
Theorem C89_local_refuted : exists db a x b, said (ic x) (ival x) (map what a) /\ free_class (ic x) /\
  optimize db (a ++ x :: b) <> optimize db (a ++ b).
Proof.
  exists empty_db, [Item ReportSize (VInt 8); Item ReportCount (VInt 1); Item DesignatorIndex (VInt 0)], (Item ReportSize (VInt 8)),
    [Item DesignatorIndex (VInt 1); Item Input (VInt 2); Item EndCollection (VInt 0)].
  split; [left; exists [], [(ReportCount, 1); (DesignatorIndex, 0)]; split; [reflexivity|repeat constructor; discriminate]|].
  split; [right; left; reflexivity|]. vm_compute. discriminate.
Qed.
Print Assumptions C89_local_refuted.
