(* Properties_Order.v -- C91: the order of global items makes no difference to
   the length and meaning of optimised output. *)
From Coq Require Import Lia Permutation.
From Verif Require Import Py Usage Item Parser Optimizer Converter HidSpec Spec ParserFacts RepeatSpec OrderSpec OrderProofs.
Local Open Scope list_scope.
Local Open Scope Z_scope.

Lemma c91 db l l' : reordered l l' ->
  Permutation (optimize db l) (optimize db l') /\ as_good (serialize (optimize db l)) (serialize (optimize db l')).
Proof. intros R. split; [apply swaps_perm, optimize_swaps, R|apply reordered_good, R]. Qed.

(** C91 for streams of items.  Missing: trades over Push and Pop, which change
    what the stream means; a ReportCount after the last collection or end of
    one but one main item; trades of global and local items.  The last two are
    false, see below. *)
Theorem C91_partial : forall db l l', reordered l l' ->
  Permutation (optimize db l) (optimize db l') /\ as_good (serialize (optimize db l)) (serialize (optimize db l')).
Proof. exact c91. Qed.
Print Assumptions C91_partial.

(** an axis pair with its globals in one order, and the other way round *)
Definition one_order : list item :=
  [Item UsagePage (VInt 1); Item Usage (VInt 0x10005); Item Collection (VInt 1);
   Item ReportCount (VInt 1); Item LogicalMaximum (VInt 127); Item ReportSize (VInt 8);
   Item Usage (VInt 0x10030); Item Input (VInt 2); Item Usage (VInt 0x10031); Item Input (VInt 2); Item EndCollection (VInt 0)].
Definition other_order : list item :=
  [Item UsagePage (VInt 1); Item Usage (VInt 0x10005); Item Collection (VInt 1);
   Item ReportSize (VInt 8); Item LogicalMaximum (VInt 127); Item ReportCount (VInt 1);
   Item Usage (VInt 0x10030); Item Input (VInt 2); Item Usage (VInt 0x10031); Item Input (VInt 2); Item EndCollection (VInt 0)].

Example C91_case : reordered one_order other_order /\
  map what (optimize empty_db one_order) =
    [(UsagePage, 1); (Usage, 5); (Collection, 1); (LogicalMaximum, 127); (ReportSize, 8);
     (ReportCount, 2); (Usage, 48); (Usage, 49); (Input, 2); (EndCollection, 0)] /\
  map what (optimize empty_db other_order) =
    [(UsagePage, 1); (Usage, 5); (Collection, 1); (ReportSize, 8); (LogicalMaximum, 127);
     (ReportCount, 2); (Usage, 48); (Usage, 49); (Input, 2); (EndCollection, 0)].
Proof.
  assert (O : forall a, exists p m q n r, map what (a ++ skipn 6 one_order) = p ++ m :: q ++ n :: r /\ kind_of (fst m) = Main /\
    (fst n = Collection \/ fst n = EndCollection)).
  { intros a. exists (map what a ++ [(Usage, 0x10030)]), (Input, 2), [(Usage, 0x10031); (Input, 2)], (EndCollection, 0), [].
    rewrite map_app, <- app_assoc. split; [reflexivity|]. split; [reflexivity|]. right. reflexivity. }
  split; [|split; vm_compute; reflexivity].
  apply (ro_trade (firstn 3 one_order) (Item ReportCount (VInt 1)) (Item LogicalMaximum (VInt 127)) (skipn 5 one_order)).
  { unfold may_trade, what. cbn [fst ic]. repeat (split; [discriminate || reflexivity|]). intros _. exact (O [Item ReportSize (VInt 8)]). }
  apply (ro_trade (firstn 3 one_order ++ [Item LogicalMaximum (VInt 127)]) (Item ReportCount (VInt 1)) (Item ReportSize (VInt 8)) (skipn 6 one_order)).
  { unfold may_trade, what. cbn [fst ic]. repeat (split; [discriminate || reflexivity|]). intros _. exact (O []). }
  apply (ro_trade (firstn 3 one_order) (Item LogicalMaximum (VInt 127)) (Item ReportSize (VInt 8)) (Item ReportCount (VInt 1) :: skipn 6 one_order)).
  { unfold may_trade, what. cbn [fst ic]. repeat (split; [discriminate || reflexivity|]). intros [E|E]; discriminate E. }
  apply ro_same.
Qed.

(** C91 for the converter: with global items in another order, converter -O
    writes as many bytes, which mean the same. *)
Theorem C91_blob_partial : forall db b b', rearranged b b' -> as_good (convert_opt db b) (convert_opt db b').
Proof. exact rearranged_good. Qed.
Print Assumptions C91_blob_partial.

(** size and bound of an axis pair trade places *)
Example C91_blob_case :
  let ba := [0x05; 0x01; 0x0b; 0x05; 0x00; 0x01; 0x00; 0xa1; 0x01; 0x95; 0x01] in
  let bx := [0x25; 0x7f] in
  let by_ := [0x75; 0x08] in
  let bb := [0x0b; 0x30; 0x00; 0x01; 0x00; 0x81; 0x02; 0x0b; 0x31; 0x00; 0x01; 0x00; 0x81; 0x02; 0xc0] in
  rearranged (ba ++ bx ++ by_ ++ bb) (ba ++ by_ ++ bx ++ bb) /\
  convert_opt empty_db (ba ++ bx ++ by_ ++ bb) =
    Ok [0x05; 0x01; 0x09; 0x05; 0xa1; 0x01; 0x25; 0x7f; 0x75; 0x08; 0x95; 0x02; 0x09; 0x30; 0x09; 0x31; 0x81; 0x02; 0xc0] /\
  convert_opt empty_db (ba ++ by_ ++ bx ++ bb) =
    Ok [0x05; 0x01; 0x09; 0x05; 0xa1; 0x01; 0x75; 0x08; 0x25; 0x7f; 0x95; 0x02; 0x09; 0x30; 0x09; 0x31; 0x81; 0x02; 0xc0].
Proof.
  cbv zeta. split; [|split; vm_compute; reflexivity].
  assert (MB : forall l b, serialize l = Ok b -> blob_means b (map wire l)) by (intros; apply serialize_means; assumption).
  eapply ra_trade with (wa := map wire [Item UsagePage (VInt 1); Item Usage (VInt 0x10005); Item Collection (VInt 1); Item ReportCount (VInt 1)])
    (wx := wire (Item LogicalMaximum (VInt 127))) (wy := wire (Item ReportSize (VInt 8)))
    (wb := map wire [Item Usage (VInt 0x10030); Item Input (VInt 2); Item Usage (VInt 0x10031); Item Input (VInt 2); Item EndCollection (VInt 0)]).
  - apply MB. reflexivity.
  - apply (MB [Item LogicalMaximum (VInt 127)]). reflexivity.
  - apply (MB [Item ReportSize (VInt 8)]). reflexivity.
  - apply MB. reflexivity.
  - repeat constructor; unfold number_allowed, no_number; cbn; intuition congruence.
  - unfold may_trade. cbn [w_what wire w_cls fst]. repeat (split; [discriminate || reflexivity|]). intros [E|E]; discriminate E.
  - apply ra_same.
Qed.

(** It is false for a count before the end of the last collection: the same
    items take two bytes more one way round than the other. *)
Theorem C91_count_refuted : exists db a x y b, ic x = ReportCount /\ kind_of (ic y) = Global /\
  serialize (optimize db (a ++ x :: y :: b)) = Ok [0xa1; 0x01; 0x75; 0x08; 0x95; 0x01; 0x81; 0x02; 0x25; 0x07; 0xc0] /\
  serialize (optimize db (a ++ y :: x :: b)) = Ok [0xa1; 0x01; 0x75; 0x08; 0x95; 0x01; 0x81; 0x02; 0x25; 0x07; 0x95; 0x02; 0xc0].
Proof.
  exists empty_db, [Item Collection (VInt 1); Item ReportSize (VInt 8); Item ReportCount (VInt 1); Item Input (VInt 2)],
    (Item ReportCount (VInt 2)), (Item LogicalMaximum (VInt 7)), [Item EndCollection (VInt 0)].
  split; [reflexivity|]. split; [reflexivity|]. split; vm_compute; reflexivity.
Qed.
Print Assumptions C91_count_refuted.

(** It is false for a global and a local item: DesignatorUniq drops
    designators that equal the first one since the last item that is not
    local. *)
Theorem C91_local_refuted : exists db a x y b, kind_of (ic x) = Global /\ ic x <> UsagePage /\ kind_of (ic y) = Local /\
  (forall m, host_view m (map wire (a ++ x :: y :: b)) = host_view m (map wire (a ++ y :: x :: b))) /\
  forall m, host_view m (map wire (optimize db (a ++ x :: y :: b))) <> host_view m (map wire (optimize db (a ++ y :: x :: b))).
Proof.
  exists empty_db, [Item Collection (VInt 1); Item ReportCount (VInt 2); Item DesignatorIndex (VInt 0)],
    (Item ReportSize (VInt 8)), (Item DesignatorIndex (VInt 1)), [Item Input (VInt 2); Item EndCollection (VInt 0)].
  split; [reflexivity|]. split; [discriminate|]. split; [reflexivity|].
  split; [intros []; vm_compute; reflexivity|]. intros []; vm_compute; discriminate.
Qed.
Print Assumptions C91_local_refuted.
