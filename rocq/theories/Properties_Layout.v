(* Properties_Layout.v -- C76: the layout of every tree that compiles. *)
From Verif Require Import Py Usage Item Parser Optimizer Descriptor HidSpec Spec ParserFacts StreamSpec
  StreamProofs StreamTree OptSpec AllSpec TreeSpec OptFacts PassFacts TreeOpt LayoutSpec LayoutProofs
  Properties_Stream Properties_Tree.
Local Open Scope list_scope. Local Open Scope Z_scope.

(** C76: for every tree, a host reads exactly the layout computed from the
    tree, whatever the counts, the alignments and the nesting of reports. *)
Theorem C76 : forall db t b,
  well_formed t -> compile db false t = Ok b -> reads_as b (tree_layout t).
Proof. exact c76. Qed.
Print Assumptions C76.

(** Optimised, under the conditions of C40. *)
Theorem C76_optimised_partial : forall db t b, well_formed t -> closed_tree t ->
  scaling_ok (fst (threaded 0 t)) -> uniform_leaves (fst (threaded 0 t)) ->
  compile db true t = Ok b -> reads_bound AtDecl b (tree_layout t).
Proof. exact c76_optimised. Qed.
Print Assumptions C76_optimised_partial.

(** Optimised, for every tree that ends in a collection: the collections, the
    places of the fields and the lengths of the reports, whatever the binding
    of usage pages. *)
Theorem C76_places : forall db t b m ev, well_formed t -> closed_tree t -> compile db true t = Ok b ->
  host_reads m b ev ->
  map place_of ev = map place_of (tree_layout t) /\
  forall way rid, report_bits way rid ev = report_bits way rid (tree_layout t).
Proof. exact c76_places. Qed.
Print Assumptions C76_places.

(** Two 4-bit values and an 8-bit one in report 1, an 8-bit one in Report(0),
    which the host finds in report 1, an output and an 8-bit one after it. *)
Definition outputs := mk_value KValue (VArgs (VNamed "Output" 9) (Some (VInt 0x80001)) 3 (VInt 2) (Some 0) (Some 7) None None
   None (VInt 0) 0 0 0 1 None).
Definition tree76 : tree :=
  device [TReport 1 [tv twice; tv large; tv small]; TReport 0 [tv large; tv outputs]; tv large; TReport 1 [tv large]].

Example C76_case :
  well_formed tree76 /\ closed_tree tree76 /\
  (exists b, compile empty_db false tree76 = Ok b) /\ (exists b, compile empty_db true tree76 = Ok b) /\
  map place_of (tree_layout tree76) =
    [POpen 1; PField Input 1 4; PField Input 1 4; PField Input 1 4; PField Input 1 8; PField Input 1 4;
     PField Input 1 8; PField Output 1 3; PField Input 1 8; PField Input 1 4; PField Input 1 8; PClose] /\
  report_bits Input 1 (tree_layout tree76) = 52.
Proof.
  split; [unfold tree76, device; wf|]. split; [constructor|].
  split; [eexists; vm_compute; reflexivity|]. split; [eexists; vm_compute; reflexivity|].
  split; vm_compute; reflexivity.
Qed.

(** the device of C40 meets the conditions of the optimised case *)
Example C76_optimised_case :
  well_formed tree40 /\ closed_tree tree40 /\ scaling_ok (fst (threaded 0 tree40)) /\ uniform_leaves (fst (threaded 0 tree40)) /\
  (exists b, compile empty_db true tree40 = Ok b) /\ length (tree_layout tree40) = 18%nat.
Proof.
  pose proof C40_case as X. destruct X as [A [B [C [D E]]]].
  split; [exact A|]. split; [exact B|]. split; [exact C|]. split; [exact D|].
  split; [eexists; vm_compute; reflexivity|vm_compute; reflexivity].
Qed.
