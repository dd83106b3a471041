(* Properties_Length.v -- C102: the lengths of reports. *)
From Verif Require Import Py Usage Item Parser Optimizer Descriptor UsageModules HidSpec Spec StreamSpec OptSpec TreeSpec
  ItemFacts ParserFacts OptFacts PassFacts StreamTree Properties_Stream Properties_Extract LayoutSpec Properties_Layout
  Properties_Ids Properties_Numbered Properties_Apart ApartSpec LengthSpec LengthProofs.
Local Open Scope list_scope.
Local Open Scope Z_scope.

(** C102.  The report is as long as its values together; every binding of usage
    pages, every kind and report. *)
Theorem C102_length db opt t b m ev c r : well_formed t -> (opt = true -> closed_tree t) -> compile db opt t = Ok b -> host_reads m b ev -> unaligned t ->
  report_bits c r ev = total_bits c r t.
Proof. exact (c102 db opt t b m ev c r). Qed.
Print Assumptions C102_length.

(** With alignment, it is no shorter, and longer by less than the alignments. *)
Theorem C102_bounds db opt t b m ev c r : well_formed t -> (opt = true -> closed_tree t) -> compile db opt t = Ok b -> host_reads m b ev ->
  total_bits c r t <= report_bits c r ev <= total_bits c r t + slack_bits c r t.
Proof. exact (c102_bounds db opt t b m ev c r). Qed.
Print Assumptions C102_bounds.

(** three bits twice, once in Report(0); a value of count
    five; none aligned, as values are unless told otherwise *)
Definition five102 : tree := tv (mk_value KValue (VArgs (VNamed "Input" 8) (Some (VInt 0x10030)) 8 (VInt 2) (Some 0) (Some 100) None None None (VInt 0) 0 0 0 5 (Some 1))).
Definition one102 : tree := tv (mk_value KValue (VArgs (VNamed "Input" 8) (Some (VInt 0x10031)) 8 (VInt 2) (Some 0) (Some 100) None None None (VInt 0) 0 0 0 1 (Some 1))).
Definition tree102 : tree := TTop [TColl (VInt 1) mouse [TReport 1 [pad98; five102]; TReport 2 [pad98; one102; led99]; TReport 1 []; TReport 0 [pad98; led99]]].

(** 5 bits before an aligned byte, and 5 after it *)
Definition tree102_gap : tree := TTop [TColl (VInt 1) mouse [TReport 1 [pad98; align99; axis97 0x10031; pad98; align99]]].

Example C102_case :
  (well_formed tree102 /\ closed_tree tree102 /\ unaligned tree102 /\ (exists b, compile default_db true tree102 = Ok b) /\
   map (fun x => total_bits (fst x) (snd x) tree102) [(Input, 1); (Output, 1); (Input, 2); (Output, 2); (Input, 0)] = [46; 2; 11; 2; 0]) /\
  (well_formed tree102_gap /\ closed_tree tree102_gap /\ (exists b, compile default_db true tree102_gap = Ok b) /\
   total_bits Input 1 tree102_gap = 14 /\ report_bits Input 1 (tree_layout tree102_gap) = 24 /\ slack_bits Input 1 tree102_gap = 21).
Proof.
  assert (W : well_formed align99) by (unfold align99; wf).
  split.
  - split; [wf; unfold one102, pad98, led99, five102; wf|]. split; [apply (cl_top []); apply cl_coll|].
    split; [unfold unaligned; match goal with |- Forall _ ?q => let q' := eval vm_compute in q in change q with q' end; repeat (apply Forall_cons || apply Forall_nil); first [exact I|vm_compute; discriminate]|].
    split; [eexists; vm_compute; reflexivity|vm_compute; reflexivity].
  - split; [wf; try exact W; unfold axis97, pad98; wf|]. split; [apply (cl_top []); apply cl_coll|].
    split; [eexists; vm_compute; reflexivity|]. repeat split; vm_compute; reflexivity.
Qed.
