(* Properties_Round.v -- C57 and C58: what is decompiled can be compiled
   again. *)
From Verif Require Import Py Usage Item Parser Optimizer Descriptor Extractor TextFormats UsageModules HidSpec Spec StreamSpec OptSpec AllSpec TreeSpec
  PassFacts ExtractSpec Dumper PyExpr DumpSpec ItemFacts ParserFacts OptFacts StreamTree TreeOpt Properties_Stream Properties_Tree ExtractAgain Properties_Extract
  Properties_Dump Properties_Names AcceptSpec ExtractStore ExtractFit RoundTrip Properties_Accept.
Local Open Scope list_scope.
Local Open Scope Z_scope.

(** Whatever the decompiler accepts compiles again, with any registry, when
    each collection has a usage, pages have 16 bits, report ids are bytes and
    no padding exceeds an item.  Full statement (false, see C57_refuted):
    without these conditions. *)
Theorem C57_partial db db' size count blob ws t : 0 <= size -> 0 <= count -> size * count < 2 ^ 32 -> blob_means blob ws ->
  Forall (small_item size count) ws -> labelled false (map w_cls ws) -> decompile db blob = Ok t -> exists b, compile db' false t = Ok b.
Proof. exact (c57 db db' size count blob ws t). Qed.
Print Assumptions C57_partial.

(** a named array, an array of usages, ranges of strings, a buffer, padding,
    Push and Pop and a collection that does not end *)
Definition mixed57 := items
  [(UsagePage, 1); (Usage, 2); (Collection, 1); (ReportID, 255); (Push, 0); (LogicalMinimum, 1); (LogicalMaximum, 3); (ReportSize, 2); (ReportCount, 1);
   (Usage, 0x80); (Collection, 4); (Usage, 0x90); (Usage, 0x91); (Usage, 0x93); (Input, 2); (EndCollection, 0);
   (ReportCount, 2); (UsageMinimum, 0x90); (UsageMaximum, 0x92); (StringMinimum, 4); (StringMaximum, 9); (Input, 0); (Pop, 0);
   (ReportSize, 0xffff); (ReportCount, 0x10000); (Feature, 0x103); (ReportSize, 8); (UsagePage, 0xffff); (Usage, 0xffff); (Feature, 0x102); (EndCollection, 0);
   (Usage, 0xffffffff); (Collection, 0xffffffff); (LogicalMinimum, - 2 ^ 31)].
Definition blob57 : list Z := match serialize mixed57 with Ok b => b | Err _ => [] end.

Ltac smalls := match goal with |- Forall _ ?q => let q' := eval vm_compute in q in change q with q' end;
  repeat apply Forall_cons; [..|apply Forall_nil]; first [exact I|vm_compute; reflexivity|vm_compute; discriminate].

Example C57_case : 0xffff * 0x10000 < 2 ^ 32 /\ blob_means blob57 (map wire mixed57) /\ Forall (small_item 0xffff 0x10000) (map wire mixed57) /\
  labelled false (map w_cls (map wire mixed57)) /\
  exists t b, decompile empty_db blob57 = Ok t /\ compile empty_db false t = Ok b /\
    map (fun v => (v_kind v, v_size v, v_count v, option_map py_int (v_usage v))) (leaf_values (scoped 0 t))
      = [(KValue, 2, 1, Some 0x10080); (KValue, 2, 1, None); (KValue, 2, 1, None); (KPadding, 0xffff0000, 1, Some 0); (KValue, 8, 0x10000, Some 0xffffffff)].
Proof.
  split; [reflexivity|]. split; [apply serialize_means; vm_compute; reflexivity|]. split; [smalls|].
  split; [vm_compute; repeat split|]. exists (tree_of (decompile empty_db blob57)). eexists.
  split; [vm_compute; reflexivity|]. split; vm_compute; reflexivity.
Qed.

(** each of the conditions: a collection without usage, a report id over 255, a
    constant field of 2^32 bits, a usage page over 16 bits *)
Definition lost57 : list (list item) :=
  [items [(Collection, 1); (ReportSize, 8); (ReportCount, 1); (Input, 1); (EndCollection, 0)];
   items [(Usage, 0x10002); (Collection, 1); (ReportID, 256); (ReportSize, 8); (ReportCount, 1); (Input, 1); (EndCollection, 0)];
   items [(Usage, 0x10002); (Collection, 1); (ReportSize, 0x10000); (ReportCount, 0x10000); (Input, 1); (EndCollection, 0)];
   items [(UsagePage, 0x10000); (Usage, 2); (Collection, 1); (ReportSize, 8); (ReportCount, 1); (Input, 1); (EndCollection, 0)]].

Theorem C57_refuted : Forall (fun l => exists blob t e, blob_means blob (map wire l) /\ closes (map w_cls (map wire l)) /\ unstacked (map w_what (map wire l)) /\
  plain_stream [] (main_states (map wire l)) /\ decompile empty_db blob = Ok t /\ compile empty_db false t = Err e) lost57.
Proof.
  unfold lost57. repeat apply Forall_cons; [..|apply Forall_nil].
  all: match goal with |- exists b t e, blob_means b (map wire ?l) /\ _ =>
         exists (match serialize l with Ok b => b | Err _ => [] end), (tree_of (extract empty_db l)) end; eexists.
  all: split; [apply serialize_means; vm_compute; reflexivity|]; split; [match goal with |- closes ?l => closed_by (removelast l) end|].
  all: split; [vm_compute; repeat constructor; discriminate|]; split; [plain|]; split; vm_compute; reflexivity.
Qed.
Print Assumptions C57_refuted.

(** Nothing else prevents it: of any byte string the decompiler accepts, the
    tree compiles, with any registry, exactly when each collection of it has a
    usage, no usage exceeds 32 bits, and there are no values in reports over
    255 and no more constant bits in a row than an item can say. *)
Theorem C57_exactly db db' blob t : Forall (fun x => 0 <= x < 256) blob -> decompile db blob = Ok t ->
  ((exists b, compile db' false t = Ok b) <-> Forall recompilable (scoped 0 t)).
Proof. exact (c57_exactly db db' blob t). Qed.
Print Assumptions C57_exactly.

(** the largest size and the largest count, each alone, and an empty field in
    report 300; then the same field with a bit in it *)
Definition edge57 (n : Z) := items
  [(UsagePage, 1); (Usage, 2); (Collection, 1); (ReportSize, 0xffffffff); (ReportCount, 1); (Input, 1); (ReportSize, 1); (ReportCount, 0xffffffff); (Output, 3);
   (ReportID, 300); (ReportSize, n); (ReportCount, 1); (Feature, 1); (EndCollection, 0)].
Definition edge_blob57 (n : Z) : list Z := match serialize (edge57 n) with Ok b => b | Err _ => [] end.

Example C57_exactly_case : exists t b t', Forall (fun x => 0 <= x < 256) (edge_blob57 0 ++ edge_blob57 1) /\
  decompile empty_db (edge_blob57 0) = Ok t /\ compile empty_db false t = Ok b /\ Forall recompilable (scoped 0 t) /\
  decompile empty_db (edge_blob57 1) = Ok t' /\ compile empty_db false t' = Err IndexError /\ ~ Forall recompilable (scoped 0 t').
Proof.
  assert (FB : Forall (fun x => 0 <= x < 256) (edge_blob57 0 ++ edge_blob57 1)).
  { apply Forall_forall. intros x I.
    assert (Q : forallb (fun x => (0 <=? x) && (x <? 256)) (edge_blob57 0 ++ edge_blob57 1) = true) by (vm_compute; reflexivity).
    rewrite forallb_forall in Q. specialize (Q x I). lia. }
  assert (D1 : decompile empty_db (edge_blob57 0) = Ok (tree_of (decompile empty_db (edge_blob57 0)))) by (vm_compute; reflexivity).
  assert (D2 : decompile empty_db (edge_blob57 1) = Ok (tree_of (decompile empty_db (edge_blob57 1)))) by (vm_compute; reflexivity).
  pose proof (Forall_app (fun x => 0 <= x < 256) (edge_blob57 0) (edge_blob57 1)) as FA. apply FA in FB as FC. destruct FC as [F1 F2].
  assert (CO : exists b, compile empty_db false (tree_of (decompile empty_db (edge_blob57 0))) = Ok b) by (eexists; vm_compute; reflexivity).
  destruct CO as [b CO].
  exists (tree_of (decompile empty_db (edge_blob57 0))), b, (tree_of (decompile empty_db (edge_blob57 1))).
  split; [exact FB|]. split; [exact D1|]. split; [exact CO|].
  split; [apply (C57_exactly empty_db empty_db _ _ F1 D1); exists b; exact CO|].
  split; [exact D2|].
  assert (CE : compile empty_db false (tree_of (decompile empty_db (edge_blob57 1))) = Err IndexError) by (vm_compute; reflexivity).
  split; [exact CE|]. intros R. apply (C57_exactly empty_db empty_db _ _ F2 D2) in R. destruct R as [b' R]. rewrite CE in R. discriminate R.
Qed.

(** A tidy descriptor is decompiled and compiled again without an exception,
    and the result has the same fields in the same places.  So does the
    optimised result if, moreover, the optimiser can be trusted with the tree
    (C40 and C42).  Missing: the other descriptors, see C45_refuted,
    C48_refuted, C54_refuted and C57_refuted. *)
Theorem C58_partial db size count blob ws : tidy size count blob ws ->
  exists t b ev, decompile db blob = Ok t /\ compile db false t = Ok b /\ reads_as b ev /\ placed [] ev = placed [] (host_view AtMain ws) /\
  (closed_tree t -> roomy t -> scaling_ok (fst (threaded 0 t)) -> uniform_leaves (fst (threaded 0 t)) ->
   exists b', compile db true t = Ok b' /\ reads_bound AtDecl b' ev /\ (same_pages (fst (threaded 0 t)) -> reads_as b' ev)).
Proof. exact (c58 db size count blob ws). Qed.
Print Assumptions C58_partial.

(** The same through the script the decompiler prints. *)
Theorem C58_script_partial size count blob ws : tidy size count blob ws -> (forall t, decompile default_db blob = Ok t -> dumpable t) ->
  exists s t' b ev, decompile_text default_db blob = Ok s /\ script s t' /\ compile default_db false t' = Ok b /\ reads_as b ev /\
    placed [] ev = placed [] (host_view AtMain ws).
Proof. exact (c58_script size count blob ws). Qed.
Print Assumptions C58_script_partial.

Lemma tidy53 : tidy 16 3 blob53 (map wire again48).
Proof.
  destruct C53_case as [A [B [C [D [E [F [G [H [J _]]]]]]]]]. split; try assumption.
  - clears.
  - repeat split; discriminate.
  - smalls.
  - vm_compute. repeat split.
Qed.

Definition flat53 : tree := Eval vm_compute in tree53.

Lemma flat53_is : tree53 = flat53.
Proof. vm_compute. reflexivity. Qed.

Lemma leaves53 : closed_tree flat53 /\ roomy flat53 /\
  scaling_ok (fst (threaded 0 flat53)) /\ uniform_leaves (fst (threaded 0 flat53)) /\ same_pages (fst (threaded 0 flat53)).
Proof.
  split. { unfold flat53. apply (cl_top []). constructor. }
  split. { unfold roomy. split; [vm_compute; reflexivity|].
    match goal with |- Forall _ ?q => let q' := eval vm_compute in q in change q with q' end.
    repeat apply Forall_cons; [..|apply Forall_nil]; intros _; vm_compute; reflexivity. }
  split. { left. intros v I D. vm_compute in I.
    repeat (destruct I as [<-|I]; [first [right; split; reflexivity | left; reflexivity | discriminate D]|]). destruct I. }
  split. { nb; vm_compute; repeat split; auto; left; split; auto; discriminate. }
  split.
  + intros v I D. vm_compute in I. repeat (destruct I as [<-|I]; [one_page|]). destruct I.
  + nb; (split; [first [one_page|exists 8; apply page_by; vm_compute; reflexivity]|split; discriminate]).
Qed.

(** 62 bytes become a tree, which is compiled with and without optimisation *)
Example C58_case : tidy 16 3 blob53 (map wire again48) /\ dumpable tree53 /\ closed_tree tree53 /\ roomy tree53 /\
  scaling_ok (fst (threaded 0 tree53)) /\ uniform_leaves (fst (threaded 0 tree53)) /\ same_pages (fst (threaded 0 tree53)) /\
  decompile default_db blob53 = Ok tree53 /\ compile default_db false tree53 <> compile default_db true tree53.
Proof.
  split; [exact tidy53|]. destruct C53_case as [_ [_ [_ [_ [_ [_ [_ [_ [_ [H [D _]]]]]]]]]]].
  split; [exact D|]. rewrite H, flat53_is. destruct leaves53 as [A1 [A2 [A4 [A5 A6]]]]. do 5 (split; [assumption|]). split; [reflexivity|]. clear.
  intros X. apply (f_equal (fun r => match r with Ok b => length b | Err _ => 0%nat end)) in X. vm_compute in X. discriminate X.
Qed.

(** C58 is false already for a button of one bit followed by an axis of
    three. *)
Theorem C58_refuted : exists blob ws t b, blob_means blob ws /\ decompile default_db blob = Ok t /\
  compile default_db false t = Ok b /\ forall ev, reads_as b ev -> placed [] ev <> placed [] (host_view AtMain ws).
Proof.
  destruct bad53_ok as [M [D _]]. destruct bad53_moved as [b [C Q]].
  exists bad53, (map wire items53), tree_bad53, b. repeat (split; [assumption|]). exact Q.
Qed.
Print Assumptions C58_refuted.
