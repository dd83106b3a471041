(* Properties_Optimizer.v -- C23 (optimised), C30 to C43: the optimiser. *)
From Verif Require Import Py Usage Item Parser Optimizer Descriptor Converter HidSpec Spec StreamSpec StreamProofs StreamTree
  ItemFacts ParserFacts OptSpec OptFacts MainMergeFacts Skeleton PassFacts RangeFacts GlobalFacts PageFacts MergeFacts PhysFacts DesigFacts Properties_Stream.
From Verif Require UsageModules.
Local Open Scope Z_scope.

(** C23 for the optimised stream: collections open and close in balance. *)
Theorem C23_optimised : forall db t l, stream_items db t = Ok l -> balanced (map ic (optimize db l)).
Proof. exact c23_optimised. Qed.
Print Assumptions C23_optimised.

Example C23_optimised_case :
  exists l, stream_items empty_db
    (TColl (VNamed "Application" 1) (Some (VInt 0x10002)) [TColl (VNamed "Physical" 0) (Some (VInt 0x10001)) [tv small; tv large]]) = Ok l
  /\ map ic (optimize empty_db l) =
     [UsagePage; Usage; Collection; Usage; Collection; LogicalMinimum; LogicalMaximum; ReportSize; ReportCount; UsagePage;
      Usage; Input; Input; LogicalMaximum; ReportSize; UsagePage; Usage; Input; EndCollection; EndCollection].
Proof. eexists. split; [vm_compute; reflexivity|]. vm_compute. reflexivity. Qed.

(** C30: [Optimizer.new] runs the selected passes one after the other, each
    over the complete output of the previous one, whatever the stream below. *)
Theorem C30 : forall db stream mn mx l,
  run_pass (optimizer_new db stream mn mx) l =
  run_pass stream
    (fold_left (fun l e => if (mn <? fst e) && (fst e <? mx) then run_pass (snd e) l else l)
      [(70, designator_uniq); (60, main_merge); (50, physical_merge); (40, global_merge);
       (35, string_merge db); (30, designator_merge db); (20, usage_merge db); (10, usage_page_pass db)] l).
Proof. exact c30_fold. Qed.
Print Assumptions C30.

Example C30_case :
  let l := items [(UsagePage, 1); (Usage, 0x10001); (Usage, 0x10002); (Usage, 0x10003); (Collection, 1); (EndCollection, 0)] in
  map cv (run_pass (optimizer_new empty_db sink 15 25) l) =
    [(UsagePage, 1); (UsageMinimum, 0x10001); (UsageMaximum, 0x10003); (Collection, 1); (EndCollection, 0)] /\
  map cv (run_pass (optimizer_new empty_db sink 0 100) l) =
    [(UsagePage, 1); (UsageMinimum, 1); (UsageMaximum, 3); (Collection, 1); (EndCollection, 0)].
Proof. split; vm_compute; reflexivity. Qed.

(** C31: the main items keep their order; only runs of equal data items may
    become one. *)
Theorem C31 : forall db l, collapse (mains (map cv (optimize db l))) = collapse (mains (map cv l)).
Proof. exact c31. Qed.
Print Assumptions C31.

Example C31_case :
  let l := items [(Collection, 1); (ReportSize, 4); (ReportCount, 1); (Input, 2); (ReportCount, 1); (Input, 2);
                  (Collection, 0); (Input, 2); (EndCollection, 0); (Output, 2); (EndCollection, 0)] in
  mains (map cv (optimize empty_db l)) =
    [(Collection, 1); (Input, 2); (Collection, 0); (Input, 2); (EndCollection, 0); (Output, 2); (EndCollection, 0)] /\
  length (mains (map cv l)) = 8%nat.
Proof. split; vm_compute; reflexivity. Qed.

(** C32: a host finds the same collections and, for every kind of report and
    report id, fields of the same sizes. *)
Theorem C32 : forall db m l,
  Forall constructed l -> push_free l -> ends l ->
  map place_of (seen m (optimize db l)) = map place_of (seen m l) /\
  forall way rid, report_bits way rid (seen m (optimize db l)) = report_bits way rid (seen m l).
Proof. exact c32_bits. Qed.
Print Assumptions C32.

Example C32_case :
  let l := items [(Collection, 1); (ReportSize, 4); (ReportID, 2); (ReportCount, 3); (Input, 2); (ReportCount, 1); (Input, 2);
                  (ReportID, 3); (Input, 2); (EndCollection, 0)] in
  Forall constructed l /\ push_free l /\ ends l /\ report_bits Input 2 (seen AtDecl (optimize empty_db l)) = 16.
Proof.
  intros l.
  split; [apply items_built|]. split; [repeat constructor; discriminate|].
  split; [|vm_compute; reflexivity].
  eexists (removelast l), (Item EndCollection (VInt 0)). split; [vm_compute; reflexivity|]. split; reflexivity.
Qed.

(** C33: without Push and Pop, merging globals leaves the host's view and
    leaves no global item that writes again what is written. *)
Theorem C33 : forall m l, push_free l ->
  seen m (run_pass global_merge l) = seen m l /\ no_repeats defaults (map cv (run_pass global_merge l)).
Proof. exact c33. Qed.
Print Assumptions C33.

Example C33_case :
  let l := items [(Unit, 0); (LogicalMaximum, 5); (ReportSize, 4); (LogicalMaximum, 5); (ReportCount, 1); (Input, 2);
                  (ReportSize, 4); (LogicalMaximum, 6); (Input, 2)] in
  push_free l /\
  map cv (run_pass global_merge l) =
    [(LogicalMaximum, 5); (ReportSize, 4); (ReportCount, 1); (Input, 2); (LogicalMaximum, 6); (Input, 2)].
Proof. split; [repeat constructor; discriminate|vm_compute; reflexivity]. Qed.

(** C34 is false in general: what a Pop restores is not taken into account. *)
Theorem C34_refuted :
  exists l, Forall constructed l /\ seen AtDecl (run_pass global_merge l) <> seen AtDecl l.
Proof. exact c34_refuted. Qed.
Print Assumptions C34_refuted.

(** C34 for the streams in which an item that writes again what was written
    last finds that value in force.  Missing: the streams where a Pop has
    changed the value in between, for which C34 is false. *)
Theorem C34_partial : forall m l, fresh defaults (g_init, []) (map cv l) ->
  seen m (run_pass global_merge l) = seen m l /\ no_repeats defaults (map cv (run_pass global_merge l)).
Proof. exact c34. Qed.
Print Assumptions C34_partial.

Example C34_case :
  let l := items [(LogicalMaximum, 5); (ReportSize, 4); (ReportCount, 1); (Push, 0); (LogicalMaximum, 7); (Input, 2);
                  (LogicalMaximum, 7); (Pop, 0); (Input, 2)] in
  fresh defaults (g_init, []) (map cv l) /\ length (run_pass global_merge l) = 8%nat.
Proof.
  split; [|vm_compute; reflexivity].
  cbn. repeat split; intros; try discriminate; try contradiction; try reflexivity.
Qed.

(** C35 for strings and designators: a host expands the same lists, and
    three or more consecutive values become one range. *)
Theorem C35_partial : forall db lk mn mx m l,
  In (lk, mn, mx) [(StringIndex, StringMinimum, StringMaximum);
                   (DesignatorIndex, DesignatorMinimum, DesignatorMaximum)] ->
  Forall constructed l ->
  seen m (run_pass (range_merge db lk mn mx) l) = seen m l /\
  Forall2 (merged_chunk lk mn mx) (chunks (map cv l)) (chunks (map cv (run_pass (range_merge db lk mn mx) l))).
Proof. exact c35. Qed.
Print Assumptions C35_partial.

(** C35 for usages, when those of each main item are all with their page or
    all without and settled on one page, and not delimited.  Missing: other
    streams, for which C35 is false. *)
Theorem C35_usages_partial : forall db m l, Forall constructed l ->
  (Forall plain_usages (chunks (map cv l)) -> seen m (run_pass (usage_merge db) l) = seen m l) /\
  Forall2 (merged_chunk Usage UsageMinimum UsageMaximum) (chunks (map cv l))
          (chunks (map cv (run_pass (usage_merge db) l))).
Proof. exact c35_usages. Qed.
Print Assumptions C35_usages_partial.

Theorem C35_refuted : exists l1 l2 l3, Forall constructed l1 /\ Forall constructed l2 /\ Forall constructed l3 /\
  Forall (fun i => ic i <> Delimiter) (l1 ++ l2) /\
  (forall m, seen m (run_pass (usage_merge empty_db) l2) <> seen m l2) /\
  seen AtDecl (run_pass (usage_merge empty_db) l1) <> seen AtDecl l1 /\
  (forall m, seen m (run_pass (usage_merge empty_db) l3) <> seen m l3).
Proof. exact c35_refuted. Qed.
Print Assumptions C35_refuted.

Example C35_case :
  let l := items [(ReportSize, 1); (ReportCount, 4); (StringIndex, 3); (Usage, 0x90001); (StringIndex, 4); (Usage, 0x90002);
                  (StringIndex, 5); (Usage, 0x90003); (Usage, 0x90004); (Input, 2)] in
  Forall plain_usages (chunks (map cv l)) /\
  map cv (run_pass (string_merge empty_db) (run_pass (usage_merge empty_db) l)) =
   [(ReportSize, 1); (ReportCount, 4); (UsageMinimum, 0x90001); (UsageMaximum, 0x90004); (StringMinimum, 3);
    (StringMaximum, 5); (Input, 2)].
Proof.
  split; [|vm_compute; reflexivity]. cbn. repeat constructor; cbn; try discriminate.
Qed.

(** C36 for streams without Push and Pop: a host reads the same full usages,
    the other items stay as they are, and a page is written only when it
    changes.  A host that binds the page at the main item reads the same as
    well when the usages of each main item are of one page. *)
Theorem C36_partial : forall db l, Forall constructed l -> push_free l -> extended (map cv l) ->
  let out := run_pass (usage_page_pass db) l in
  seen AtDecl out = seen AtDecl l /\
  no_pages (map cv out) = map strip (no_pages (map cv l)) /\
  (pages (map cv l) = [] -> no_repeats (fun _ => None) (pages (map cv out))) /\
  (Forall (fun c => page_settled c /\ one_page c) (chunks (map cv l)) -> seen AtMain out = seen AtMain l).
Proof. exact c36. Qed.
Print Assumptions C36_partial.

(** C36 is false with Push and Pop: the pass does not see that a Pop restores
    the page. *)
Theorem C36_refuted : exists l, Forall constructed l /\ extended (map cv l) /\
  seen AtDecl (run_pass (usage_page_pass empty_db) l) <> seen AtDecl l.
Proof.
  exists (items [(ReportSize, 1); (ReportCount, 1); (Usage, 0x10030); (Push, 0); (Usage, 0x90001); (Input, 2); (Pop, 0);
                 (Usage, 0x90002); (Input, 2)]).
  split; [apply items_built|]. split; [vm_compute; repeat constructor; discriminate|]. vm_compute. discriminate.
Qed.
Print Assumptions C36_refuted.

Example C36_case :
  let l := items [(ReportSize, 1); (ReportCount, 2); (Usage, 0x90001); (Usage, 0x90002); (Input, 2); (Usage, 0x10030);
                  (Input, 2)] in
  push_free l /\ extended (map cv l) /\ Forall (fun c => page_settled c /\ one_page c) (chunks (map cv l)) /\
  map cv (run_pass (usage_page_pass empty_db) l) =
   [(ReportSize, 1); (ReportCount, 2); (UsagePage, 9); (Usage, 1); (Usage, 2); (Input, 2); (UsagePage, 1); (Usage, 0x30);
    (Input, 2)].
Proof.
  split; [vm_compute; repeat constructor; discriminate|]. split; [vm_compute; repeat constructor; discriminate|].
  split; [|vm_compute; reflexivity].
  match goal with |- Forall _ ?x => let y := eval vm_compute in x in change x with y end.
  repeat apply Forall_cons; [..|apply Forall_nil]; (split; [vm_compute; repeat constructor; discriminate|]);
    [exists 9|exists 1|exists 0]; repeat apply Forall_cons; try apply Forall_nil; cbn [fst snd usage_tag];
    intros Q; discriminate Q || reflexivity.
Qed.

(** C37 when consecutive main items with the same report, flags and
    attributes, the first a single field, are uniform: variables with one
    usage, string and designator each or none, arrays with the same ones.
    Missing: the other streams, for which C37 is false. *)
Theorem C37_partial : forall m l, Forall constructed l -> push_free l -> ends l ->
  joins (uniform m) (main_states (map wire l)) -> seen m (run_pass main_merge l) = seen m l.
Proof. exact c37. Qed.
Print Assumptions C37_partial.

(** C37 is false in general: a string or designator that one of the fields
    has moves to another, different arrays become one, and the end of the
    stream moves usages. *)
Theorem C37_refuted : Forall (fun l => Forall constructed l /\ push_free l /\ forall m, seen m (run_pass main_merge l) <> seen m l)
  [leak; data_last; arrays] /\ ends leak /\ ends arrays.
Proof. exact c37_refuted. Qed.
Print Assumptions C37_refuted.

Example C37_case :
  let l := items [(ReportSize, 1); (ReportCount, 1); (Usage, 0x90001); (StringIndex, 3); (Input, 2); (Usage, 0x90002); (StringIndex, 4); (Input, 2);
                  (Usage, 0x90003); (StringIndex, 5); (Input, 2); (LogicalMaximum, 7); (Usage, 0x10030); (Input, 2); (EndCollection, 0)] in
  push_free l /\ ends l /\ (forall m, joins (uniform m) (main_states (map wire l))) /\
  map cv (run_pass main_merge l) =
   [(ReportSize, 1); (Usage, 0x90001); (StringIndex, 3); (Usage, 0x90002); (StringIndex, 4); (Usage, 0x90003); (StringIndex, 5);
    (ReportCount, 3); (Input, 2); (LogicalMaximum, 7); (Usage, 0x10030); (ReportCount, 1); (Input, 2); (EndCollection, 0)].
Proof.
  intros l. split; [vm_compute; repeat constructor; discriminate|].
  split; [exists (removelast l), (Item EndCollection (VInt 0)); split; [vm_compute; reflexivity|split; reflexivity]|].
  split; [|vm_compute; reflexivity].
  intros m l1 e1 e2 l2 E J.
  match type of E with ?x = _ => let y := eval vm_compute in x in change x with y in E end.
  assert (L : (length l1 <= 3)%nat) by (apply (f_equal (@length _)) in E; rewrite app_length in E; cbn [length] in E; lia).
  destruct l1 as [|? [|? [|? [|? ?]]]]; [..|cbn [length] in L; lia]; cbn [app] in E; injection E; intros; subst; clear E L.
  all: try (destruct J as [_ [_ [_ [J _]]]]; discriminate J).
  all: try (destruct J as [_ [J _]]; discriminate J).
  all: cbn [uniform]; split; [reflexivity|]; split; [unfold paired; repeat apply Forall_cons; try apply Forall_nil; split; reflexivity|]; intros _;
    (split; [reflexivity|]); (split; [reflexivity|]); destruct m; vm_compute;
    (split; [left; split; [reflexivity|discriminate]|]); (split; [right; split; reflexivity|]); left; (split; [reflexivity|discriminate]).
Qed.

(** C38 for streams that set all four bounds together, or physical bounds 0
    only, and where no field relies on dropped bounds to undo others (see
    [physical_ok]).  Missing: the other streams, for which C38 is false. *)
Theorem C38_partial : forall m l, push_free l -> physical_ok (0, 0) (0, 0) (chunks (map cv l)) ->
  seen m (run_pass physical_merge l) = seen m l.
Proof. exact c38. Qed.
Print Assumptions C38_partial.

Example C38_case :
  let l := items [(PhysicalMinimum, 0); (PhysicalMaximum, 100); (LogicalMinimum, 0); (LogicalMaximum, 100); (ReportSize, 8); (ReportCount, 1);
                  (Input, 2); (PhysicalMinimum, -10); (PhysicalMaximum, 10); (LogicalMinimum, 0); (LogicalMaximum, 100);
                  (Input, 2); (Input, 2); (EndCollection, 0)] in
  push_free l /\ physical_ok (0, 0) (0, 0) (chunks (map cv l)) /\ length (run_pass physical_merge l) = 12%nat.
Proof.
  split; [vm_compute; repeat constructor; discriminate|]. split; [|vm_compute; reflexivity].
  match goal with |- physical_ok _ _ ?x => let y := eval vm_compute in x in change x with y end.
  cbn [physical_ok].
  right. right. exists 0, 100, 0, 100. split; [vm_compute; repeat split|]. left. split; [reflexivity|]. split; [left; reflexivity|].
  right. right. exists (-10), 10, 0, 100. split; [vm_compute; repeat split|]. right. split; [discriminate|].
  left. split; [repeat constructor|]. left. split; [repeat constructor|]. left. split; [repeat constructor|]. exact I.
Qed.

(** C38 is false in general, also for compiled trees: a value with its own
    physical range, then an array with a usage; or a value from 0 to 0. *)
Definition scaled := mk_value KValue (VArgs input (Some (VInt 0x10030)) 8 (VInt 2) (Some 0) (Some 100) (Some (-10)) (Some 10) None
  (VInt 0) 0 0 0 1 None).
Definition nil_range := mk_value KValue (VArgs input (Some (VInt 0x10031)) 8 (VInt 2) (Some 0) (Some 0) None None None
  (VInt 0) 0 0 0 1 None).
Definition app_of (ms : list tree) : tree := TColl (VNamed "Application" 1) (Some (VInt 0x10002)) ms.

Theorem C38_refuted : Forall (fun t => exists l, well_formed t /\ stream_items empty_db t = Ok l /\
    forall m, seen m (run_pass physical_merge l) <> seen m l)
  [app_of [tv scaled; tv array_named]; app_of [tv scaled; tv nil_range]].
Proof.
  repeat apply Forall_cons; [..|apply Forall_nil].
  - eexists. split; [unfold app_of; wf|]. split; [vm_compute; reflexivity|]. intros []; vm_compute; discriminate.
  - eexists. split; [unfold app_of; wf|]. split; [vm_compute; reflexivity|]. intros []; vm_compute; discriminate.
Qed.
Print Assumptions C38_refuted.

(** C39 when the DesignatorIndex items before each main item are in one run
    of local items, without ranges, or none is 0.  [zero_desig] takes
    designator 0 for none.  Missing: the other streams, for which C39 is
    false. *)
Theorem C39_partial : forall m l, Forall designators_ok (chunks (map cv l)) ->
  map zero_desig (seen m (run_pass designator_uniq l)) = map zero_desig (seen m l).
Proof. exact c39. Qed.
Print Assumptions C39_partial.

Example C39_case :
  let l := items [(ReportSize, 1); (ReportCount, 1); (DesignatorIndex, 0); (Usage, 0x90001); (LogicalMaximum, 1); (Input, 2);
                  (DesignatorIndex, 0); (DesignatorIndex, 3); (ReportCount, 2); (Input, 2); (EndCollection, 0)] in
  Forall designators_ok (chunks (map cv l)) /\ length (run_pass designator_uniq l) = 10%nat /\
  exists e, In e (seen AtDecl l) /\ zero_desig e <> e.
Proof.
  split; [|split; [vm_compute; reflexivity|]].
  - match goal with |- Forall _ ?x => let y := eval vm_compute in x in change x with y end.
    repeat apply Forall_cons; [..|apply Forall_nil]; right; (split; [repeat constructor; discriminate|]); unfold cv; cbn [ic ival].
    all: repeat first [apply or_nil | apply or_skip; [discriminate|] | apply or_next; [reflexivity|] | apply or_last; repeat constructor; discriminate].
  - eexists. split; [vm_compute; left; reflexivity|]. vm_compute. discriminate.
Qed.

(** C39 is false in general: the second designator, after a global item,
    becomes that of the first field. *)
Theorem C39_refuted : exists l, Forall constructed l /\ push_free l /\
  forall m, map zero_desig (seen m (run_pass designator_uniq l)) <> map zero_desig (seen m l).
Proof.
  exists (items [(ReportSize, 1); (DesignatorIndex, 0); (ReportCount, 2); (DesignatorIndex, 3); (Input, 2); (EndCollection, 0)]).
  split; [apply items_built|]. split; [vm_compute; repeat constructor; discriminate|]. intros []; vm_compute; discriminate.
Qed.
Print Assumptions C39_refuted.

(** C41 is false: an ordinary descriptor (page, short usage, collection) gets
    a page 0 before its usage. *)
Theorem C41_refuted : exists b ws out ws',
  blob_means b ws /\ convert_opt UsageModules.default_db b = Ok out /\ blob_means out ws' /\
  forall m, host_view m ws <> host_view m ws'.
Proof.
  exists [0x05; 1; 0x09; 2; 0xa1; 1; 0xc0],
    [W UsagePage 1 false; W Usage 2 false; W Collection 1 false; W EndCollection 0 false],
    [0x05; 1; 0x05; 0; 0x09; 2; 0xa1; 1; 0xc0],
    [W UsagePage 1 false; W UsagePage 0 false; W Usage 2 false; W Collection 1 false; W EndCollection 0 false].
  split; [|split; [vm_compute; reflexivity|split; [|intros []; vm_compute; discriminate]]].
  - exists [Raw 1 0 [1]; Raw 2 0 [2]; Raw 0 10 [1]; Raw 0 12 []]. split; [|reflexivity].
    apply (si_cons 0x05 [1] [0x09; 2; 0xa1; 1; 0xc0]); try (repeat constructor; discriminate).
    apply (si_cons 0x09 [2] [0xa1; 1; 0xc0]); try (repeat constructor; discriminate).
    apply (si_cons 0xa1 [1] [0xc0]); try (repeat constructor; discriminate).
    apply (si_cons 0xc0 [] []); try (repeat constructor; discriminate).
  - exists [Raw 1 0 [1]; Raw 1 0 [0]; Raw 2 0 [2]; Raw 0 10 [1]; Raw 0 12 []]. split; [|reflexivity].
    apply (si_cons 0x05 [1] [0x05; 0; 0x09; 2; 0xa1; 1; 0xc0]); try (repeat constructor; discriminate).
    apply (si_cons 0x05 [0] [0x09; 2; 0xa1; 1; 0xc0]); try (repeat constructor; discriminate).
    apply (si_cons 0x09 [2] [0xa1; 1; 0xc0]); try (repeat constructor; discriminate).
    apply (si_cons 0xa1 [1] [0xc0]); try (repeat constructor; discriminate).
    apply (si_cons 0xc0 [] []); try (repeat constructor; discriminate).
Qed.
Print Assumptions C41_refuted.
