(* Properties_Accept.v -- C54 to C56: what the decompiler and the compiler
   accept. *)
From Verif Require Import Py Usage Item Parser Optimizer Descriptor Extractor TextFormats UsageModules HidSpec Spec StreamSpec OptSpec AllSpec
  ExtractSpec Dumper PyExpr DumpSpec ItemFacts ParserFacts OptFacts PassFacts StreamTree Properties_Stream ExtractAgain Properties_Extract
  Properties_Dump Properties_Names AcceptSpec ExtractAccept CompileAccept OptAccept AcceptBlob.
Local Open Scope list_scope.
Local Open Scope Z_scope.

(** Full statement (false, see C54_refuted): without [clear_stream].  Missing
    as well: Push and Pop. *)
Theorem C54_partial db blob ws : blob_means blob ws -> Forall number_allowed ws -> Forall long_form_needed ws ->
  unstacked (map w_what ws) -> closes (map w_cls ws) -> clear_stream [] (main_states ws) ->
  exists t, decompile db blob = Ok t.
Proof. exact (c54_blob db blob ws). Qed.
Print Assumptions C54_partial.

Ltac clear_item :=
  let H := fresh in
  cbn [clear_data]; intros H;
  first [solve [vm_compute in H; discriminate H]|clear H; split; [plain_tab|]; intros H;
         first [solve [vm_compute in H; discriminate H]
               |split; [intros _; do 2 eexists; split; [reflexivity|split; discriminate]|intros _ _; vm_compute; discriminate]]].
Ltac clears :=
  match goal with |- clear_stream ?o ?e => let e' := eval vm_compute in e in change (clear_stream o e') end;
  repeat (cbn [clear_stream tl]; match goal with
  | |- True => exact I
  | |- clear_data _ _ /\ _ => split; [clear_item|]
  | |- clear_stream _ _ => idtac
  end).
Ltac allowed := match goal with |- Forall _ ?q => let q' := eval vm_compute in q in change q with q' end;
  repeat apply Forall_cons; [..|apply Forall_nil]; intros [X|[X|X]]; first [discriminate X|reflexivity].
Ltac longs := match goal with |- Forall _ ?q => let q' := eval vm_compute in q in change q with q' end;
  repeat apply Forall_cons; [..|apply Forall_nil]; let X := fresh in intros _ X; first [discriminate X|vm_compute; discriminate].

(** a usage for each of the three values of an array, a range, a constant and
    nested collections *)
Definition clear54 := items
  [(UsagePage, 1); (Usage, 2); (Collection, 1); (Usage, 1); (Collection, 0); (ReportID, 4);
   (UsagePage, 9); (UsageMinimum, 1); (UsageMaximum, 3); (LogicalMinimum, 0); (LogicalMaximum, 1); (ReportCount, 3); (ReportSize, 1); (Input, 2);
   (ReportCount, 1); (ReportSize, 5); (Input, 1);
   (UsagePage, 1); (LogicalMinimum, 1); (LogicalMaximum, 3); (ReportSize, 2); (ReportCount, 4); (Usage, 0x90); (Usage, 0x91); (Usage, 0x92); (Output, 0);
   (EndCollection, 0); (EndCollection, 0)].
Definition blob54 : list Z := match serialize clear54 with Ok b => b | Err _ => [] end.

Example C54_case : blob_means blob54 (map wire clear54) /\ Forall number_allowed (map wire clear54) /\ Forall long_form_needed (map wire clear54) /\
  unstacked (map w_what (map wire clear54)) /\ closes (map w_cls (map wire clear54)) /\ clear_stream [] (main_states (map wire clear54)) /\
  match decompile empty_db blob54 with
  | Ok t => map (fun v => (v_kind v, py_int (v_way v), v_size v, v_count v)) (leaf_values (scoped 0 t))
            = [(KValue, 8, 1, 1); (KValue, 8, 1, 1); (KValue, 8, 1, 1); (KPadding, 8, 5, 1);
               (KValue, 9, 2, 1); (KValue, 9, 2, 1); (KValue, 9, 2, 1); (KValue, 9, 2, 1)]
  | Err _ => False
  end.
Proof.
  split; [apply serialize_means; vm_compute; reflexivity|]. split; [allowed|]. split; [longs|].
  split; [vm_compute; repeat constructor; discriminate|].
  split; [match goal with |- closes ?l => closed_by (removelast l) end|]. split; [clears|]. vm_compute. reflexivity.
Qed.

(** Streams the decompiler rejects, each with another exception: a data item
    with a usage for each value outside of any collection, the same in a
    NamedArray collection that already has a member, the same in a Logical
    collection without usage, an array of no logical value. *)
Definition rejected54 : list (list item * exn) :=
  [(items [(LogicalMinimum, 0); (LogicalMaximum, 0); (ReportSize, 8); (ReportCount, 1); (Usage, 0x10030); (Input, 2);
           (Usage, 0x10002); (Collection, 1); (EndCollection, 0)], AttributeError);
   (items [(Usage, 0x10002); (Collection, 4); (LogicalMinimum, 0); (LogicalMaximum, 7); (ReportSize, 8); (ReportCount, 1); (Usage, 0x10030); (Input, 2);
           (LogicalMaximum, 0); (Usage, 0x10030); (Input, 2); (EndCollection, 0)], AssertionError);
   (items [(Collection, 2); (LogicalMinimum, 0); (LogicalMaximum, 0); (ReportSize, 8); (ReportCount, 1); (Usage, 0x10030); (Input, 2);
           (EndCollection, 0)], TypeError);
   (items [(Usage, 0x10002); (Collection, 1); (LogicalMinimum, 1); (LogicalMaximum, 0); (ReportSize, 8); (ReportCount, 1); (Input, 0);
           (EndCollection, 0)], ValueError)].

Theorem C54_refuted : Forall (fun x => exists blob, blob_means blob (map wire (fst x)) /\
  Forall number_allowed (map wire (fst x)) /\ Forall long_form_needed (map wire (fst x)) /\
  unstacked (map w_what (map wire (fst x))) /\ closes (map w_cls (map wire (fst x))) /\
  decompile empty_db blob = Err (snd x)) rejected54.
Proof.
  unfold rejected54. repeat apply Forall_cons; [..|apply Forall_nil]; cbn [fst snd].
  all: match goal with |- exists b, blob_means b (map wire ?l) /\ _ => exists (match serialize l with Ok b => b | Err _ => [] end) end.
  all: split; [apply serialize_means; vm_compute; reflexivity|]; split; [allowed|]; split; [longs|].
  all: split; [vm_compute; repeat constructor; discriminate|].
  all: split; [match goal with |- closes ?l => closed_by (removelast l) end|]; vm_compute; reflexivity.
Qed.
Print Assumptions C54_refuted.

(** The trees that compile without the optimiser are exactly those whose
    numbers fit in the items that hold them, whose collections have a usage
    and whose values are Inputs, Outputs or Features of a report below 256. *)
Theorem C55 db t : kinds_ok t -> modest t -> ((exists b, compile db false t = Ok b) <-> storable t).
Proof. exact (c55 db t). Qed.
Print Assumptions C55.

Definition one55 (way usage size lmin lmax count : Z) : result value :=
  mk_value KValue (VArgs (VInt way) (Some (VInt usage)) size (VInt 2) (Some lmin) (Some lmax) None None None (VInt 0) 0 0 0 count None).
Definition in55 (r : result value) : tree := TColl (VInt 1) mouse [TReport 3 [tv r]].

(** at the limits, and beyond one of them *)
Definition fits55 := in55 (one55 8 (2 ^ 32 - 1) (2 ^ 32 - 1) (- 2 ^ 31) (2 ^ 31 - 1) (2 ^ 32 - 1)).
Definition beyond55 : list tree :=
  [in55 (one55 8 (2 ^ 32) 8 0 1 1); in55 (one55 8 0x10030 (2 ^ 32) 0 1 1); in55 (one55 8 0x10030 8 (- 2 ^ 31 - 1) 1 1);
   in55 (one55 8 0x10030 8 0 (2 ^ 31) 1); in55 (one55 8 0x10030 8 0 1 (2 ^ 32)); in55 (one55 10 0x10030 8 0 1 1);
   TReport 256 [tv small]; TReport (2 ^ 32) []; TReport (-1) []; TColl (VInt (2 ^ 32)) mouse []; TColl (VInt 1) None [];
   TColl (VInt 1) (Some (VInt (-1))) []].

Ltac small_steps := unfold modest; match goal with |- Forall _ ?q => let q' := eval vm_compute in q in change q with q' end;
  repeat apply Forall_cons; [..|apply Forall_nil]; first [exact I|vm_compute; discriminate].

Example C55_case : (kinds_ok fits55 /\ modest fits55 /\ storable fits55 /\ exists b, compile empty_db false fits55 = Ok b) /\
  Forall (fun t => kinds_ok t /\ modest t /\ (~ storable t) /\ exists e, compile empty_db false t = Err e) beyond55.
Proof.
  assert (G : forall t e, kinds_ok t -> modest t -> compile empty_db false t = Err e ->
    kinds_ok t /\ modest t /\ (~ storable t) /\ exists e, compile empty_db false t = Err e).
  { intros t e K M H. split; [exact K|]. split; [exact M|]. split; [|eauto]. intros ST.
    apply (C55 empty_db t K M) in ST. destruct ST as [b ST]. rewrite H in ST. discriminate ST. }
  split.
  - assert (K : kinds_ok fits55) by (vm_compute; repeat split; discriminate).
    assert (M : modest fits55) by small_steps.
    assert (C : exists b, compile empty_db false fits55 = Ok b) by (eexists; vm_compute; reflexivity).
    split; [exact K|]. split; [exact M|]. split; [apply (C55 empty_db fits55 K M); exact C|exact C].
  - unfold beyond55. repeat apply Forall_cons; [..|apply Forall_nil].
    all: eapply G; [vm_compute; repeat split; discriminate|small_steps|vm_compute; reflexivity].
Qed.

(** What compiles without the optimiser compiles with it, as long as no count
    together with the number of fields and gaps exceeds an item.  Full
    statement (false, see C56_refuted): without [roomy]. *)
Theorem C56_partial db t b : well_formed t -> roomy t -> compile db false t = Ok b -> exists b', compile db true t = Ok b'.
Proof. exact (c56 db t b). Qed.
Print Assumptions C56_partial.

Example C56_case : well_formed tree49 /\ roomy tree49 /\
  exists b b', compile default_db false tree49 = Ok b /\ compile default_db true tree49 = Ok b' /\ (length b' < length b)%nat.
Proof.
  split; [exact (proj1 C49_case)|]. split.
  - unfold roomy. split; [vm_compute; reflexivity|].
    match goal with |- Forall _ ?q => let q' := eval vm_compute in q in change q with q' end.
    repeat apply Forall_cons; [..|apply Forall_nil]; intros _; vm_compute; reflexivity.
  - do 2 eexists. split; [vm_compute; reflexivity|]. split; [vm_compute; reflexivity|]. vm_compute. repeat constructor.
Qed.

(** joined fields whose counts add up to 2^32 *)
Theorem C56_refuted : exists t b, well_formed t /\ compile empty_db false t = Ok b /\ compile empty_db true t = Err StructError.
Proof.
  exists (TColl (VInt 1) mouse [tv (one55 8 0x10030 8 0 1 1); tv (one55 8 0x10031 8 0 1 (2 ^ 32 - 1))]). eexists.
  split; [wf|]. split; vm_compute; reflexivity.
Qed.
Print Assumptions C56_refuted.

(** The converse is false: a usage beyond 32 bits is split into a page and a
    number that fit. *)
Theorem C56_split_usage : exists t b, well_formed t /\ compile empty_db true t = Ok b /\ compile empty_db false t = Err StructError.
Proof.
  exists (in55 (one55 8 (2 ^ 32 + 0x30) 8 0 1 1)). eexists. split; [unfold in55; wf|]. split; vm_compute; reflexivity.
Qed.
Print Assumptions C56_split_usage.
