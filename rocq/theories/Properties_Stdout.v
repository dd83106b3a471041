(* Properties_Stdout.v -- C92: what the decompiler writes to standard output
   is the script. *)
From Verif Require Import Py Usage Item Parser Optimizer Descriptor Extractor TextFormats UsageModules HidSpec Spec StreamSpec OptSpec AllSpec
  ExtractSpec Dumper PyExpr DumpSpec Tools Stdout ItemFacts ParserFacts OptFacts PassFacts CodecProofs ExtractAgain DumpFacts DumpProofs DumpExtract
  Properties_Dump Properties_Accept Properties_Verdict AcceptSpec VerdictSpec VerdictProofs StdoutSpec StdoutProofs.
Local Open Scope list_scope.
Local Open Scope Z_scope.

(** C92: standard output is the remarks of StdoutSpec, then the script. *)
Theorem C92_exactly : forall db blob ws s, blob_means blob ws -> Forall number_allowed ws -> decompile_text db blob = Ok s ->
  decompile_stdout db blob = Ok (lines (remarks db [] false (sights g_init [] (map w_what ws))) ++ s).
Proof. exact c92_exactly. Qed.
Print Assumptions C92_exactly.

(** Full statement (false, see C92_refuted): without [tidy].  Each array with
    a usage per value has at least two usages, in a row. *)
Theorem C92_partial : forall blob ws t, blob_means blob ws -> Forall number_allowed ws -> Forall tidy (sights g_init [] (map w_what ws)) ->
  decompile default_db blob = Ok t -> dumpable t ->
  exists s t', decompile_stdout default_db blob = Ok s /\ script s t' /\ same_tree t t'.
Proof.
  intros blob ws t B N T H D. destruct (c50 blob t H D) as [s [t' [S [X Y]]]]. exists s, t'.
  split; [exact (c92_tidy default_db blob ws s B N T S)|auto].
Qed.
Print Assumptions C92_partial.

(** a single remark and standard output is no script of anything *)
Theorem C92_only : forall db blob ws s out t, blob_means blob ws -> Forall number_allowed ws -> decompile_text db blob = Ok s ->
  decompile_stdout db blob = Ok out -> script out t -> remarks db [] false (sights g_init [] (map w_what ws)) = [] /\ out = s.
Proof. exact c92_only. Qed.
Print Assumptions C92_only.

(** the command on a binary descriptor: with a named file the script is in the
    file and nothing else is *)
Theorem C92_file : forall loc db blob s, decompile_text db blob = Ok s ->
  (exists said, decompiler_run loc db "binary" Standard Named blob = Ok (said, s)) /\
  (exists out, decompiler_run loc db "binary" Standard Standard blob = Ok (out, []) /\ decompile_stdout db blob = Ok out).
Proof.
  intros loc db blob s H. split; rewrite c92_tool, H; cbn [bind]; [eauto|].
  destruct (decompile_stdout db blob) as [out|e] eqn:E; cbn [bind]; [eauto|]. unfold decompile_stdout in E. rewrite H in E. discriminate E.
Qed.
Print Assumptions C92_file.

(** two arrays that are remarked upon, one that is a range, one that stands for
    its collection, one without fields, and a range that is not an array *)
Definition noisy92 : list item := items
  [(Usage, 0x10002); (Collection, 1); (ReportSize, 2); (ReportCount, 2); (LogicalMinimum, 1); (LogicalMaximum, 3);
   (Usage, 0xc00e9); (Usage, 0xc00ea); (Usage, 0xc00e2); (Input, 0);
   (UsageMinimum, 0xc00e9); (UsageMaximum, 0xc00eb); (Input, 0);
   (ReportCount, 1); (LogicalMaximum, 1); (Usage, 0xc00e2); (Output, 0);
   (LogicalMaximum, 2); (Usage, 0xf0025); (Collection, 2); (Usage, 0xf0026); (Usage, 0xf0028); (Output, 0); (EndCollection, 0);
   (ReportCount, 0); (Usage, 0xf0026); (Usage, 0xf0028); (Feature, 0);
   (ReportCount, 2); (Usage, 0xf0026); (Usage, 0xf0028); (Feature, 2);
   (EndCollection, 0)].

Definition said92 (db : udb) (l : list item) : list string :=
  map string_of_list_ascii (remarks db [] false (sights g_init [] (map w_what (map wire l)))).

Example C92_exactly_case : readable54 noisy92 (written noisy92) /\
  (exists s, decompile_text db54 (written noisy92) = Ok s) /\
  said92 db54 noisy92 = ["Noncontiguous values"; "Cannot create range from array with less than 2 elements"; "Noncontiguous values"]%string /\
  said92 empty_db noisy92 = ["Noncontiguous values"; "Cannot create range from array with less than 2 elements"; "Noncontiguous values"; "Noncontiguous values"]%string.
Proof.
  split; [unfold readable54; readable|].
  split; [eexists; vm_compute; reflexivity|]. split; vm_compute; reflexivity.
Qed.

(** a keyboard with a range of keys, lights and a volume control *)
Definition quiet92 : list item := items
  [(UsagePage, 1); (Usage, 6); (Collection, 1); (LogicalMinimum, 0); (LogicalMaximum, 101); (ReportSize, 8); (ReportCount, 6);
   (UsagePage, 7); (UsageMinimum, 0); (UsageMaximum, 101); (Input, 0);
   (LogicalMaximum, 1); (ReportSize, 1); (ReportCount, 3); (UsagePage, 8); (UsageMinimum, 1); (UsageMaximum, 3); (Output, 2);
   (LogicalMaximum, 100); (ReportCount, 1); (ReportSize, 5); (Usage, 0xc00e0); (Output, 0);
   (EndCollection, 0)].

Example C92_partial_case : readable54 quiet92 (written quiet92) /\
  Forall tidy (sights g_init [] (map w_what (map wire quiet92))) /\
  (exists t, decompile default_db (written quiet92) = Ok t /\ dumpable t) /\
  exists out, decompile_stdout default_db (written quiet92) = Ok out /\ decompile_text default_db (written quiet92) = Ok out.
Proof.
  split; [unfold readable54; readable|]. split; [|split].
  - match goal with |- Forall _ ?q => let q' := eval vm_compute in q in change q with q' end.
    repeat apply Forall_cons; [..|apply Forall_nil]; unfold tidy; cbn [length].
    all: intros X Y W; try discriminate Y; try discriminate W; try (destruct X as [X|[X|X]]; discriminate X).
    split; [lia|]. intros k Hk. do 101 (destruct k as [|k]; [reflexivity|]). lia.
  - eexists. split; [vm_compute; reflexivity|]. cbn [dumpable]. unfold dumpable_value, printed_right.
    repeat split; try discriminate; cbn [v_named]; repeat constructor; cbn; intuition discriminate.
  - eexists. split; vm_compute; reflexivity.
Qed.

(** the descriptor of C50_case has an array with the keys A, B and F: the
    decompiler succeeds, but standard output is no script *)
Theorem C92_refuted : exists blob t s t' out, decompile default_db blob = Ok t /\ decompile_text default_db blob = Ok s /\ script s t' /\ same_tree t t' /\
  decompile_stdout default_db blob = Ok out /\ forall t'', ~ script out t''.
Proof.
  destruct C50_case as [H [D _]]. destruct (c50 blob50 tree50 H D) as [s [t' [S [X Y]]]].
  exists blob50, tree50, s, t', (str "Noncontiguous values" ++ [nl] ++ s). repeat (split; [assumption|]). split.
  - unfold decompile_stdout. rewrite S. cbn [bind].
    match goal with |- Ok (?x ++ _) = _ => let y := eval vm_compute in x in change x with y end. reflexivity.
  - intros t'' Z. apply script_first in Z. destruct Z as [r Z]. discriminate Z.
Qed.
Print Assumptions C92_refuted.
