(* Properties_Verdict.v -- C54: exactly which descriptors the decompiler
   accepts, and the exception for each of the others. *)
From Verif Require Import Py Usage Item Parser Optimizer Descriptor Extractor HidSpec Spec StreamSpec OptSpec AllSpec
  ExtractSpec StackSpec HeedSpec Dumper PyExpr DumpSpec ItemFacts ParserFacts OptFacts PassFacts StreamTree Properties_Stream ExtractAgain Properties_Extract
  Properties_Dump Properties_Accept AcceptSpec HeedProofs VerdictSpec VerdictProofs.
Local Open Scope list_scope.
Local Open Scope Z_scope.

(** C83: the decompiler reads single usages, strings and designators where
    there are any, and else the last bounds; all other bounds are ignored. *)
Theorem C83 : forall db l, extract db l = extract db (heeded ic l).
Proof. exact extract_heeded. Qed.
Print Assumptions C83.

(** a usage besides a range of usages, two ranges of strings *)
Definition many54 : list item := items
  [(Usage, 0x10002); (Collection, 1); (UsageMinimum, 0x90001); (StringMinimum, 3); (StringMaximum, 4); (ReportSize, 1); (ReportCount, 2);
   (UsageMaximum, 0x90008); (Usage, 0x10030); (StringMinimum, 6); (StringMaximum, 7); (Input, 2); (EndCollection, 0)].

Example C83_case :
  map cv (heeded ic many54) =
    [(Usage, 0x10002); (Collection, 1); (ReportSize, 1); (ReportCount, 2); (Usage, 0x10030); (StringMinimum, 6); (StringMaximum, 7); (Input, 2); (EndCollection, 0)] /\
  exists t, extract empty_db many54 = Ok t.
Proof. split; [vm_compute; reflexivity|]. eexists. vm_compute. reflexivity. Qed.

(** C54: which descriptors the decompiler rejects, and with which exception;
    the only condition is that the parser accepts the items (C06). *)
Theorem C54_exactly : forall db blob ws, blob_means blob ws -> Forall number_allowed ws ->
  verdict db [] false false (sights g_init [] (map w_what ws)) = match decompile db blob with Ok _ => None | Err e => Some e end.
Proof. exact c54_exactly. Qed.
Print Assumptions C54_exactly.

(** hence the byte strings the decompiler accepts *)
Theorem C54_accepted : forall db blob, Forall is_byte blob ->
  ((exists t, decompile db blob = Ok t) <->
   exists ws, blob_means blob ws /\ Forall number_allowed ws /\ verdict db [] false false (sights g_init [] (map w_what ws)) = None).
Proof. exact c54_accepts. Qed.
Print Assumptions C54_accepted.

Ltac readable := split; [apply serialize_means; vm_compute; reflexivity|]; allowed.

Definition readable54 (l : list item) (blob : list Z) : Prop := blob_means blob (map wire l) /\ Forall number_allowed (map wire l).
Definition verdict54 (db : udb) (l : list item) : option exn := verdict db [] false false (sights g_init [] (map w_what (map wire l))).
Definition written (l : list item) : list Z := match serialize l with Ok b => b | Err _ => [] end.

(** a registry in which 0xf0025 (pid.EffectType) is the usage of a NamedArray *)
Definition db54 : udb := fun z => if z =? 0xf0025 then Some ("pid.EffectType"%string, [NAry]) else None.

(** a Logical collection that stands for a named array; with another registry
    it stays a collection around its data item *)
Definition boxed54 := items
  [(Usage, 0x10002); (Collection, 1); (ReportSize, 2); (ReportCount, 1); (LogicalMinimum, 1); (LogicalMaximum, 2);
   (Usage, 0xf0025); (Collection, 2); (Usage, 0xf0026); (Usage, 0xf0027); (Output, 0); (EndCollection, 0); (Input, 1); (EndCollection, 0)].

Example C54_exactly_case : readable54 boxed54 (written boxed54) /\
  (exists t, decompile db54 (written boxed54) = Ok t /\ length (filter (fun x => match x with LOpen _ _ => true | _ => false end) (scoped 0 t)) = 1%nat) /\
  (exists t, decompile empty_db (written boxed54) = Ok t /\ length (filter (fun x => match x with LOpen _ _ => true | _ => false end) (scoped 0 t)) = 2%nat) /\
  verdict54 db54 boxed54 = None.
Proof.
  split; [unfold readable54; readable|].
  split; [eexists; split; vm_compute; reflexivity|]. split; [eexists; split; vm_compute; reflexivity|]. vm_compute. reflexivity.
Qed.

(** streams for each exception: a data item outside every collection, a
    collection never closed, one closed twice, a usage switch of two items, a
    Logical collection without usage, an array of no values *)
Definition faults54 : list (list item * exn) :=
  [(items [(LogicalMinimum, 0); (LogicalMaximum, 0); (ReportSize, 8); (ReportCount, 1); (Usage, 0x10030); (Input, 2);
           (Usage, 0x10002); (Collection, 1); (EndCollection, 0)], AttributeError);
   (items [(Usage, 0x10002); (Collection, 1); (Input, 1)], AttributeError);
   (items [(Usage, 0x10002); (Collection, 1); (EndCollection, 0); (EndCollection, 0)], IndexError);
   (items [(Usage, 0x10002); (Collection, 4); (LogicalMinimum, 0); (LogicalMaximum, 7); (ReportSize, 8); (ReportCount, 1); (Usage, 0x10030); (Input, 2);
           (LogicalMaximum, 0); (Usage, 0x10030); (Input, 2); (EndCollection, 0)], AssertionError);
   (items [(Collection, 2); (LogicalMinimum, 0); (LogicalMaximum, 0); (ReportSize, 8); (ReportCount, 1); (Usage, 0x10030); (Input, 2);
           (EndCollection, 0)], TypeError);
   (items [(Usage, 0x10002); (Collection, 1); (LogicalMinimum, 1); (LogicalMaximum, 0); (ReportSize, 8); (ReportCount, 1); (Input, 0);
           (EndCollection, 0)], ValueError)].

Example C54_exactly_faults : Forall (fun x => readable54 (fst x) (written (fst x)) /\
  verdict54 empty_db (fst x) = Some (snd x) /\
  decompile empty_db (written (fst x)) = Err (snd x)) faults54.
Proof.
  unfold faults54. repeat apply Forall_cons; [..|apply Forall_nil]; cbn [fst snd].
  all: split; [unfold readable54; readable|]; split; vm_compute; reflexivity.
Qed.

(** with Push, Pop and several ranges *)
Definition pushed54 : list item := items
  [(Usage, 0x10002); (Collection, 2); (LogicalMinimum, 0); (LogicalMaximum, 1); (ReportSize, 8); (ReportCount, 1); (Push, 0); (UsageMinimum, 0x90001); (UsageMaximum, 0x90008);
   (LogicalMaximum, 2); (Pop, 0); (UsageMinimum, 0x90003); (UsageMaximum, 0x90005); (Input, 0); (Input, 2); (EndCollection, 0)].

Example C54_exactly_pushed : readable54 pushed54 (written pushed54) /\ verdict54 empty_db pushed54 = None /\
  exists t, decompile empty_db (written pushed54) = Ok t.
Proof. split; [unfold readable54; readable|]. split; [vm_compute; reflexivity|]. eexists. vm_compute. reflexivity. Qed.

(** the Pop does not bring the report count back to one *)
Definition popped54 : list item := items
  [(Usage, 0x10002); (Collection, 2); (LogicalMinimum, 0); (LogicalMaximum, 1); (ReportSize, 8); (Push, 0); (UsageMinimum, 0x90001);
   (Usage, 0x90003); (ReportCount, 0); (Pop, 0); (Input, 2); (EndCollection, 0)].

Example C54_exactly_popped : readable54 popped54 (written popped54) /\ verdict54 empty_db popped54 = None /\
  decompile empty_db (written popped54) = Ok (TTop []).
Proof. split; [unfold readable54; readable|]. split; vm_compute; reflexivity. Qed.

(** a range from a usage without its page to one with it has four usages, two
    of page 9 and two of page 1: a NamedArray in a collection with a member *)
Definition crossed54 : list item := items
  [(UsagePage, 9); (Usage, 0x10002); (Collection, 4); (LogicalMinimum, 0); (LogicalMaximum, 3); (ReportSize, 8); (ReportCount, 1);
   (Input, 1); (UsageMinimum, 0xfffe); (UsageMaximum, 0x10001); (Input, 2); (EndCollection, 0)].

Example C54_exactly_crossed : readable54 crossed54 (written crossed54) /\ verdict54 empty_db crossed54 = Some AssertionError /\
  usages_told 9 [(UsageMinimum, 0xfffe); (UsageMaximum, 0x10001)] = [0x9fffe; 0x9ffff; 0x10000; 0x10001] /\
  decompile empty_db (written crossed54) = Err AssertionError.
Proof. split; [unfold readable54; readable|]. repeat split; vm_compute; reflexivity. Qed.

(** a Usage cut short; a device with a byte of padding *)
Example C54_accepted_case : (forall t, decompile empty_db [0xa1; 0x01; 0x09] <> Ok t) /\
  exists t, decompile empty_db [0x05; 0x01; 0x09; 0x02; 0xa1; 0x01; 0x75; 0x08; 0x95; 0x01; 0x81; 0x01; 0xc0] = Ok t.
Proof. split; [intros t; vm_compute; discriminate|]. eexists. vm_compute. reflexivity. Qed.
