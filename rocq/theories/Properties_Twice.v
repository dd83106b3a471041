(* Properties_Twice.v -- C95: decompiling what was decompiled and compiled. *)
From Verif Require Import Py Usage Item Parser Optimizer Descriptor Extractor UsageModules HidSpec Spec StreamSpec OptSpec ExtractSpec
  ItemFacts ParserFacts OptFacts PassFacts StreamTree Properties_Stream ExtractFacts ExtractView ExtractAgain
  BackSpec Dumper PyExpr DumpSpec ExtractBack Properties_Extract NameBack DumpCompile BytesBack TwiceSpec TwiceProofs.
Local Open Scope list_scope.
Local Open Scope Z_scope.

(** C95.  Full statement (false, see C95_refuted): without [zeros_first],
    [settled] and [found_again].  Any byte string the decompiler accepts, with
    any registries: the second decompiled tree has the values of the first,
    with their attributes, report ids and collections.  Missing: the other
    trees, and the optimised bytes, for which see C65. *)
Theorem C95_partial db db1 db2 blob t b : Forall (fun x => 0 <= x < 256) blob ->
  decompile db blob = Ok t -> compile db1 false t = Ok b ->
  zeros_first (ids (scoped 0 t)) -> settled (scoped 0 t) -> Forall (fun x => found_again db2 (bare x)) (located [] (scoped 0 t)) ->
  exists t', decompile db2 b = Ok t' /\ Forall2 BackSpec.same_value (real_values (scoped 0 t)) (real_values (scoped 0 t')).
Proof. exact (c95 db db1 db2 blob t b). Qed.
Print Assumptions C95_partial.

Definition bytes_of (l : list (icls * Z)) : list Z := match serialize (items l) with Ok b => b | Err _ => [] end.

Definition in_device (l : list (icls * Z)) : list (icls * Z) :=
  [(UsagePage, 1); (Usage, 2); (Collection, 1)] ++ l ++ [(EndCollection, 0)].

(** The items are out of place on purpose: Push and Pop, a string before the
    size, a last value outside every collection (dropped).  Two buttons, padding, a
    NamedArray with its collection, two without, a buffer of six bytes and a
    signed field in another report. *)
Definition blob95 : list Z := bytes_of (in_device
  [(ReportID, 1); (Push, 0); (StringIndex, 3); (LogicalMaximum, 1); (ReportSize, 1); (ReportCount, 2); (Usage, 0x90001); (Usage, 0x90002); (Input, 2);
   (ReportSize, 6); (ReportCount, 1); (Input, 1);
   (Usage, 0xf0025); (Collection, 2); (LogicalMaximum, 2); (ReportSize, 8); (Usage, 0x70004); (Usage, 0x70005); (Usage, 0x70009); (Input, 2); (EndCollection, 0);
   (ReportCount, 2); (Usage, 0x70004); (Usage, 0x70005); (Usage, 0x70009); (Input, 0); (Pop, 0);
   (ReportID, 2); (ReportCount, 6); (LogicalMaximum, 255); (Usage, 0xff000001); (Input, 0x102);
   (LogicalMinimum, -100); (LogicalMaximum, 100); (PhysicalMaximum, 7); (Unit, 0x11); (UnitExponent, 3); (ReportCount, 1); (ReportSize, 12); (Usage, 0x10030); (Feature, 6)]
  ++ [(Usage, 0x10031); (Input, 2)]).

Definition tree95 : tree := tree_of (decompile default_db blob95).

Example C95_case : Forall (fun x => 0 <= x < 256) blob95 /\ length blob95 = 130%nat /\
  decompile default_db blob95 = Ok tree95 /\ (exists b, compile empty_db false tree95 = Ok b /\ length b = 223%nat) /\
  zeros_first (ids (scoped 0 tree95)) /\ settled (scoped 0 tree95) /\
  Forall (fun x => found_again default_db (bare x)) (located [] (scoped 0 tree95)) /\
  map brief (real_values (scoped 0 tree95)) =
    [(1, [0x90001], 1, [], 0, 1); (1, [0x90002], 1, [], 0, 1); (1, [0xf0025], 8, [0x70004; 0x70005; 0x70009], 0, 1);
     (1, [], 8, [0x70004; 0x70005; 0x70009], 0, 1); (1, [], 8, [0x70004; 0x70005; 0x70009], 0, 1);
     (2, [0xff000001], 8, [], 0, 6); (2, [0x10030], 12, [], 0x11, 1)].
Proof.
  split; [vm_compute; repeat constructor; discriminate|]. split; [vm_compute; reflexivity|]. split; [vm_compute; reflexivity|].
  split; [eexists; split; vm_compute; reflexivity|].
  split; [apply nz_zeros_first; vm_compute; repeat constructor; discriminate|]. split; [|split; [|vm_compute; reflexivity]].
  - match goal with |- settled ?q => let q' := eval vm_compute in q in change q with q' end.
    match goal with |- settled ?q => exists (removelast q), LClose, []; split; [reflexivity|]; split; [exact I|constructor] end.
  - match goal with |- Forall _ ?q => let q' := eval vm_compute in q in change q with q' end.
    repeat apply Forall_cons; [..|apply Forall_nil]; unfold found_again, bare; intros R; try discriminate R; clear R.
    all: match goal with |- if ?b then _ else _ => let b' := eval vm_compute in b in change b with b'; cbv iota end.
    all: try (intros X Y; vm_compute in X, Y; discriminate).
    all: match goal with |- match ?b with _ => _ end => let b' := eval vm_compute in b in change b with b'; cbv iota end.
    + do 2 eexists. split; [discriminate|]. split; [vm_compute; reflexivity|left; reflexivity].
    + do 3 eexists. split; [reflexivity|]. split; [intros [X _]; discriminate X|intros [X _]; discriminate X].
    + do 3 eexists. split; [reflexivity|]. split; [intros [X _]; discriminate X|intros [X _]; discriminate X].
Qed.

(** The same through the script the decompiler prints, for trees that are
    printed right (C50). *)
Theorem C95_script_partial db2 blob t : Forall (fun x => 0 <= x < 256) blob -> decompile default_db blob = Ok t -> dumpable t ->
  zeros_first (ids (scoped 0 t)) -> settled (scoped 0 t) -> Forall (fun x => found_again db2 (bare x)) (located [] (scoped 0 t)) ->
  exists s t1, decompile_text default_db blob = Ok s /\ script s t1 /\
    forall db1 b, compile db1 false t1 = Ok b ->
    exists t', decompile db2 b = Ok t' /\ Forall2 BackSpec.same_value (real_values (scoped 0 t)) (real_values (scoped 0 t')).
Proof.
  intros FB D P Z S F. destruct (c52 blob t D P) as [s [t1 [T [SC E]]]]. exists s, t1. split; [exact T|]. split; [exact SC|].
  intros db1 b C. rewrite E in C. exact (c95 default_db default_db db2 blob t b FB D C Z S F).
Qed.
Print Assumptions C95_script_partial.

(** see C95_case for the other hypotheses *)
Example C95_script_case : dumpable tree95 /\ exists s, decompile_text default_db blob95 = Ok s /\ length s = 1360%nat.
Proof.
  split; [|eexists; split; vm_compute; reflexivity].
  match goal with |- dumpable ?q => let q' := eval vm_compute in q in change q with q' end.
  cbn [dumpable]. unfold dumpable_value, printed_right.
  repeat split; try discriminate; cbn [v_named]; repeat constructor; cbn; intuition discriminate.
Qed.

(** not found again as they were: a value of report 0 after one of report 1; a
    value that follows a NamedArray in its collection; an array whose
    collection is a NamedArray by its kind only; two fields of one logical
    value; two arrays in a collection with a NamedArray usage *)
Definition keys : list (icls * Z) := [(Usage, 0x70004); (Usage, 0x70005); (Usage, 0x70009)].
Definition lost95 : list (list Z) := map bytes_of
  [in_device [(LogicalMaximum, 127); (ReportSize, 8); (ReportCount, 1); (ReportID, 1); (Usage, 0x30); (Input, 2); (ReportID, 0); (Usage, 0x31); (Input, 2)];
   [(LogicalMaximum, 2); (ReportSize, 8); (ReportCount, 1); (Usage, 0xf0025); (Collection, 2)] ++ keys ++
     [(Input, 0); (LogicalMaximum, 127); (Usage, 0x10030); (Input, 2); (EndCollection, 0)];
   in_device ([(LogicalMaximum, 2); (ReportSize, 8); (ReportCount, 1); (Usage, 0x39); (Collection, 4)] ++ keys ++ [(Input, 2); (EndCollection, 0)]);
   in_device [(ReportSize, 8); (ReportCount, 2); (Usage, 0x30); (Usage, 0x31); (Input, 0)];
   in_device ([(LogicalMaximum, 2); (ReportSize, 8); (ReportCount, 2); (Usage, 0xf0025); (Collection, 2)] ++ keys ++ [(Input, 0); (EndCollection, 0)])].

Theorem C95_refuted : Forall (fun blob => exists t b, Forall (fun x => 0 <= x < 256) blob /\
  decompile default_db blob = Ok t /\ compile default_db false t = Ok b /\
  exists t', decompile default_db b = Ok t' /\ ~ Forall2 BackSpec.same_value (real_values (scoped 0 t)) (real_values (scoped 0 t'))) lost95.
Proof.
  unfold lost95. cbn [map]. repeat apply Forall_cons; [..|apply Forall_nil].
  all: match goal with |- exists t b, Forall _ ?l /\ _ => exists (tree_of (decompile default_db l)) end; eexists; split; [vm_compute; repeat constructor; discriminate|].
  all: split; [vm_compute; reflexivity|]; split; [vm_compute; reflexivity|]; eexists; split; [vm_compute; reflexivity|].
  all: intros F; apply same_brief in F; vm_compute in F; discriminate F.
Qed.
Print Assumptions C95_refuted.
