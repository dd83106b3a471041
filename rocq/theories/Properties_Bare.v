(* Properties_Bare.v -- what the optimiser and three of its passes keep of
   every stream: C32_attributes, C37_always, C38_always, C39_always. *)
From Verif Require Import Py Usage Item Optimizer HidSpec ItemFacts ParserFacts OptSpec OptFacts PassFacts MergeFacts BareSpec BareProofs.
Local Open Scope list_scope.
Local Open Scope Z_scope.

(** C32 with all attributes of the fields but their physical range: kind of
    report, report id, flags, size, logical range, unit and exponent of each
    field stay, in order, on the same streams. *)
Theorem C32_attributes : forall db m l, Forall constructed l -> push_free l -> ends l ->
  map unscaled (map unlabelled (seen m (optimize db l))) = map unscaled (map unlabelled (seen m l)).
Proof. exact c32_attributes. Qed.
Print Assumptions C32_attributes.

(** MainMerge keeps all attributes of all fields, and every item other than
    data main items and report counts in its place, also in the streams of
    which C37 is false. *)
Theorem C37_always : forall m l, Forall constructed l -> push_free l -> ends l ->
  map unlabelled (seen m (run_pass main_merge l)) = map unlabelled (seen m l) /\
  untouched (map cv (run_pass main_merge l)) = untouched (map cv l).
Proof. exact c37_always. Qed.
Print Assumptions C37_always.

(** PhysicalMerge keeps everything but physical ranges, in every stream. *)
Theorem C38_always : forall l,
  map unbounded (main_states (map wire (run_pass physical_merge l))) = map unbounded (main_states (map wire l)).
Proof. exact c38_always. Qed.
Print Assumptions C38_always.

(** DesignatorUniq keeps everything but designators 0, in every stream. *)
Theorem C39_always : forall l,
  map with_designators (main_states (map wire (run_pass designator_uniq l))) = map with_designators (main_states (map wire l)).
Proof. exact c39_always. Qed.
Print Assumptions C39_always.

(** the streams that refute C37: attributes are there, labels move *)
Example C37_always_case : Forall (fun l => Forall constructed l /\ push_free l /\ ends l /\
    length (map unlabelled (seen AtMain l)) = 3%nat /\ seen AtMain (run_pass main_merge l) <> seen AtMain l) [leak; arrays].
Proof.
  apply Forall_cons; [|apply Forall_cons; [|apply Forall_nil]].
  - split; [apply items_built|]. split; [vm_compute; repeat constructor; discriminate|].
    split; [exists (removelast leak), (Item EndCollection (VInt 0)); split; [vm_compute; reflexivity|split; reflexivity]|].
    split; [vm_compute; reflexivity|vm_compute; discriminate].
  - split; [apply items_built|]. split; [vm_compute; repeat constructor; discriminate|].
    split; [exists (removelast arrays), (Item EndCollection (VInt 0)); split; [vm_compute; reflexivity|split; reflexivity]|].
    split; [vm_compute; reflexivity|vm_compute; discriminate].
Qed.

(** physical bounds in one field only, a unit, Push and Pop, designators 0 *)
Definition mixed : list item :=
  items [(ReportSize, 8); (ReportCount, 1); (LogicalMaximum, 100); (PhysicalMaximum, 100); (DesignatorIndex, 0); (Unit, 0x11); (DesignatorIndex, 4); (Input, 2);
         (Push, 0); (PhysicalMaximum, 7); (LogicalMaximum, 50); (DesignatorIndex, 0); (Input, 2); (Pop, 0); (LogicalMaximum, 25); (Input, 2); (EndCollection, 0)].

Example C38_always_case : length (main_states (map wire mixed)) = 4%nat /\ length (run_pass physical_merge mixed) = 16%nat /\
  main_states (map wire (run_pass physical_merge mixed)) <> main_states (map wire mixed).
Proof. split; [vm_compute; reflexivity|]. split; [vm_compute; reflexivity|]. vm_compute. discriminate. Qed.

Example C39_always_case : length (run_pass designator_uniq mixed) = 15%nat /\
  main_states (map wire (run_pass designator_uniq mixed)) <> main_states (map wire mixed).
Proof. split; [vm_compute; reflexivity|]. vm_compute. discriminate. Qed.

(** a stream without Push and Pop whose physical ranges are not kept *)
Example C32_attributes_case :
  let l := items [(Collection, 1); (ReportSize, 8); (ReportCount, 1); (LogicalMaximum, 100); (PhysicalMaximum, 50); (Unit, 0x11); (Usage, 0x10030); (Input, 2);
                  (LogicalMaximum, 100); (PhysicalMaximum, 100); (Usage, 0x10031); (Input, 2); (StringIndex, 2); (Usage, 0x10032); (Input, 0); (EndCollection, 0)] in
  Forall constructed l /\ push_free l /\ ends l /\ length (seen AtMain l) = 5%nat /\ seen AtMain (optimize empty_db l) <> seen AtMain l.
Proof.
  intros l. split; [apply items_built|]. split; [vm_compute; repeat constructor; discriminate|].
  split; [exists (removelast l), (Item EndCollection (VInt 0)); split; [vm_compute; reflexivity|split; reflexivity]|].
  split; [vm_compute; reflexivity|vm_compute; discriminate].
Qed.
