(* Properties_Form.v -- C79 to C81: how small optimised output is. *)
From Verif Require Import Py Usage Item Parser Optimizer Descriptor Converter HidSpec Spec ParserFacts StreamSpec
  StreamProofs StreamTree OptSpec AllSpec TreeSpec OptFacts PassFacts TreeOpt FormSpec FormProofs Properties_Stream Properties_Tree.
Local Open Scope list_scope. Local Open Scope Z_scope.

(** C79 for trees that end in a collection: the main items of the optimised
    bytes, with their numbers of fields, are those of the plain bytes with the
    fields alike joined.  Missing: the other trees, for which it is false. *)
Theorem C79_partial : forall db t b0 b, closed_tree t -> compile db false t = Ok b0 -> compile db true t = Ok b ->
  exists ws0 ws, blob_means b0 ws0 /\ blob_means b ws /\
    counted_mains 0 (map w_what ws) = joined (fun _ => 0) 0 None (map w_what ws0).
Proof. exact c79. Qed.
Print Assumptions C79_partial.

(** Three buttons, a padding, two axes; two paddings, an array, and a named
    array with its collection. *)
Example C79_case : closed_tree tree40 /\ exists b0 b l, compile empty_db false tree40 = Ok b0 /\ compile empty_db true tree40 = Ok b /\
  blob_means b0 (map wire l) /\
  length (counted_mains 0 (map w_what (map wire l))) = 14%nat /\
  joined (fun _ => 0) 0 None (map w_what (map wire l)) =
    [((Collection, 1), 0); ((Input, 2), 3); ((Input, 3), 1); ((Input, 2), 2); ((Input, 3), 2); ((Input, 0), 3);
     ((Collection, 2), 0); ((Input, 2), 3); ((EndCollection, 0), 0); ((EndCollection, 0), 0)].
Proof.
  split; [exact (proj1 (proj2 C40_case))|].
  destruct (stream_items empty_db tree40) as [l|] eqn:E; [|vm_compute in E; discriminate E].
  destruct (serialize l) as [b|] eqn:S; [|vm_compute in E; injection E as <-; vm_compute in S; discriminate S].
  exists b. eexists. exists l.
  split; [unfold compile; rewrite E; exact S|]. split; [vm_compute; reflexivity|].
  split; [apply serialize_means; exact S|]. vm_compute in E. injection E as <-. split; vm_compute; reflexivity.
Qed.

(** C79 for blobs that end by opening or closing a collection. *)
Theorem C79_blob_partial : forall db b ws out, blob_means b ws -> Forall number_allowed ws -> closed_stream (map w_what ws) ->
  convert_opt db b = Ok out ->
  exists ws', blob_means out ws' /\ counted_mains 0 (map w_what ws') = joined (fun _ => 0) 0 None (map w_what ws).
Proof. exact c79_blob. Qed.
Print Assumptions C79_blob_partial.

(** Inputs of one, two and one fields: the first joins the second, which ends
    the run. *)
Example C79_blob_case :
  let l := [Item Usage (VInt 0x10002); Item Collection (VInt 1); Item ReportSize (VInt 1);
            Item ReportCount (VInt 1); Item Usage (VInt 0x90001); Item Input (VInt 2);
            Item ReportSize (VInt 1); Item ReportCount (VInt 2); Item Usage (VInt 0x90002); Item Usage (VInt 0x90003); Item Input (VInt 2);
            Item ReportCount (VInt 1); Item Usage (VInt 0x90004); Item Input (VInt 2); Item EndCollection (VInt 0)] in
  exists b out, serialize l = Ok b /\ blob_means b (map wire l) /\ Forall number_allowed (map wire l) /\
    closed_stream (map w_what (map wire l)) /\ convert_opt empty_db b = Ok out /\
    joined (fun _ => 0) 0 None (map w_what (map wire l)) =
      [((Collection, 1), 0); ((Input, 2), 3); ((Input, 2), 1); ((EndCollection, 0), 0)].
Proof.
  intros l. do 2 eexists. split; [vm_compute; reflexivity|]. split; [apply serialize_means; vm_compute; reflexivity|].
  split; [repeat constructor; intros X; destruct X as [X|[X|X]]; discriminate X|].
  split; [match goal with |- closed_stream ?l => exists (removelast l), (EndCollection, 0) end; split; [|split]; reflexivity|].
  split; vm_compute; reflexivity.
Qed.

(** Three buttons in a report without a collection stay three main items. *)
Definition tree79 : tree :=
  TReport 1 [tv (vari 0x90001 1 1 0 0 None None); tv (vari 0x90002 1 1 0 0 None None); tv (vari 0x90003 1 1 0 0 None None)].

Theorem C79_refuted : exists t b0 b ws0 ws, well_formed t /\ compile empty_db false t = Ok b0 /\ compile empty_db true t = Ok b /\
  blob_means b0 ws0 /\ blob_means b ws /\
  counted_mains 0 (map w_what ws) = [((Input, 2), 1); ((Input, 2), 1); ((Input, 2), 1)] /\
  joined (fun _ => 0) 0 None (map w_what ws0) = [((Input, 2), 3)].
Proof.
  destruct (stream_items empty_db tree79) as [l|] eqn:E; [|vm_compute in E; discriminate E].
  destruct (serialize l) as [b0|] eqn:S; [|vm_compute in E; injection E as <-; vm_compute in S; discriminate S].
  destruct (serialize (optimize empty_db l)) as [b|] eqn:SO; [|vm_compute in E; injection E as <-; vm_compute in SO; discriminate SO].
  exists tree79, b0, b, (map wire l), (map wire (optimize empty_db l)).
  split; [unfold tree79; wf|]. split; [unfold compile; rewrite E; exact S|]. split; [unfold compile; rewrite E; exact SO|].
  split; [apply serialize_means; exact S|]. split; [apply serialize_means; exact SO|].
  vm_compute in E. injection E as <-. split; vm_compute; reflexivity.
Qed.
Print Assumptions C79_refuted.

(** C80 for the compiler: every run of three or more consecutive usages,
    strings or designators of a main item, from 1 on, is a range.  Missing:
    runs that begin with 0, for which it is false. *)
Theorem C80_partial : forall db t b, well_formed t -> compile db true t = Ok b ->
  exists ws, blob_means b ws /\ all_ranged (map w_what ws).
Proof. exact c80. Qed.
Print Assumptions C80_partial.

(** The plain bytes have the strings 4, 5, 6 before one main item each; the
    buttons whose numbers are not in a row stay as they are. *)
Definition tree80 : tree :=
  device [tv (vari 0x90001 1 1 0 4 None None); tv (vari 0x90002 1 1 0 5 None None); tv (vari 0x90003 1 1 0 6 None None);
          tv (vari 0x90007 2 1 0 0 None None); tv (vari 0x90005 2 1 0 0 None None); tv (vari 0x90006 2 1 0 0 None None)].
Example C80_case : well_formed tree80 /\ exists b l, compile empty_db true tree80 = Ok b /\ blob_means b (map wire l) /\
  chunks (with_pages 0 (map w_what (map wire l))) =
    [[(Usage, 0x10002)];
     [(LogicalMinimum, 0); (LogicalMaximum, 1); (ReportSize, 1); (ReportCount, 3); (StringMinimum, 4); (StringMaximum, 6);
      (UsageMinimum, 0x90001); (UsageMaximum, 0x90003)];
     [(ReportCount, 1)];
     [(Usage, 0x90007); (ReportSize, 2); (Usage, 0x90005); (Usage, 0x90006); (ReportCount, 3)]; []; []].
Proof.
  split; [unfold tree80, device; wf|].
  destruct (stream_items empty_db tree80) as [l|] eqn:E; [|vm_compute in E; discriminate E].
  destruct (serialize (optimize empty_db l)) as [b|] eqn:SO; [|vm_compute in E; injection E as <-; vm_compute in SO; discriminate SO].
  exists b, (optimize empty_db l). split; [unfold compile; rewrite E; exact SO|].
  split; [apply serialize_means; exact SO|]. vm_compute in E. injection E as <-. vm_compute. reflexivity.
Qed.

(** C80 for blobs whose usages have their pages. *)
Theorem C80_blob_partial : forall db b ws out, blob_means b ws -> Forall number_allowed ws -> convert_opt db b = Ok out ->
  Forall (fun x => fst x <> UsagePage) (map w_what ws) ->
  exists ws', blob_means out ws' /\ all_ranged (map w_what ws').
Proof. exact c80_blob. Qed.
Print Assumptions C80_blob_partial.

Example C80_blob_case :
  let l := [Item ReportSize (VInt 1); Item ReportCount (VInt 4); Item DesignatorIndex (VInt 2); Item DesignatorIndex (VInt 3); Item DesignatorIndex (VInt 4);
            Item Usage (VInt 0x9fffe); Item Usage (VInt 0x9ffff); Item Usage (VInt 0xa0000); Item Usage (VInt 0xa0001); Item Input (VInt 2)] in
  exists b out l', serialize l = Ok b /\ blob_means b (map wire l) /\ Forall number_allowed (map wire l) /\ convert_opt empty_db b = Ok out /\
    Forall (fun x => fst x <> UsagePage) (map w_what (map wire l)) /\ blob_means out (map wire l') /\
    with_pages 0 (map w_what (map wire l')) =
      [(ReportSize, 1); (ReportCount, 4); (DesignatorMinimum, 2); (DesignatorMaximum, 4);
       (UsageMinimum, 0x9fffe); (UsageMaximum, 0xa0001); (Input, 2)].
Proof.
  intros l. do 2 eexists. exists (optimize empty_db l). split; [vm_compute; reflexivity|]. split; [apply serialize_means; vm_compute; reflexivity|].
  split; [repeat constructor; intros X; destruct X as [X|[X|X]]; discriminate X|].
  split; [vm_compute; reflexivity|]. split; [repeat constructor; discriminate|].
  split; [apply serialize_means; vm_compute; reflexivity|]. vm_compute; reflexivity.
Qed.

(** The strings 0 to 2 stay as they are. *)
Theorem C80_refuted : exists b ws out ws', blob_means b ws /\ Forall number_allowed ws /\ convert_opt empty_db b = Ok out /\ blob_means out ws' /\
  exists c, In c (chunks (map w_what ws')) /\ numbers StringMinimum c = [] /\ numbers StringMaximum c = [] /\
    numbers StringIndex c = up_from 0 3.
Proof.
  pose (l := [Item ReportSize (VInt 1); Item ReportCount (VInt 3); Item StringIndex (VInt 0); Item StringIndex (VInt 1); Item StringIndex (VInt 2); Item Input (VInt 2)]).
  do 4 eexists. split; [apply (serialize_means l); vm_compute; reflexivity|].
  split; [repeat constructor; intros X; destruct X as [X|[X|X]]; discriminate X|].
  split; [vm_compute; reflexivity|]. split; [apply (serialize_means (optimize empty_db l)); vm_compute; reflexivity|].
  exists [(ReportSize, 1); (StringIndex, 0); (StringIndex, 1); (StringIndex, 2); (ReportCount, 3)].
  split; [vm_compute; left; reflexivity|]. split; [|split]; reflexivity.
Qed.
Print Assumptions C80_refuted.

(** C81 for the compiler: where the plain bytes write only 0 for a unit, an
    exponent or a physical bound, or no designator but 0, the optimised bytes
    do not write it at all. *)
Theorem C81 : forall db t b0 b c, well_formed t -> compile db false t = Ok b0 -> compile db true t = Ok b ->
  exists ws0 ws, blob_means b0 ws0 /\ blob_means b ws /\
    (zero_at_first c = true -> Forall (fun z => z = 0) (numbers c (map w_what ws0)) -> numbers c (map w_what ws) = []) /\
    (Forall no_designator (groups (fun c => negb (local_tag c)) [] (map w_what ws0)) -> numbers DesignatorIndex (map w_what ws) = []).
Proof. exact c81. Qed.
Print Assumptions C81.

Example C81_case : well_formed tree40 /\ exists b0 b l, compile empty_db false tree40 = Ok b0 /\ compile empty_db true tree40 = Ok b /\
  blob_means b0 (map wire l) /\
  numbers Unit (map w_what (map wire l)) = [0; 0; 0; 0; 0; 0; 0] /\
  length (numbers PhysicalMaximum (map w_what (map wire l))) = 7%nat /\
  Forall no_designator (groups (fun c => negb (local_tag c)) [] (map w_what (map wire l))).
Proof.
  split; [exact (proj1 C40_case)|].
  destruct (stream_items empty_db tree40) as [l|] eqn:E; [|vm_compute in E; discriminate E].
  destruct (serialize l) as [b|] eqn:S; [|vm_compute in E; injection E as <-; vm_compute in S; discriminate S].
  exists b. eexists. exists l.
  split; [unfold compile; rewrite E; exact S|]. split; [vm_compute; reflexivity|].
  split; [apply serialize_means; exact S|]. vm_compute in E. injection E as <-. split; [vm_compute; reflexivity|]. split; [vm_compute; reflexivity|].
  vm_compute. repeat constructor.
Qed.

Theorem C81_blob : forall db b ws out c, blob_means b ws -> Forall number_allowed ws -> convert_opt db b = Ok out ->
  exists ws', blob_means out ws' /\
    (zero_at_first c = true -> Forall (fun z => z = 0) (numbers c (map w_what ws)) -> numbers c (map w_what ws') = []) /\
    (Forall no_designator (groups (fun c => negb (local_tag c)) [] (map w_what ws)) -> numbers DesignatorIndex (map w_what ws') = []).
Proof. exact c81_blob. Qed.
Print Assumptions C81_blob.

Example C81_blob_case :
  let l := [Item Unit (VInt 0); Item DesignatorIndex (VInt 0); Item Usage (VInt 0x10002); Item Collection (VInt 1);
            Item Unit (VInt 0); Item ReportSize (VInt 1); Item ReportCount (VInt 1);
            Item DesignatorIndex (VInt 0); Item Usage (VInt 0x90001); Item Input (VInt 2); Item EndCollection (VInt 0)] in
  exists b out, serialize l = Ok b /\ blob_means b (map wire l) /\ Forall number_allowed (map wire l) /\ convert_opt empty_db b = Ok out /\
    numbers Unit (map w_what (map wire l)) = [0; 0] /\
    groups (fun c => negb (local_tag c)) [] (map w_what (map wire l)) =
      [[]; [(DesignatorIndex, 0); (Usage, 0x10002)]; []; []; []; [(DesignatorIndex, 0); (Usage, 0x90001)]; []].
Proof.
  intros l. do 2 eexists. split; [vm_compute; reflexivity|]. split; [apply serialize_means; vm_compute; reflexivity|].
  split; [repeat constructor; intros X; destruct X as [X|[X|X]]; discriminate X|].
  split; [vm_compute; reflexivity|]. split; vm_compute; reflexivity.
Qed.

(** C81 for the passes: on every stream PhysicalMerge leaves physical bounds
    only where they differ from the logical ones written along with them, and
    DesignatorUniq leaves no main item with the designator 0 alone. *)
Theorem C81_passes : forall l,
  Forall bounds_needed (groups main_tag [] (map cv (run_pass physical_merge l))) /\
  Forall designator_needed (groups (fun c => negb (local_tag c)) [] (map cv (run_pass designator_uniq l))).
Proof. intros l. split; [apply c81_physical|apply c81_designator]. Qed.
Print Assumptions C81_passes.

Example C81_passes_case :
  let l := [Item PhysicalMinimum (VInt 0); Item PhysicalMaximum (VInt 9); Item LogicalMaximum (VInt 9); Item Input (VInt 2);
            Item PhysicalMaximum (VInt 8); Item LogicalMaximum (VInt 9); Item DesignatorIndex (VInt 0); Item Input (VInt 2);
            Item DesignatorIndex (VInt 0); Item DesignatorIndex (VInt 1); Item Input (VInt 2)] in
  ~ Forall bounds_needed (groups main_tag [] (map cv l)) /\
  ~ Forall designator_needed (groups (fun c => negb (local_tag c)) [] (map cv l)) /\
  groups main_tag [] (map cv (run_pass physical_merge l)) =
    [[(LogicalMaximum, 9)]; [(PhysicalMaximum, 8); (LogicalMaximum, 9); (DesignatorIndex, 0)]; [(DesignatorIndex, 0); (DesignatorIndex, 1)]] /\
  groups main_tag [] (map cv (run_pass designator_uniq l)) =
    [[(PhysicalMinimum, 0); (PhysicalMaximum, 9); (LogicalMaximum, 9)]; [(PhysicalMaximum, 8); (LogicalMaximum, 9)];
     [(DesignatorIndex, 0); (DesignatorIndex, 1)]].
Proof.
  intros l. split.
  { intros X. apply Forall_inv in X. destruct (X eq_refl eq_refl) as [Y _]. discriminate Y. }
  split. { intros X. rewrite Forall_forall in X. apply (X [(DesignatorIndex, 0)]); [vm_compute; tauto|reflexivity]. }
  split; vm_compute; reflexivity.
Qed.
