(* Properties_Redund.v -- C77: optimised output writes no global item again. *)
From Verif Require Import Py Usage Item Parser Optimizer Descriptor Converter HidSpec Spec ParserFacts StreamSpec
  StreamProofs StreamTree OptSpec AllSpec OptFacts TreeOpt RedundFacts Properties_Stream Properties_Tree.
Local Open Scope list_scope. Local Open Scope Z_scope.

(** C77 for the compiler: in the optimised bytes of every tree no global item
    writes the number last written for it, nor a default of 0. *)
Theorem C77 : forall db t b, well_formed t -> compile db true t = Ok b ->
  exists ws, blob_means b ws /\ no_repeats defaults (map w_what ws).
Proof. exact c77. Qed.
Print Assumptions C77.

(** Without optimisation the same device repeats its globals. *)
Example C77_case :
  well_formed tree40 /\ exists b0 b1 ws0, compile empty_db false tree40 = Ok b0 /\ compile empty_db true tree40 = Ok b1 /\
    blob_means b0 ws0 /\ ~ no_repeats defaults (map w_what ws0).
Proof.
  split; [exact (proj1 C40_case)|].
  destruct (stream_items empty_db tree40) as [l|] eqn:E; [|vm_compute in E; discriminate E].
  destruct (serialize l) as [b|] eqn:S; [|vm_compute in E; injection E as <-; vm_compute in S; discriminate S].
  exists b. eexists. exists (map wire l).
  split; [unfold compile; rewrite E; exact S|]. split; [vm_compute; reflexivity|].
  split; [apply serialize_means; exact S|]. vm_compute in E. injection E as <-.
  intros X. apply no_repeats_each with (c := ReportSize) in X; try reflexivity; try discriminate.
  vm_compute in X. intuition congruence.
Qed.

(** C77 for the converter: the same but for UsagePage items, and for those too
    where the blob has none. *)
Theorem C77_blob_partial : forall db b ws out, blob_means b ws -> Forall number_allowed ws -> convert_opt db b = Ok out ->
  exists ws', blob_means out ws' /\ no_repeats defaults (no_pages (map w_what ws')) /\
    (Forall (fun x => fst x <> UsagePage) (map w_what ws) -> no_repeats defaults (map w_what ws')).
Proof. exact c77_blob. Qed.
Print Assumptions C77_blob_partial.

(** Two inputs of different sizes, with usages that have their page and the
    globals written again. *)
Example C77_blob_case :
  let l := [Item Usage (VInt 0x10002); Item Collection (VInt 1); Item PhysicalMinimum (VInt 0); Item ReportID (VInt 1);
            Item LogicalMaximum (VInt 1); Item ReportSize (VInt 1); Item ReportCount (VInt 1); Item Usage (VInt 0x90001); Item Input (VInt 2);
            Item ReportID (VInt 1); Item LogicalMaximum (VInt 1); Item ReportSize (VInt 7); Item ReportCount (VInt 1);
            Item Usage (VInt 0x90002); Item Input (VInt 2); Item EndCollection (VInt 0)] in
  exists b out, serialize l = Ok b /\ blob_means b (map wire l) /\ Forall number_allowed (map wire l) /\ convert_opt empty_db b = Ok out /\
    Forall (fun x => fst x <> UsagePage) (map w_what (map wire l)) /\
    length b = 40%nat /\ length out = 27%nat.
Proof.
  intros l. do 2 eexists. split; [vm_compute; reflexivity|]. split; [apply serialize_means; vm_compute; reflexivity|].
  split; [repeat constructor; intros X; destruct X as [X|[X|X]]; discriminate X|].
  split; [vm_compute; reflexivity|]. split; [repeat constructor; discriminate|]. split; vm_compute; reflexivity.
Qed.

(** A blob with a usage that has its page, then the UsagePage item: the page
    is written twice. *)
Theorem C77_refuted : exists b ws out, blob_means b ws /\ Forall number_allowed ws /\ convert_opt empty_db b = Ok out /\
  forall ws', blob_means out ws' -> ~ no_repeats defaults (map w_what ws').
Proof.
  exists [5; 1; 11; 1; 0; 9; 0; 5; 9; 9; 2; 117; 1; 149; 2; 37; 1; 129; 2].
  exists (map wire [Item UsagePage (VInt 1); Item Usage (VInt 0x90001); Item UsagePage (VInt 9); Item Usage (VInt 2); Item ReportSize (VInt 1);
              Item ReportCount (VInt 2); Item LogicalMaximum (VInt 1); Item Input (VInt 2)]).
  exists [5; 1; 5; 9; 9; 1; 5; 9; 5; 0; 9; 2; 117; 1; 37; 1; 149; 2; 129; 2].
  split; [apply serialize_means; vm_compute; reflexivity|].
  split; [repeat constructor; intros X; destruct X as [X|[X|X]]; discriminate X|].
  split; [vm_compute; reflexivity|].
  intros ws' B X. pose (l' := [Item UsagePage (VInt 1); Item UsagePage (VInt 9); Item Usage (VInt 1); Item UsagePage (VInt 9);
              Item UsagePage (VInt 0); Item Usage (VInt 2);
              Item ReportSize (VInt 1); Item LogicalMaximum (VInt 1); Item ReportCount (VInt 2); Item Input (VInt 2)]).
  assert (B' : blob_means [5; 1; 5; 9; 9; 1; 5; 9; 5; 0; 9; 2; 117; 1; 37; 1; 149; 2; 129; 2] (map wire l'))
    by (apply serialize_means; vm_compute; reflexivity).
  pose proof (blob_means_fun _ _ _ B B') as ->. cbn in X. intuition congruence.
Qed.
Print Assumptions C77_refuted.
