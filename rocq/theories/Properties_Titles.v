(* Properties_Titles.v -- C40, C41 and C42 apart from strings and designators. *)
From Coq Require Import ZifyBool.
From Verif Require Import Py Usage Item Parser Optimizer Descriptor Converter HidSpec Spec ParserFacts StreamSpec StreamProofs StreamTree
  OptSpec AllSpec TreeSpec OptFacts TreeOpt PageSpec PageShift TitleSpec TitleFacts Properties_Stream Properties_Tree.
Local Open Scope list_scope. Local Open Scope Z_scope.

(** C40 for the fields apart from their strings and designators: no condition
    on those.  Missing: trees with uneven usages, of which C40 is false. *)
Theorem C40_fields_partial : forall db t b, well_formed t -> closed_tree t ->
  scaling_ok (fst (threaded 0 t)) -> uniform_usages (fst (threaded 0 t)) ->
  compile db true t = Ok b ->
  exists ev ev0, reads_bound AtDecl b ev /\ follows any_gap [] (fst (threaded 0 t)) ev0 /\ map untitled ev = map untitled ev0.
Proof. exact c40_fields. Qed.
Print Assumptions C40_fields_partial.

(** the same under both bindings of usages *)
Theorem C42_fields_partial : forall db t b, well_formed t -> closed_tree t ->
  scaling_ok (fst (threaded 0 t)) -> uniform_usages (fst (threaded 0 t)) ->
  same_pages (fst (threaded 0 t)) -> compile db true t = Ok b ->
  exists ev0, follows any_gap [] (fst (threaded 0 t)) ev0 /\
    forall m, exists ev, reads_bound m b ev /\ map untitled ev = map untitled ev0.
Proof. exact c42_fields. Qed.
Print Assumptions C42_fields_partial.

(** Two buttons of which one has a string, and two arrays with different
    designators: C40 is false of the first two. *)
Definition list_of (d s : Z) : result value :=
  mk_value KValue (VArgs input None 8 (VInt 0) (Some 1) None None None (Some (NList [VInt 0x70004; VInt 0x70005])) (VInt 0) 0 d s 1 None).
Definition tree_titles : tree :=
  device [tv (vari 0x90001 1 1 0 4 None None); tv (vari 0x90002 1 1 0 0 None None);
          tv (list_of 1 0); tv (list_of 2 5)].

Example C40_fields_case : well_formed tree_titles /\ closed_tree tree_titles /\
  scaling_ok (fst (threaded 0 tree_titles)) /\ uniform_usages (fst (threaded 0 tree_titles)) /\
  same_pages (fst (threaded 0 tree_titles)) /\ ~ uniform_leaves (fst (threaded 0 tree_titles)) /\
  exists b, compile empty_db true tree_titles = Ok b /\ List.length b = 57%nat.
Proof.
  split; [unfold tree_titles, device; wf|]. split; [constructor|].
  split. { left. intros v I D. vm_compute in I.
    repeat (destruct I as [<-|I]; [first [right; split; reflexivity | left; reflexivity | discriminate D]|]). destruct I. }
  split. { nb; vm_compute; try (left; split; [reflexivity|discriminate]); right; right; split; [repeat constructor|reflexivity]. }
  split. { split.
    - intros v I D. vm_compute in I.
      repeat (destruct I as [<-|I]; [one_page|]). destruct I.
    - nb; (split; [one_page|split; discriminate]). }
  split; [|eexists; split; vm_compute; reflexivity].
  intros U.
  assert (N : neighbours (fst (threaded 0 tree_titles)) (getv (vari 0x90001 1 1 0 4 None None)) (getv (vari 0x90002 1 1 0 0 None None))).
  { exists [LOpen (VNamed "Application" 1) (Some (VInt 0x10002))], 0, []. eexists. repeat split. }
  apply U in N. vm_compute in N. destruct N as [_ [_ [[_ X]|[X _]]]]; [apply X; reflexivity|discriminate X].
Qed.

(** C41_always apart from strings and designators: no condition on those. *)
Theorem C41_fields_partial : forall db b ws out,
  blob_means b ws -> Forall number_allowed ws -> orderly (map w_what (no_titles ws)) -> unstacked (map w_what ws) ->
  closed_stream (map w_what ws) -> joins (uniform AtDecl) (main_states (unpaged (no_titles ws))) ->
  convert_opt db b = Ok out ->
  exists ws', blob_means out ws' /\ map untitled (host_view AtDecl ws') = map untitled (host_view AtDecl (unpaged ws)).
Proof. exact c41_titles. Qed.
Print Assumptions C41_fields_partial.

(** A designator 0 and a string for the second of two buttons. *)
Example C41_fields_case :
  let l := [Item UsagePage (VInt 1); Item Usage (VInt 2); Item Collection (VInt 1); Item UsagePage (VInt 9); Item ReportSize (VInt 1);
      Item ReportCount (VInt 1); Item LogicalMaximum (VInt 1); Item Usage (VInt 1); Item DesignatorIndex (VInt 0); Item Input (VInt 2);
      Item Usage (VInt 2); Item StringIndex (VInt 3); Item Input (VInt 2); Item EndCollection (VInt 0)] in
  exists b out, serialize l = Ok b /\ blob_means b (map wire l) /\ Forall number_allowed (map wire l) /\
    orderly (map w_what (no_titles (map wire l))) /\ unstacked (map w_what (map wire l)) /\ closed_stream (map w_what (map wire l)) /\
    joins (uniform AtDecl) (main_states (unpaged (no_titles (map wire l)))) /\ convert_opt empty_db b = Ok out /\
    exists ws', blob_means out ws' /\ host_view AtDecl ws' <> host_view AtDecl (unpaged (map wire l)).
Proof.
  intros l. do 2 eexists. split; [vm_compute; reflexivity|].
  split; [apply serialize_means; vm_compute; reflexivity|].
  split; [repeat constructor; intros X; destruct X as [X|[X|X]]; discriminate X|].
  split; [split; [repeat constructor; discriminate|left; repeat constructor; discriminate]|].
  split; [repeat constructor; discriminate|].
  split; [match goal with |- closed_stream ?l => exists (removelast l), (EndCollection, 0) end; split; [|split]; reflexivity|].
  split; [|split; [vm_compute; reflexivity|]].
  2:{ exists (map wire (optimize empty_db l)). split; [apply serialize_means; vm_compute; reflexivity|vm_compute; discriminate]. }
  intros l1 e1 e2 l2 E J.
  match type of E with ?x = _ => let y := eval vm_compute in x in change x with y in E end.
  assert (L : (length l1 <= 2)%nat) by (apply (f_equal (@length _)) in E; rewrite app_length in E; cbn [length] in E; lia).
  destruct l1 as [|? [|? [|? ?]]]; [..|cbn [length] in L; lia]; cbn [app] in E; injection E; intros; subst; clear E L.
  - destruct J as [J _]. discriminate J.
  - cbn [uniform]. split; [reflexivity|]. split; [unfold paired; repeat apply Forall_cons; try apply Forall_nil; split; reflexivity|].
    intros _. split; [reflexivity|]. split; [reflexivity|]. vm_compute.
    split; [left; split; [reflexivity|discriminate]|]. split; right; auto.
  - destruct J as [_ [J _]]. discriminate J.
Qed.
