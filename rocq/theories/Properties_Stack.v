(* Properties_Stack.v -- C34, C36, C41: streams with Push and Pop. *)
From Coq Require Import ZifyBool.
From Verif Require Import Py Usage Item Parser Optimizer Converter HidSpec Spec ItemFacts ParserFacts OptSpec AllSpec OptFacts
  PassFacts PageSpec StackSpec StackFacts Properties_Optimizer.
Local Open Scope list_scope. Local Open Scope Z_scope.

(** C34 for every stream, as far as it holds: Push and Pop items all stay, and
    a host that does not know them reads the same from the rest, in which no
    global item writes again what is written. *)
Theorem C34_always : forall m l, let out := run_pass global_merge l in
  host_view m (no_stack (map wire out)) = host_view m (no_stack (map wire l)) /\
  only_stack (map wire out) = only_stack (map wire l) /\
  no_repeats defaults (map w_what (no_stack (map wire out))).
Proof. exact c34_always. Qed.
Print Assumptions C34_always.

Example C34_always_case :
  let l := items [(LogicalMaximum, 5); (ReportSize, 4); (ReportCount, 1); (Push, 0); (LogicalMaximum, 7); (Input, 2);
                  (Pop, 0); (LogicalMaximum, 7); (Push, 0); (Push, 0); (Input, 2); (Input, 2)] in
  map cv (run_pass global_merge l) =
    [(LogicalMaximum, 5); (ReportSize, 4); (ReportCount, 1); (Push, 0); (LogicalMaximum, 7); (Input, 2);
     (Pop, 0); (Push, 0); (Push, 0); (Input, 2); (Input, 2)] /\
  seen AtDecl (run_pass global_merge l) <> seen AtDecl l /\
  length (host_view AtDecl (no_stack (map wire l))) = 3%nat.
Proof. split; [vm_compute; reflexivity|]. split; [vm_compute; discriminate|vm_compute; reflexivity]. Qed.

(** C36 for every stream of usages with their page, in the same way. *)
Theorem C36_always : forall db l, Forall constructed l -> extended (map cv l) ->
  let out := run_pass (usage_page_pass db) l in
  host_view AtDecl (no_stack (map wire out)) = host_view AtDecl (no_stack (map wire l)) /\
  only_stack (map wire out) = only_stack (map wire l).
Proof. exact c36_always. Qed.
Print Assumptions C36_always.

Example C36_always_case :
  let l := items [(ReportSize, 1); (ReportCount, 1); (Usage, 0x10030); (Push, 0); (Usage, 0x90001); (Input, 2); (Pop, 0);
                  (Usage, 0x90002); (Input, 2)] in
  Forall constructed l /\ extended (map cv l) /\ length (only_stack (map wire l)) = 2%nat /\
  length (host_view AtDecl (no_stack (map wire l))) = 2%nat.
Proof.
  split; [apply items_built|]. split; [vm_compute; repeat constructor; discriminate|]. split; vm_compute; reflexivity.
Qed.

(** C41_always without its condition on Push and Pop: a host that does not
    know them reads from the converted blob what it reads from the blob with
    the UsagePage items left out. *)
Theorem C41_stack_partial : forall db b ws out,
  blob_means b ws -> Forall number_allowed ws -> orderly (map w_what (no_stack ws)) ->
  closed_stream (map w_what ws) -> joins (uniform AtDecl) (main_states (unpaged (no_stack ws))) ->
  convert_opt db b = Ok out ->
  exists ws', blob_means out ws' /\ map w_what (only_stack ws') = map w_what (only_stack ws) /\
    host_view AtDecl (no_stack ws') = host_view AtDecl (unpaged (no_stack ws)).
Proof. exact c41_stack. Qed.
Print Assumptions C41_stack_partial.

(** Two buttons around a Push and a Pop. *)
Example C41_stack_case :
  let l := [Item UsagePage (VInt 1); Item Usage (VInt 2); Item Collection (VInt 1); Item UsagePage (VInt 9); Item ReportSize (VInt 1);
      Item ReportCount (VInt 1); Item LogicalMaximum (VInt 1); Item Push (VInt 0); Item Usage (VInt 1); Item Input (VInt 2);
      Item Pop (VInt 0); Item Usage (VInt 2); Item Input (VInt 2); Item EndCollection (VInt 0)] in
  exists b out, serialize l = Ok b /\ blob_means b (map wire l) /\ Forall number_allowed (map wire l) /\
    orderly (map w_what (no_stack (map wire l))) /\ closed_stream (map w_what (map wire l)) /\
    joins (uniform AtDecl) (main_states (unpaged (no_stack (map wire l)))) /\ convert_opt empty_db b = Ok out /\
    out <> b.
Proof.
  intros l. do 2 eexists. split; [vm_compute; reflexivity|].
  split; [apply serialize_means; vm_compute; reflexivity|].
  split; [repeat constructor; intros X; destruct X as [X|[X|X]]; discriminate X|].
  split; [split; [repeat constructor; discriminate|left; repeat constructor; discriminate]|].
  split; [match goal with |- closed_stream ?l => exists (removelast l), (EndCollection, 0) end; split; [|split]; reflexivity|].
  split; [|split; [vm_compute; reflexivity|discriminate]].
  intros l1 e1 e2 l2 E J.
  match type of E with ?x = _ => let y := eval vm_compute in x in change x with y in E end.
  assert (L : (length l1 <= 2)%nat) by (apply (f_equal (@length _)) in E; rewrite app_length in E; cbn [length] in E; lia).
  destruct l1 as [|? [|? [|? ?]]]; [..|cbn [length] in L; lia]; cbn [app] in E; injection E; intros; subst; clear E L.
  - destruct J as [J _]. discriminate J.
  - cbn [uniform]. split; [reflexivity|]. split; [unfold paired; repeat apply Forall_cons; try apply Forall_nil; split; reflexivity|].
    intros _. split; [reflexivity|]. split; [reflexivity|]. vm_compute.
    split; [left; split; [reflexivity|discriminate]|]. split; right; auto.
  - destruct J as [_ [J _]]. discriminate J.
Qed.
