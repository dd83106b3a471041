(* Properties_Renumber.v -- C100: other ids for the Reports of a tree. *)
From Coq Require Import Lia ZifyBool.
From Verif Require Import Py Usage Item Parser Optimizer Descriptor UsageModules HidSpec Spec StreamSpec OptSpec TreeSpec DumpSpec AcceptSpec
  ItemFacts ParserFacts OptFacts PassFacts StreamTree Properties_Stream Properties_Extract LayoutSpec Properties_Layout
  Properties_Ids Properties_Numbered Properties_Apart RenumberSpec RenumberProofs.
Local Open Scope list_scope.
Local Open Scope Z_scope.

(** C100.  A host reads the same fields with all their attributes, in the
    reports of the new ids. *)
Theorem C100_fields db db' f t b b' m m' ev ev' : renumbering f -> well_formed t ->
  compile db false t = Ok b -> compile db' false (renumber f t) = Ok b' ->
  host_reads m b ev -> host_reads m' b' ev' -> ev' = map (renumber_event f) ev.
Proof. exact (c100 db db' f t b b' m m' ev ev'). Qed.
Print Assumptions C100_fields.

(** Optimised or not on either side: kinds, ids and sizes. *)
Theorem C100_places db db' opt opt' f t b b' m m' ev ev' : renumbering f -> well_formed t -> (opt = true \/ opt' = true -> closed_tree t) ->
  compile db opt t = Ok b -> compile db' opt' (renumber f t) = Ok b' ->
  host_reads m b ev -> host_reads m' b' ev' -> map place_of ev' = map place_of (map (renumber_event f) ev).
Proof. exact (c100_places db db' opt opt' f t b b' m m' ev ev'). Qed.
Print Assumptions C100_places.

(** The tree with the new ids compiles, too, if these are from 0 to 255. *)
Theorem C100_compiles db f t b : renumbering f -> (forall z, 0 <= z < 256 -> 0 <= f z < 256) -> (forall z, 0 <= z < 2 ^ 32 -> 0 <= f z < 2 ^ 32) ->
  kinds_ok t -> modest t -> compile db false t = Ok b -> exists b', compile db false (renumber f t) = Ok b'.
Proof. exact (c100_compiles db f t b). Qed.
Print Assumptions C100_compiles.

(** 1 for 200 and 200 for 1 *)
Definition swap100 (z : Z) : Z := if z =? 1 then 200 else if z =? 200 then 1 else z.

(** with values after their Reports and in Report(0) *)
Definition tree100 : tree := TTop [TColl (VInt 1) mouse
  [pad98; TReport 1 [pad98]; TReport 200 [axis97 0x10030; pad98]; TReport 1 [align99; axis97 0x10031]; TReport 0 [align99; axis97 0x10032]; TReport 3 [pad98]]].

Example C100_case : renumbering swap100 /\ (forall z, 0 <= z < 256 -> 0 <= swap100 z < 256) /\ (forall z, 0 <= z < 2 ^ 32 -> 0 <= swap100 z < 2 ^ 32) /\
  well_formed tree100 /\ closed_tree tree100 /\ kinds_ok tree100 /\ modest tree100 /\
  (exists b, compile default_db false tree100 = Ok b) /\ (exists b, compile default_db true (renumber swap100 tree100) = Ok b) /\
  map place_of (tree_layout tree100) =
    [POpen 1; PField Input 0 3; PField Input 1 3; PField Input 200 8; PField Input 200 3; PField Input 1 5; PField Input 1 8; PField Input 1 5; PField Input 1 8; PField Input 3 3; PClose] /\
  map place_of (tree_layout (renumber swap100 tree100)) =
    [POpen 1; PField Input 0 3; PField Input 200 3; PField Input 1 8; PField Input 1 3; PField Input 200 5; PField Input 200 8; PField Input 200 5; PField Input 200 8; PField Input 3 3; PClose].
Proof.
  assert (W : well_formed align99) by (unfold align99; wf).
  split; [split; [reflexivity|]; unfold swap100; intros a b; destruct (a =? 1) eqn:?, (a =? 200) eqn:?, (b =? 1) eqn:?, (b =? 200) eqn:?; lia|].
  do 2 (split; [intros z; unfold swap100; destruct (z =? 1); [lia|]; destruct (z =? 200); lia|]).
  split; [wf; try exact W; unfold axis97, pad98; wf|]. split; [apply (cl_top []); apply cl_coll|].
  split; [vm_compute; intuition discriminate|].
  split; [unfold modest; match goal with |- Forall _ ?q => let q' := eval vm_compute in q in change q with q' end; repeat constructor; discriminate|].
  do 2 (split; [eexists; vm_compute; reflexivity|]). split; vm_compute; reflexivity.
Qed.
