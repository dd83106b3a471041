(* Properties_Spine.v -- C103: collections do not change the fields. *)
From Verif Require Import Py Usage Item Parser Optimizer Descriptor UsageModules HidSpec Spec StreamSpec OptSpec TreeSpec
  ItemFacts ParserFacts OptFacts PassFacts StreamTree Properties_Stream Properties_Extract LayoutSpec Properties_Layout
  Properties_Ids Properties_Numbered Properties_Apart SpineSpec SpineProofs.
Local Open Scope list_scope.
Local Open Scope Z_scope.

(** C103.  Two trees with the same Reports and values from top to bottom: a
    host reads the same fields with the same attributes, usages included. *)
Theorem C103_fields db db' t t' b b' m m' ev ev' : well_formed t -> well_formed t' -> compile db false t = Ok b -> compile db' false t' = Ok b' ->
  spine t = spine t' -> host_reads m b ev -> host_reads m' b' ev' -> fields ev = fields ev'.
Proof. exact (c103 db db' t t' b b' m m' ev ev'). Qed.
Print Assumptions C103_fields.

(** Optimised or not on either side: kinds, ids and sizes. *)
Theorem C103_places db db' opt opt' t t' b b' m m' ev ev' : well_formed t -> well_formed t' ->
  (opt = true -> closed_tree t) -> (opt' = true -> closed_tree t') -> compile db opt t = Ok b -> compile db' opt' t' = Ok b' ->
  spine t = spine t' -> host_reads m b ev -> host_reads m' b' ev' -> map place_of (fields ev) = map place_of (fields ev').
Proof. exact (c103_places db db' opt opt' t t' b b' m m' ev ev'). Qed.
Print Assumptions C103_places.

(** a Report that ends within a collection and goes on in the next; all in one *)
Definition deep103 : tree := TTop [TColl (VInt 1) mouse [axis97 0x10030; TColl (VInt 0) mouse [TReport 1 [pad98]; align99]]; TColl (VInt 2) mouse [TReport 0 [TColl (VInt 0) mouse [align99]; axis97 0x10031]]].
Definition flat103 : tree := TTop [TColl (VInt 1) mouse [axis97 0x10030; TReport 1 [pad98; align99; TReport 0 [align99; axis97 0x10031]]]].

Example C103_case : well_formed deep103 /\ well_formed flat103 /\ closed_tree deep103 /\ closed_tree flat103 /\
  (exists b, compile default_db false deep103 = Ok b) /\ (exists b, compile default_db false flat103 = Ok b) /\
  (exists b, compile default_db true deep103 = Ok b) /\ (exists b, compile default_db true flat103 = Ok b) /\
  spine deep103 = spine flat103 /\
  map place_of (tree_layout deep103) =
    [POpen 1; PField Input 0 8; POpen 0; PField Input 1 3; PField Input 1 5; PClose; PClose; POpen 2; POpen 0; PClose; PField Input 1 8; PClose] /\
  map place_of (fields (tree_layout flat103)) = [PField Input 0 8; PField Input 1 3; PField Input 1 5; PField Input 1 8].
Proof.
  assert (W : well_formed align99) by (unfold align99; wf).
  split; [wf; try exact W; unfold axis97, pad98; wf|]. split; [wf; try exact W; unfold axis97, pad98; wf|].
  split; [apply (cl_top [_]); apply cl_coll|]. split; [apply (cl_top []); apply cl_coll|].
  do 4 (split; [eexists; vm_compute; reflexivity|]).
  split; [reflexivity|]. split; vm_compute; reflexivity.
Qed.
