(* Properties_Apart.v -- C99: reports do not influence each other. *)
From Verif Require Import Py Usage Item Parser Optimizer Descriptor UsageModules HidSpec Spec StreamSpec OptSpec TreeSpec
  ItemFacts ParserFacts OptFacts PassFacts StreamTree Properties_Stream Properties_Extract LayoutSpec Properties_Layout
  Properties_Ids Properties_Numbered NumberedSpec ApartSpec ApartProofs.
Local Open Scope list_scope.
Local Open Scope Z_scope.

(** C99.  Full statement (false, see C99_refuted): with Report(0), too.  Two
    trees with the same values in report [r], whatever there is in other
    reports, in whatever order and collections: a host reads the same fields in
    report [r], gaps for alignment included. *)
Theorem C99_partial db db' r t t' b b' m m' ev ev' : well_formed t -> well_formed t' -> compile db false t = Ok b -> compile db' false t' = Ok b' ->
  ~ In (Some 0) (marks t) -> ~ In (Some 0) (marks t') -> values_of r (fst (entered 0 t)) = values_of r (fst (entered 0 t')) ->
  host_reads m b ev -> host_reads m' b' ev' -> fields_of r ev = fields_of r ev'.
Proof. exact (c99 db db' r t t' b b' m m' ev ev'). Qed.
Print Assumptions C99_partial.

(** Optimised or not on either side: kinds, ids and sizes of the fields.
    Missing: the other attributes, for which see C40. *)
Theorem C99_places_partial db db' opt opt' r t t' b b' m m' ev ev' : well_formed t -> well_formed t' ->
  (opt = true -> closed_tree t) -> (opt' = true -> closed_tree t') -> compile db opt t = Ok b -> compile db' opt' t' = Ok b' ->
  ~ In (Some 0) (marks t) -> ~ In (Some 0) (marks t') -> values_of r (fst (entered 0 t)) = values_of r (fst (entered 0 t')) ->
  host_reads m b ev -> host_reads m' b' ev' -> map place_of (fields_of r ev) = map place_of (fields_of r ev').
Proof. exact (c99_places db db' opt opt' r t t' b b' m m' ev ev'). Qed.
Print Assumptions C99_places_partial.

Definition align99 : tree := tv (mk_align (VNamed "Input" 8) 8 (VInt 3)).

(** reports 1 and 2 field by field in turn; then report 2, three more bits in
    report 3, and report 1 in a collection of its own *)
Definition tree99 : tree := TTop [TColl (VInt 1) mouse
  [TReport 1 [pad98]; TReport 2 [axis97 0x10030]; TReport 1 [align99; axis97 0x10031]; TReport 2 [pad98; align99]]].
Definition tree99' : tree := TTop [TColl (VInt 1) mouse
  [TReport 2 [axis97 0x10030; pad98; align99]; TReport 3 [pad98]; TReport 1 [TColl (VInt 0) mouse [pad98; align99; axis97 0x10031]]]].

Example C99_case : well_formed tree99 /\ well_formed tree99' /\ closed_tree tree99 /\ closed_tree tree99' /\
  (exists b, compile default_db false tree99 = Ok b) /\ (exists b, compile default_db false tree99' = Ok b) /\
  (exists b, compile default_db true tree99 = Ok b) /\ (exists b, compile default_db true tree99' = Ok b) /\
  ~ In (Some 0) (marks tree99) /\ ~ In (Some 0) (marks tree99') /\
  Forall (fun r => values_of r (fst (entered 0 tree99)) = values_of r (fst (entered 0 tree99'))) [1; 2] /\
  map place_of (fields_of 1 (tree_layout tree99)) = [PField Input 1 3; PField Input 1 5; PField Input 1 8] /\
  map place_of (fields_of 2 (tree_layout tree99)) = [PField Input 2 8; PField Input 2 3; PField Input 2 5].
Proof.
  assert (W : well_formed align99) by (unfold align99; wf).
  split; [wf; try exact W; unfold axis97, pad98; wf|]. split; [wf; try exact W; unfold axis97, pad98; wf|].
  split; [apply (cl_top []); apply cl_coll|]. split; [apply (cl_top []); apply cl_coll|].
  do 4 (split; [eexists; vm_compute; reflexivity|]).
  do 2 (split; [vm_compute; intuition discriminate|]).
  split; [repeat constructor|]. split; vm_compute; reflexivity.
Qed.

(** The Inputs, Outputs and Features of one id are reports of their own. *)
Theorem C99_kinds_partial db db' c r t t' b b' m m' ev ev' : well_formed t -> well_formed t' -> compile db false t = Ok b -> compile db' false t' = Ok b' ->
  ~ In (Some 0) (marks t) -> ~ In (Some 0) (marks t') ->
  kind_values c (values_of r (fst (entered 0 t))) = kind_values c (values_of r (fst (entered 0 t'))) ->
  host_reads m b ev -> host_reads m' b' ev' -> kind_of c (fields_of r ev) = kind_of c (fields_of r ev').
Proof. exact (c99_kinds db db' c r t t' b b' m m' ev ev'). Qed.
Print Assumptions C99_kinds_partial.

(** report 1 with Outputs among the Inputs *)
Definition led99 : tree := tv (mk_padding (VNamed "Output" 9) 2).
Definition tree99_out : tree := TTop [TColl (VInt 1) mouse [TReport 1 [led99; pad98; led99; align99; led99; axis97 0x10031; led99]]].

Example C99_kinds_case : well_formed tree99_out /\ (exists b, compile default_db false tree99_out = Ok b) /\ ~ In (Some 0) (marks tree99_out) /\
  kind_values Input (values_of 1 (fst (entered 0 tree99))) = kind_values Input (values_of 1 (fst (entered 0 tree99_out))) /\
  map place_of (fields_of 1 (tree_layout tree99_out)) =
    [PField Output 1 2; PField Input 1 3; PField Output 1 2; PField Input 1 5; PField Output 1 2; PField Input 1 8; PField Output 1 2] /\
  map place_of (kind_of Input (fields_of 1 (tree_layout tree99_out))) = map place_of (fields_of 1 (tree_layout tree99)).
Proof.
  assert (W : well_formed align99) by (unfold align99; wf).
  split; [wf; try exact W; unfold axis97, pad98, led99; wf|].
  split; [eexists; vm_compute; reflexivity|]. split; [vm_compute; intuition discriminate|]. split; [vm_compute; reflexivity|]. split; vm_compute; reflexivity.
Qed.

(** The fields of Report(0) are read in the report before it. *)
Theorem C99_refuted : exists t t' b b' ev ev', compile default_db false t = Ok b /\ compile default_db false t' = Ok b' /\
  values_of 1 (fst (entered 0 t)) = values_of 1 (fst (entered 0 t')) /\ reads_as b ev /\ reads_as b' ev' /\ fields_of 1 ev <> fields_of 1 ev'.
Proof.
  set (t := TTop [TColl (VInt 1) mouse [TReport 1 [axis97 0x10030]; TReport 0 [axis97 0x10031]]]).
  set (t' := TTop [TColl (VInt 1) mouse [TReport 0 [axis97 0x10031]; TReport 1 [axis97 0x10030]]]).
  exists t, t', (match compile default_db false t with Ok b => b | Err _ => [] end), (match compile default_db false t' with Ok b => b | Err _ => [] end),
    (tree_layout t), (tree_layout t').
  assert (C : compile default_db false t = Ok (match compile default_db false t with Ok b => b | Err _ => [] end)) by (vm_compute; reflexivity).
  assert (C' : compile default_db false t' = Ok (match compile default_db false t' with Ok b => b | Err _ => [] end)) by (vm_compute; reflexivity).
  split; [exact C|]. split; [exact C'|]. split; [reflexivity|].
  split; [apply (C76 default_db); [|exact C]; wf; unfold axis97; wf|].
  split; [apply (C76 default_db); [|exact C']; wf; unfold axis97; wf|].
  intros E. apply (f_equal (@length event)) in E. vm_compute in E. discriminate E.
Qed.
Print Assumptions C99_refuted.
