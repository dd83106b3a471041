(* Properties_OptBack.v -- C65: optimised descriptors decompile. *)
From Verif Require Import Py Usage Item Parser Optimizer Descriptor Extractor HidSpec Spec StreamSpec OptSpec AllSpec ExtractSpec BackSpec
  ItemFacts ParserFacts OptFacts PassFacts OptAll TreeSpec StreamTree TreeOpt PageTree ExtractView Properties_Stream Properties_Tree Properties_Extract OptBackSpec OptBack.
Local Open Scope list_scope.
Local Open Scope Z_scope.

(** C65.  Full statement (false, see C65_refuted): without [joinable_leaves]
    and [comes_back].  The bytes of the optimised descriptor decompile, with
    any registry; the collections and values of the new tree are those a host
    reads from the bytes, in order and without the empty collections, and
    these are the fields of the first tree.  Missing: the other trees of C42,
    among them those with a NamedArray with a usage of its own. *)
Theorem C65_partial : forall db db' t b, well_formed t -> closed_tree t ->
  scaling_ok (fst (threaded 0 t)) -> uniform_leaves (fst (threaded 0 t)) ->
  same_pages (fst (threaded 0 t)) -> joinable_leaves (fst (threaded 0 t)) -> Forall comes_back (located [] (fst (threaded 0 t))) ->
  compile db true t = Ok b ->
  exists t' ev fl, decompile db' b = Ok t' /\ reads_as b ev /\ follows any_gap [] (fst (threaded 0 t)) ev /\
    drawn fl ev /\ prunes fl (scoped 0 t') /\ no_empty (scoped 0 t').
Proof. exact c65. Qed.
Print Assumptions C65_partial.

(** three buttons with strings around an Align, two axes; padding, three
    fields that each hold one of two keys *)
Definition tree65 : tree :=
  device [TReport 1 [tv (vari 0x90001 1 1 0 4 None None); tv (vari 0x90002 1 1 0 5 None None);
                     tv (mk_align input 1 (VInt 3)); tv (vari 0x90003 1 1 0 6 None None);
                     tv (vari 0x10030 8 100 0 0 None None); tv (vari 0x10031 8 100 0 0 None None)];
          TReport 2 [tv (mk_padding input 4); tv array]].

Definition shape65 (t : tree) : list (Z * option Z * Z * Z * list Z * Z) :=
  map (fun x => (fst x, option_map py_int (v_usage (snd x)), v_size (snd x), v_str (snd x), array_usages (v_named (snd x)), v_count (snd x)))
      (numbered (scoped 0 t)).

Example C65_case : well_formed tree65 /\ closed_tree tree65 /\
  scaling_ok (fst (threaded 0 tree65)) /\ uniform_leaves (fst (threaded 0 tree65)) /\
  same_pages (fst (threaded 0 tree65)) /\ joinable_leaves (fst (threaded 0 tree65)) /\ Forall comes_back (located [] (fst (threaded 0 tree65))) /\
  exists b, compile empty_db true tree65 = Ok b /\ length b = 69%nat /\
    match decompile empty_db b with Ok t' => shape65 t' =
      [(1, Some 0x90001, 1, 4, [], 1); (1, Some 0x90002, 1, 5, [], 1); (1, Some 0x90003, 1, 6, [], 1); (1, Some 0, 5, 0, [], 1);
       (1, Some 0x10030, 8, 0, [], 1); (1, Some 0x10031, 8, 0, [], 1); (2, Some 0, 8, 0, [], 1);
       (2, None, 8, 0, [0x70004; 0x70005], 1); (2, None, 8, 0, [0x70004; 0x70005], 1); (2, None, 8, 0, [0x70004; 0x70005], 1)] | Err _ => False end.
Proof.
  split; [unfold tree65, device; wf|]. split; [constructor|].
  split. { left. intros v I D. vm_compute in I.
    repeat (destruct I as [<-|I]; [first [right; split; reflexivity | left; reflexivity | discriminate D]|]). destruct I. }
  split; [nb; vm_compute; repeat split; auto; left; split; auto; discriminate|].
  split; [split; [intros v I D; vm_compute in I; repeat (destruct I as [<-|I]; [one_page|]); destruct I|nb; (split; [one_page|split; discriminate])]|].
  split; [nb; (split; [reflexivity|]; split; [reflexivity|]; intros X; vm_compute in X; discriminate X)|].
  split.
  - match goal with |- Forall _ ?q => let q' := eval vm_compute in q in change q with q' end.
    do 20 try (apply Forall_cons; [|]); [..|apply Forall_nil]; unfold comes_back; intros R; try discriminate R; clear R.
    all: split; [reflexivity|]; split; [reflexivity|]; split; [intros C1 S; vm_compute in C1, S; discriminate|].
    all: intros F S; vm_compute in F; try discriminate F.
    split; [discriminate|]. split; [reflexivity|]. split; [reflexivity|]. discriminate.
  - eexists. split; [vm_compute; reflexivity|]. split; [reflexivity|]. vm_compute. reflexivity.
Qed.

(** Not given back: two neighbouring buffers of bytes, joined, lose the second
    usage; two neighbouring fields that hold one of two keys become two
    fields with one key each; the unit of such a field is lost. *)
Definition bytes65 (u : Z) : result value :=
  mk_value KValue (VArgs input (Some (VInt u)) 8 (VInt 0x102) (Some 0) (Some 100) None None None (VInt 0) 0 0 0 1 None).
Definition keys65 (unit count : Z) : result value :=
  mk_value KValue (VArgs input None 8 (VInt 2) (Some 0) None None None (Some (NList [VInt 0x70004; VInt 0x70005])) (VInt unit) 0 0 0 count None).
Definition lost65 : list tree :=
  [device [tv (bytes65 0x10030); tv (bytes65 0x10031)];
   device [tv (keys65 0 1); tv (keys65 0 1)];
   device [tv (keys65 0x11 2)]].

Theorem C65_refuted : Forall (fun t => exists b t' ev, well_formed t /\ closed_tree t /\
  paged_leaves (fst (threaded 0 t)) /\ scaling_ok (fst (threaded 0 t)) /\ uniform_leaves (fst (threaded 0 t)) /\
  same_pages (fst (threaded 0 t)) /\ compile empty_db true t = Ok b /\ decompile empty_db b = Ok t' /\ reads_as b ev /\
  ~ exists fl, drawn fl ev /\ prunes fl (scoped 0 t')) lost65.
Proof.
  assert (X : forall t l b, well_formed t -> closed_tree t ->
     paged_leaves (fst (threaded 0 t)) -> scaling_ok (fst (threaded 0 t)) -> uniform_leaves (fst (threaded 0 t)) ->
     same_pages (fst (threaded 0 t)) -> stream_items empty_db t = Ok l -> compile empty_db true t = Ok b ->
     (exists t', decompile empty_db b = Ok t' /\ ~ fields_of (numbered (scoped 0 t')) (filter is_field (seen AtMain (optimize empty_db l)))) ->
     exists b t' ev, well_formed t /\ closed_tree t /\
       paged_leaves (fst (threaded 0 t)) /\ scaling_ok (fst (threaded 0 t)) /\ uniform_leaves (fst (threaded 0 t)) /\
       same_pages (fst (threaded 0 t)) /\ compile empty_db true t = Ok b /\ decompile empty_db b = Ok t' /\ reads_as b ev /\
       ~ exists fl, drawn fl ev /\ prunes fl (scoped 0 t')).
  { intros t l b WF CL P S U SP E C [t' [D N]]. destruct (c42_tree empty_db t b WF CL S U SP C) as [ev [R _]].
    exists b, t', ev. do 9 (split; [assumption|]). intros [fl [DR PR]]. apply N.
    unfold compile in C. rewrite E in C. cbn [bind] in C.
    assert (EV : seen AtMain (optimize empty_db l) = ev).
    { apply (R AtMain). exists (map wire (optimize empty_db l)). split; [apply serialize_means; exact C|reflexivity]. }
    rewrite EV, (prunes_numbered _ _ PR). apply drawn_fields. exact DR. }
  unfold lost65. apply Forall_cons; [|apply Forall_cons; [|apply Forall_cons; [|apply Forall_nil]]].
  all: eapply X; [unfold device; wf|constructor|vm_compute; repeat constructor; discriminate
    |left; intros v I D; vm_compute in I;
     repeat (destruct I as [<-|I]; [first [right; split; reflexivity | left; reflexivity | discriminate D]|]); destruct I
    |nb; vm_compute; repeat split; auto; left; split; auto; discriminate
    |split; [intros v I D; vm_compute in I; repeat (destruct I as [<-|I]; [one_page|]); destruct I|nb; (split; [one_page|split; discriminate])]
    |vm_compute; reflexivity|vm_compute; reflexivity|].
  all: match goal with |- exists t', decompile _ ?l = _ /\ _ => exists (tree_of (decompile empty_db l)) end; split; [vm_compute; reflexivity|].
  all: intros F.
  all: match type of F with fields_of ?a ?b => let a' := eval vm_compute in a in let b' := eval vm_compute in b in change (fields_of a' b') in F end.
  all: apply fields_of_fun in F; [|reflexivity]; destruct F as [ev' [F F2]].
  all: match type of F with ?a = ?b ++ _ => let b' := eval vm_compute in b in change (a = b' ++ ev') in F end.
  all: discriminate F.
Qed.
Print Assumptions C65_refuted.
