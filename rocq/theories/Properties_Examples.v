(* Properties_Examples.v -- C70: the descriptors that come with the project. *)
From Verif Require Import Py Usage Item Parser Optimizer Descriptor Extractor HidSpec Spec StreamSpec OptSpec AllSpec ExtractSpec BackSpec
  ItemFacts ParserFacts OptFacts PassFacts OptAll TreeSpec StreamTree TreeOpt PageTree ExtractView DumpSpec NameTree
  Properties_Stream Properties_Tree Properties_Extract OptBackSpec OptBack.
From Verif Require ModelTests.
Local Open Scope list_scope.
Local Open Scope Z_scope.

(** examples/battery.py, examples/keyboard.py, examples/mouse.py and
    tests/issue_7/test.py:6-14, computed *)
Definition battery : tree := Eval vm_compute in ModelTests.battery.
Definition keyboard : tree := Eval vm_compute in ModelTests.keyboard.
Definition mouse70 : tree := Eval vm_compute in ModelTests.mouse.
Definition sensor : tree := Eval vm_compute in ModelTests.issue_7.

Definition shipped : list tree := [battery; keyboard; mouse70; sensor].

(** what the theorems about optimised descriptors ask of a tree *)
Definition in_reach (t : tree) : Prop :=
  well_formed t /\ closed_tree t /\
  scaling_ok (fst (threaded 0 t)) /\ uniform_leaves (fst (threaded 0 t)) /\
  same_pages (fst (threaded 0 t)) /\ joinable_leaves (fst (threaded 0 t)) /\ Forall comes_back (located [] (fst (threaded 0 t))).

Lemma wf_get r k a : r = mk_value k a -> well_formed (ModelTests.get_value r).
Proof. intros ->. apply wf_tv. Qed.

Lemma compact_by ls : forallb (fun x => forallb (fun u => (65536 <=? u) && ((u / 65536 <? 256) || (u mod 65536 <? 256))) (leaf_usages x)) ls = true ->
  compact_leaves ls.
Proof.
  intros H. apply Forall_forall. intros x I. rewrite forallb_forall in H. apply H in I. rewrite forallb_forall in I.
  apply Forall_forall. intros u J. apply I in J. apply andb_true_iff in J as [A B]. apply orb_true_iff in B. lia.
Qed.

Ltac page := match goal with |- exists p, of_page p ?us =>
  let us' := eval vm_compute in us in
  match us' with
  | [] => exists 0; apply page_by; vm_compute; reflexivity
  | ?u :: _ => let p := eval vm_compute in (u / 65536) in exists p; apply page_by; vm_compute; reflexivity
  end end.

Ltac nb70 tac := intros v1 v2 N; apply neighbours_nbrs in N; destruct N as [r [I A]]; vm_compute in I;
  repeat first [solve [destruct I] | destruct I as [I|I]; [injection I as <- <- <-; solve [discriminate A | clear A; tac]|]].

Ltac reach :=
  split; [apply cl_coll|];
  split; [left; intros v I D; vm_compute in I;
    repeat (destruct I as [<-|I]; [first [right; split; reflexivity | left; reflexivity | discriminate D]|]); destruct I|];
  split; [nb70 ltac:(vm_compute; repeat split; auto; left; split; auto; discriminate)|];
  split; [split; [intros v I D; vm_compute in I; repeat (destruct I as [<-|I]; [page|]); destruct I|nb70 ltac:(split; [page|split; discriminate])]|];
  split; [nb70 ltac:(split; [reflexivity|]; split; [reflexivity|]; intros X; vm_compute in X; discriminate X)|];
  match goal with |- Forall _ ?q => let q' := eval vm_compute in q in change q with q' end;
  do 20 try (apply Forall_cons; [|]); [..|apply Forall_nil]; unfold comes_back; intros R; try discriminate R; clear R;
  (split; [reflexivity|]; split; [reflexivity|]; split; [intros C1 S; vm_compute in C1, S; discriminate|]);
  intros F S; vm_compute in F; try discriminate F;
  (split; [discriminate|]; split; [reflexivity|]; split; [reflexivity|]; discriminate).

Lemma battery_reach : in_reach battery.
Proof.
  split; [|reach].
  change battery with ModelTests.battery. unfold ModelTests.battery. cbn [well_formed].
  repeat split; try discriminate. apply (wf_get _ _ _ eq_refl).
Qed.

Lemma keyboard_reach : in_reach keyboard.
Proof.
  split; [|reach].
  change keyboard with ModelTests.keyboard. unfold ModelTests.keyboard. cbn [well_formed map app].
  repeat split; try discriminate; apply (wf_get _ _ _ eq_refl).
Qed.

Lemma mouse_reach : in_reach mouse70.
Proof.
  split; [|reach].
  change mouse70 with ModelTests.mouse. unfold ModelTests.mouse. cbn [well_formed].
  repeat split; try discriminate; apply (wf_get _ _ _ eq_refl).
Qed.

Lemma sensor_reach : in_reach sensor.
Proof.
  split; [|reach].
  change sensor with ModelTests.issue_7. unfold ModelTests.issue_7. cbn [well_formed].
  repeat split; try discriminate; apply (wf_get _ _ _ eq_refl).
Qed.

Lemma rebuilt_refl v : rebuilt v v.
Proof. constructor; try reflexivity. destruct (v_named v) as [[|]|]; cbn; auto. Qed.

Lemma compiles db t : same_tree t t -> kinds_ok t -> forall opt b, compile empty_db opt t = Ok b -> compile db opt t = Ok b.
Proof. intros S K opt b C. rewrite (c51 empty_db db opt t t S K). exact C. Qed.

Lemma shipped_one t b b0 : in_reach t -> same_tree t t -> kinds_ok t ->
  Forall (tame (fun a => a = 8)) (leaf_values (fst (threaded 0 t))) ->
  fst (threaded 0 t) = fst (entered 0 t) -> fst (threaded 0 t) = scoped 0 t ->
  compile empty_db true t = Ok b -> compile empty_db false t = Ok b0 -> (length b < length b0)%nat ->
  forall db db', exists ev t' fl, compile db true t = Ok b /\ compile db false t = Ok b0 /\ (length b < length b0)%nat /\
    reads_as b ev /\ reads_as b0 ev /\ follows aligned_gap [] (scoped 0 t) ev /\
    decompile db' b = Ok t' /\ drawn fl ev /\ prunes fl (scoped 0 t') /\ no_empty (scoped 0 t').
Proof.
  intros [WF [CL [SC [UN [SP [JO CB]]]]]] ST K T EN SCO C C0 L db db'.
  pose proof (compiles db t ST K _ _ C) as D. pose proof (compiles db t ST K _ _ C0) as D0.
  destruct (c65 db db' t b WF CL SC UN SP JO CB D) as [t' [ev [fl [DE [R [_ [DR [PR NE]]]]]]]].
  destruct (compile_run db (fun a => a = 8) t b0 WF D0) as [ev0 [R0 [_ AL]]].
  assert (Q : ev0 = ev).
  { pose proof (c40_same_tree db t b b0 ev0 WF CL SC UN D D0 R0) as B. apply (R AtDecl). apply B. reflexivity. }
  subst ev0. exists ev, t', fl. repeat (split; [assumption|]). split; [|auto].
  rewrite <- SCO. apply AL; assumption.
Qed.

(** C70.  The four descriptors that come with the project: whatever usages are
    registered, they compile with and without optimisation, the optimised bytes
    are fewer, both have one and the same reading, whatever the time at which
    the host binds usage pages; the reading holds the collections and values of
    the tree, in order, in their reports and aligned; and the optimised bytes
    decompile, with any registry, to a tree with these collections and values
    (up to empty collections). *)
Theorem C70 : Forall (fun t => exists b b0, forall db db', exists ev t' fl,
    compile db true t = Ok b /\ compile db false t = Ok b0 /\ (length b < length b0)%nat /\
    reads_as b ev /\ reads_as b0 ev /\ follows aligned_gap [] (scoped 0 t) ev /\
    decompile db' b = Ok t' /\ drawn fl ev /\ prunes fl (scoped 0 t') /\ no_empty (scoped 0 t')) shipped.
Proof.
  assert (X : forall t, in_reach t -> same_tree t t -> kinds_ok t ->
    Forall (tame (fun a => a = 8)) (leaf_values (fst (threaded 0 t))) ->
    fst (threaded 0 t) = fst (entered 0 t) -> fst (threaded 0 t) = scoped 0 t ->
    (exists b b0, compile empty_db true t = Ok b /\ compile empty_db false t = Ok b0 /\ (length b < length b0)%nat) ->
    exists b b0, forall db db', exists ev t' fl,
    compile db true t = Ok b /\ compile db false t = Ok b0 /\ (length b < length b0)%nat /\
    reads_as b ev /\ reads_as b0 ev /\ follows aligned_gap [] (scoped 0 t) ev /\
    decompile db' b = Ok t' /\ drawn fl ev /\ prunes fl (scoped 0 t') /\ no_empty (scoped 0 t')).
  { intros t R S K T E1 E2 [b [b0 [C [C0 L]]]]. exists b, b0. eapply shipped_one; eassumption. }
  repeat apply Forall_cons; [..|apply Forall_nil]; apply X;
    first [exact battery_reach | exact keyboard_reach | exact mouse_reach | exact sensor_reach
    | reflexivity
    | solve [repeat first [apply same_coll; [reflexivity|reflexivity|] | apply same_report | apply same_value; apply rebuilt_refl | apply same_more | apply same_none]]
    | solve [cbn; repeat split; discriminate]
    | solve [eexists; eexists; (split; [vm_compute; reflexivity|]); (split; [vm_compute; reflexivity|]); apply Nat.ltb_lt; vm_compute; reflexivity]
    | idtac].
  all: match goal with |- Forall _ ?q => let q' := eval vm_compute in q in change q with q' end.
  all: repeat (apply Forall_cons; [split; [intros L; vm_compute in L; first [discriminate L|reflexivity]|intros a ->;
         match goal with |- (_ | ?q) => let q' := eval vm_compute in q in change q with q'; exists (q' / 8); vm_compute; reflexivity end]|]); apply Forall_nil.
Qed.
Print Assumptions C70.

(** bytes, optimised and not; fields of the optimised bytes once decompiled *)
Example C70_case :
  map (fun t => match compile empty_db true t, compile empty_db false t with
    Ok b, Ok b0 => Some (length b, length b0, match decompile empty_db b with Ok t' => length (numbered (scoped 0 t')) | Err _ => O end)
    | _, _ => None end) shipped
  = [Some (28, 39, 1); Some (50, 1390, 17); Some (37, 123, 5); Some (43, 88, 4)]%nat.
Proof. vm_compute. reflexivity. Qed.
