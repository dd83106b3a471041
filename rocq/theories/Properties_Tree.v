(* Properties_Tree.v -- C40 to C43: the whole optimiser on trees and blobs. *)
From Coq Require Import ZifyBool.
From Verif Require Import Py Usage Item Parser Optimizer Descriptor Converter HidSpec Spec ParserFacts StreamSpec
  StreamProofs StreamTree OptSpec AllSpec TreeSpec OptFacts PassFacts OptAll TreeOpt PageSpec PageShift PageTree SizeFacts SizeMore Properties_Stream.
Local Open Scope Z_scope.

(** Two values: the sample device has three buttons with strings, two axes,
    an array and a named array, in two reports. *)
Definition vari (u size lmax d s : Z) (pm px : option Z) : result value :=
  mk_value KValue (VArgs input (Some (VInt u)) size (VInt 2) (Some 0) (Some lmax) pm px None (VInt 0) 0 d s 1 None).
Definition device (ms : list tree) : tree := TColl (VNamed "Application" 1) (Some (VInt 0x10002)) ms.

Definition tree40 : tree :=
  device [TReport 1 [tv (vari 0x90001 1 1 0 4 None None); tv (vari 0x90002 1 1 0 5 None None);
                     tv (mk_align input 1 (VInt 3)); tv (vari 0x90003 1 1 0 6 None None);
                     tv (vari 0x10030 8 100 0 0 None None); tv (vari 0x10031 8 100 0 0 None None)];
          TReport 2 [tv (mk_padding input 4); tv array; tv array_named]].

Ltac nb := intros v1 v2 N; apply neighbours_nbrs in N; destruct N as [r [I A]]; vm_compute in I;
  repeat (destruct I as [I|I]; [injection I as <- <- <-; try discriminate A; clear A|]); [..|destruct I].

Lemma page_by p us : forallb (fun u => u / 65536 =? p) us = true -> of_page p us.
Proof. intros H. apply Forall_forall. intros u I. rewrite forallb_forall in H. apply H in I. lia. Qed.

Ltac one_page := first [exists 7; apply page_by; vm_compute; reflexivity | exists 9; apply page_by; vm_compute; reflexivity
  | exists 1; apply page_by; vm_compute; reflexivity].

Lemma leaves40 : well_formed tree40 /\ closed_tree tree40 /\ paged_leaves (fst (threaded 0 tree40)) /\
  scaling_ok (fst (threaded 0 tree40)) /\ uniform_leaves (fst (threaded 0 tree40)) /\ same_pages (fst (threaded 0 tree40)).
Proof.
  split; [unfold tree40, device; wf|]. split; [constructor|].
  split; [vm_compute; repeat constructor; discriminate|].
  split. { left. intros v I D. vm_compute in I.
    repeat (destruct I as [<-|I]; [first [right; split; reflexivity | left; reflexivity | discriminate D]|]). destruct I. }
  split.
  - nb; vm_compute; repeat split; auto; left; split; auto; discriminate.
  - split.
    + intros v I D. vm_compute in I.
      repeat (destruct I as [<-|I]; [one_page|]). destruct I.
    + nb; (split; [one_page|split; discriminate]).
Qed.

(** C40 for trees of uniform values that end in a collection and whose
    physical ranges do not need to be undone.  Missing: the other trees, for
    which C40 is false. *)
Theorem C40_partial : forall db t b, well_formed t -> closed_tree t ->
  scaling_ok (fst (threaded 0 t)) -> uniform_leaves (fst (threaded 0 t)) ->
  compile db true t = Ok b ->
  exists ev, reads_bound AtDecl b ev /\ follows any_gap [] (fst (threaded 0 t)) ev.
Proof. exact c40_tree. Qed.
Print Assumptions C40_partial.

Theorem C40_same_partial : forall db t b b0 ev, well_formed t -> closed_tree t ->
  scaling_ok (fst (threaded 0 t)) -> uniform_leaves (fst (threaded 0 t)) ->
  compile db true t = Ok b -> compile db false t = Ok b0 -> reads_as b0 ev -> reads_bound AtDecl b ev.
Proof. exact c40_same_tree. Qed.
Print Assumptions C40_same_partial.

Example C40_case : well_formed tree40 /\ closed_tree tree40 /\
  scaling_ok (fst (threaded 0 tree40)) /\ uniform_leaves (fst (threaded 0 tree40)) /\
  exists b b0, compile empty_db true tree40 = Ok b /\ compile empty_db false tree40 = Ok b0 /\
    length b = 80%nat /\ length b0 = 215%nat.
Proof.
  destruct leaves40 as [A [B [_ [D [E _]]]]]. repeat (split; [assumption|]).
  eexists. eexists. split; [vm_compute; reflexivity|]. split; [vm_compute; reflexivity|]. split; reflexivity.
Qed.

(** the same for values that all have a physical range of their own *)
Definition tree40_scaled : tree :=
  device [tv (vari 0x10030 8 100 0 0 (Some (-10)) (Some 10)); tv (vari 0x10031 8 100 0 0 (Some (-10)) (Some 10));
          tv (vari 0x10032 8 100 0 0 None None)].

Example C40_case_scaled : well_formed tree40_scaled /\ closed_tree tree40_scaled /\
  scaling_ok (fst (threaded 0 tree40_scaled)) /\ uniform_leaves (fst (threaded 0 tree40_scaled)) /\
  exists b, compile empty_db true tree40_scaled = Ok b.
Proof.
  split; [unfold tree40_scaled, device; wf|]. split; [constructor|].
  split. { right. intros v I D. vm_compute in I.
    repeat (destruct I as [<-|I]; [split; [reflexivity|vm_compute; intros [_ X]; discriminate X]|]). destruct I. }
  split; [|eexists; vm_compute; reflexivity].
  nb; vm_compute; repeat split; auto; left; split; auto; discriminate.
Qed.

(** the same with usages of page 0 beside others *)
Definition tree40_page0 : tree :=
  device [tv (vari 5 8 100 0 0 None None); tv (vari 0x10031 8 100 0 0 None None); tv (vari 6 8 100 0 0 None None)].

Example C40_case_page0 : well_formed tree40_page0 /\ closed_tree tree40_page0 /\ ~ paged_leaves (fst (threaded 0 tree40_page0)) /\
  scaling_ok (fst (threaded 0 tree40_page0)) /\ uniform_leaves (fst (threaded 0 tree40_page0)) /\
  exists b, compile empty_db true tree40_page0 = Ok b.
Proof.
  split; [unfold tree40_page0, device; wf|]. split; [constructor|].
  split. { intros Q. inversion Q as [|? ? _ Q1]; subst. inversion Q1 as [|? ? Q2 _]; subst. vm_compute in Q2. inversion Q2 as [|? ? Q3 _]; subst. apply Q3. reflexivity. }
  split. { left. intros v I D. vm_compute in I.
    repeat (destruct I as [<-|I]; [first [right; split; reflexivity | left; reflexivity | discriminate D]|]). destruct I. }
  split; [|eexists; vm_compute; reflexivity].
  nb; vm_compute; repeat split; auto; left; split; auto; discriminate.
Qed.

(** C40 is false in general: a string moves to the next value; the physical
    range of a value moves to an array with a usage; a tree that ends in a
    value loses the usage of that value. *)
Theorem C40_refuted : Forall (fun t => exists b ev, well_formed t /\ compile empty_db true t = Ok b /\
    (exists b0, compile empty_db false t = Ok b0 /\ reads_as b0 ev) /\ forall m, ~ reads_bound m b ev)
  [device [tv (vari 0x90001 1 1 0 4 None None); tv (vari 0x90002 1 1 0 0 None None)];
   device [tv (vari 0x10030 8 100 0 0 (Some (-10)) (Some 10)); tv array_named];
   TTop [tv (vari 0x90001 1 1 0 0 None None); tv (vari 0x90002 1 1 0 0 None None)]].
Proof.
  assert (X : forall t l b b0, well_formed t -> stream_items empty_db t = Ok l -> compile empty_db true t = Ok b ->
     compile empty_db false t = Ok b0 -> (forall m, seen m (optimize empty_db l) <> seen m l) ->
     exists b ev, well_formed t /\ compile empty_db true t = Ok b /\
      (exists b0, compile empty_db false t = Ok b0 /\ reads_as b0 ev) /\ forall m, ~ reads_bound m b ev).
  { intros t l b b0 WF S C C0 N. destruct (c24 empty_db t b0 WF C0) as [ev [R _]].
    exists b, ev. split; auto. split; auto. split; [exists b0; auto|]. intros m Q.
    assert (E1 : seen m l = ev).
    { apply (R m). exists (map wire l). split; [|reflexivity]. unfold compile in C0. rewrite S in C0. apply serialize_means. exact C0. }
    apply (N m). rewrite E1. apply Q. exists (map wire (optimize empty_db l)). split; [|reflexivity].
    unfold compile in C. rewrite S in C. apply serialize_means. exact C. }
  repeat apply Forall_cons; [..|apply Forall_nil].
  all: eapply X; [try unfold device; wf|vm_compute; reflexivity|vm_compute; reflexivity|vm_compute; reflexivity|
                  intros []; vm_compute; discriminate].
Qed.
Print Assumptions C40_refuted.

(** C41 for descriptors all of whose usages include their page, without Push
    and Pop, ending outside of data items.  Missing: the others, for which it
    is false ([C41_refuted]). *)
Theorem C41_partial : forall db b ws out,
  blob_means b ws -> Forall number_allowed ws -> regular (map w_what ws) -> unstacked (map w_what ws) ->
  closed_stream (map w_what ws) -> joins (uniform AtDecl) (main_states ws) ->
  convert_opt db b = Ok out ->
  exists ws', blob_means out ws' /\ host_view AtDecl ws' = host_view AtDecl ws.
Proof. exact c41. Qed.
Print Assumptions C41_partial.

Example C41_case :
  let b := [0x0b; 2; 0; 1; 0; 0xa1; 1; 0x75; 1; 0x95; 1; 0x25; 1; 0x0b; 1; 0; 9; 0; 0x81; 2; 0x0b; 2; 0; 9; 0; 0x81; 2; 0xc0] in
  exists ws, blob_means b ws /\ Forall number_allowed ws /\ regular (map w_what ws) /\ unstacked (map w_what ws) /\
    closed_stream (map w_what ws) /\ joins (uniform AtDecl) (main_states ws) /\
    exists out, convert_opt empty_db b = Ok out /\ length out = 21%nat.
Proof.
  intros b. exists [W Usage 0x10002 true; W Collection 1 false; W ReportSize 1 false; W ReportCount 1 false; W LogicalMaximum 1 false;
    W Usage 0x90001 true; W Input 2 false; W Usage 0x90002 true; W Input 2 false; W EndCollection 0 false].
  split.
  { exists [Raw 2 0 [2; 0; 1; 0]; Raw 0 10 [1]; Raw 1 7 [1]; Raw 1 9 [1]; Raw 1 2 [1]; Raw 2 0 [1; 0; 9; 0]; Raw 0 8 [2];
            Raw 2 0 [2; 0; 9; 0]; Raw 0 8 [2]; Raw 0 12 []]. split; [|reflexivity].
    apply (si_cons 0x0b [2; 0; 1; 0] [0xa1; 1; 0x75; 1; 0x95; 1; 0x25; 1; 0x0b; 1; 0; 9; 0; 0x81; 2; 0x0b; 2; 0; 9; 0; 0x81; 2; 0xc0]); try (repeat constructor; discriminate).
    apply (si_cons 0xa1 [1] [0x75; 1; 0x95; 1; 0x25; 1; 0x0b; 1; 0; 9; 0; 0x81; 2; 0x0b; 2; 0; 9; 0; 0x81; 2; 0xc0]); try (repeat constructor; discriminate).
    apply (si_cons 0x75 [1] [0x95; 1; 0x25; 1; 0x0b; 1; 0; 9; 0; 0x81; 2; 0x0b; 2; 0; 9; 0; 0x81; 2; 0xc0]); try (repeat constructor; discriminate).
    apply (si_cons 0x95 [1] [0x25; 1; 0x0b; 1; 0; 9; 0; 0x81; 2; 0x0b; 2; 0; 9; 0; 0x81; 2; 0xc0]); try (repeat constructor; discriminate).
    apply (si_cons 0x25 [1] [0x0b; 1; 0; 9; 0; 0x81; 2; 0x0b; 2; 0; 9; 0; 0x81; 2; 0xc0]); try (repeat constructor; discriminate).
    apply (si_cons 0x0b [1; 0; 9; 0] [0x81; 2; 0x0b; 2; 0; 9; 0; 0x81; 2; 0xc0]); try (repeat constructor; discriminate).
    apply (si_cons 0x81 [2] [0x0b; 2; 0; 9; 0; 0x81; 2; 0xc0]); try (repeat constructor; discriminate).
    apply (si_cons 0x0b [2; 0; 9; 0] [0x81; 2; 0xc0]); try (repeat constructor; discriminate).
    apply (si_cons 0x81 [2] [0xc0]); try (repeat constructor; discriminate).
    apply (si_cons 0xc0 [] []); try (repeat constructor; discriminate). }
  split; [repeat constructor; intros X; destruct X as [X|[X|X]]; discriminate X|].
  split.
  { split; [repeat apply Forall_cons; try apply Forall_nil; discriminate|].
    split; [repeat constructor; discriminate|]. left. repeat constructor; discriminate. }
  split; [repeat constructor; discriminate|].
  split; [match goal with |- closed_stream ?l => exists (removelast l), (EndCollection, 0) end; split; [|split]; reflexivity|].
  split; [|eexists; split; vm_compute; reflexivity].
  intros l1 e1 e2 l2 E J.
  match type of E with ?x = _ => let y := eval vm_compute in x in change x with y in E end.
  assert (L : (length l1 <= 2)%nat) by (apply (f_equal (@length _)) in E; rewrite app_length in E; cbn [length] in E; lia).
  destruct l1 as [|? [|? [|? ?]]]; [..|cbn [length] in L; lia]; cbn [app] in E; injection E; intros; subst; clear E L.
  - destruct J as [J _]. discriminate J.
  - cbn [uniform]. split; [reflexivity|]. split; [unfold paired; repeat apply Forall_cons; try apply Forall_nil; split; reflexivity|].
    intros _. split; [reflexivity|]. split; [reflexivity|]. vm_compute.
    split; [left; split; [reflexivity|discriminate]|]. split; right; auto.
  - destruct J as [_ [J _]]. discriminate J.
Qed.

(** C41, exactly: converter -O keeps everything of a descriptor but its
    UsagePage items.  The result reads like the input with those items taken
    out, that is, with every short usage read as a usage of page 0.  Missing:
    Push, Pop, delimiters, designators 0, physical bounds in force where none
    are meant, fields that may be joined and are not uniform. *)
Theorem C41_always : forall db b ws out,
  blob_means b ws -> Forall number_allowed ws -> orderly (map w_what ws) -> unstacked (map w_what ws) ->
  closed_stream (map w_what ws) -> joins (uniform AtDecl) (main_states (unpaged ws)) ->
  convert_opt db b = Ok out ->
  exists ws', blob_means out ws' /\ host_view AtDecl ws' = host_view AtDecl (unpaged ws).
Proof. exact c41_always. Qed.
Print Assumptions C41_always.

(** A device of page 1 with two buttons of page 9, all usages short. *)
Example C41_always_case :
  let b := [5; 1; 9; 2; 0xa1; 1; 5; 9; 0x75; 1; 0x95; 1; 0x25; 1; 9; 1; 0x81; 2; 9; 2; 0x81; 2; 0xc0] in
  exists ws, blob_means b ws /\ Forall number_allowed ws /\ orderly (map w_what ws) /\ unstacked (map w_what ws) /\
    closed_stream (map w_what ws) /\ joins (uniform AtDecl) (main_states (unpaged ws)) /\
    convert_opt empty_db b = Ok [5; 1; 5; 0; 9; 2; 0xa1; 1; 5; 9; 0x75; 1; 0x25; 1; 0x95; 2; 5; 0; 9; 1; 9; 2; 0x81; 2; 0xc0] /\
    host_view AtDecl ws <> host_view AtDecl (unpaged ws).
Proof.
  intros b. exists [W UsagePage 1 false; W Usage 2 false; W Collection 1 false; W UsagePage 9 false; W ReportSize 1 false; W ReportCount 1 false;
    W LogicalMaximum 1 false; W Usage 1 false; W Input 2 false; W Usage 2 false; W Input 2 false; W EndCollection 0 false].
  split.
  { exact (serialize_means [Item UsagePage (VInt 1); Item Usage (VInt 2); Item Collection (VInt 1); Item UsagePage (VInt 9); Item ReportSize (VInt 1);
      Item ReportCount (VInt 1); Item LogicalMaximum (VInt 1); Item Usage (VInt 1); Item Input (VInt 2); Item Usage (VInt 2); Item Input (VInt 2);
      Item EndCollection (VInt 0)] b eq_refl). }
  split; [repeat constructor; intros X; destruct X as [X|[X|X]]; discriminate X|].
  split; [split; [repeat constructor; discriminate|left; repeat constructor; discriminate]|].
  split; [repeat constructor; discriminate|].
  split; [match goal with |- closed_stream ?l => exists (removelast l), (EndCollection, 0) end; split; [|split]; reflexivity|].
  split; [|split; [vm_compute; reflexivity|vm_compute; discriminate]].
  intros l1 e1 e2 l2 E J.
  match type of E with ?x = _ => let y := eval vm_compute in x in change x with y in E end.
  assert (L : (length l1 <= 2)%nat) by (apply (f_equal (@length _)) in E; rewrite app_length in E; cbn [length] in E; lia).
  destruct l1 as [|? [|? [|? ?]]]; [..|cbn [length] in L; lia]; cbn [app] in E; injection E; intros; subst; clear E L.
  - destruct J as [J _]. discriminate J.
  - cbn [uniform]. split; [reflexivity|]. split; [unfold paired; repeat apply Forall_cons; try apply Forall_nil; split; reflexivity|].
    intros _. split; [reflexivity|]. split; [reflexivity|]. vm_compute.
    split; [left; split; [reflexivity|discriminate]|]. split; right; auto.
  - destruct J as [_ [J _]]. discriminate J.
Qed.

(** C42 when, in addition, the usages of an array and those of values that
    may be joined are of one page.  Missing: the other trees, for which it is
    false. *)
Theorem C42_partial : forall db t b, well_formed t -> closed_tree t ->
  scaling_ok (fst (threaded 0 t)) -> uniform_leaves (fst (threaded 0 t)) ->
  same_pages (fst (threaded 0 t)) -> compile db true t = Ok b ->
  exists ev, reads_as b ev /\ follows any_gap [] (fst (threaded 0 t)) ev.
Proof. exact c42_tree. Qed.
Print Assumptions C42_partial.

Example C42_case : well_formed tree40 /\ closed_tree tree40 /\
  scaling_ok (fst (threaded 0 tree40)) /\ uniform_leaves (fst (threaded 0 tree40)) /\
  same_pages (fst (threaded 0 tree40)) /\ exists b, compile empty_db true tree40 = Ok b.
Proof.
  destruct leaves40 as [A [B [_ [D [E F]]]]]. repeat (split; [assumption|]). eexists. vm_compute. reflexivity.
Qed.

(** A button and an axis with the same attributes become one item after both
    pages: the button is read as an axis usage. *)
Definition tree42_bad : tree := device [tv (vari 0x90001 8 1 0 0 None None); tv (vari 0x10030 8 1 0 0 None None)].

Theorem C42_refuted : exists b ev, well_formed tree42_bad /\ closed_tree tree42_bad /\ paged_leaves (fst (threaded 0 tree42_bad)) /\
  scaling_ok (fst (threaded 0 tree42_bad)) /\ uniform_leaves (fst (threaded 0 tree42_bad)) /\
  compile empty_db true tree42_bad = Ok b /\ reads_bound AtDecl b ev /\ ~ reads_bound AtMain b ev.
Proof.
  assert (S : exists l, stream_items empty_db tree42_bad = Ok l /\ exists b, serialize (optimize empty_db l) = Ok b /\
     seen AtMain (optimize empty_db l) <> seen AtDecl (optimize empty_db l)).
  { eexists. split; [vm_compute; reflexivity|]. eexists. split; [vm_compute; reflexivity|]. vm_compute. discriminate. }
  destruct S as [l [S [b [C NE]]]]. exists b, (seen AtDecl (optimize empty_db l)).
  split; [unfold tree42_bad, device; wf|]. split; [constructor|].
  split; [vm_compute; repeat constructor; discriminate|].
  split. { left. intros v I D. vm_compute in I.
    repeat (destruct I as [<-|I]; [first [right; split; reflexivity | left; reflexivity | discriminate D]|]). destruct I. }
  split; [nb; vm_compute; repeat split; auto; left; split; auto; discriminate|].
  split; [unfold compile; rewrite S; exact C|]. split; [apply serialized_reads; exact C|].
  intros Q. apply NE. apply Q. apply (serialized_reads AtMain _ _ C). reflexivity.
Qed.
Print Assumptions C42_refuted.

(** C43 for trees all of whose usages have a page, with the page or the
    number below 256.  Missing: the other trees, for which it is false. *)
Theorem C43_partial : forall db t b b0, well_formed t -> compact_leaves (fst (threaded 0 t)) ->
  compile db true t = Ok b -> compile db false t = Ok b0 -> (length b <= length b0)%nat.
Proof. exact c43. Qed.
Print Assumptions C43_partial.

Example C43_case : well_formed tree40 /\ compact_leaves (fst (threaded 0 tree40)) /\
  exists b b0, compile empty_db true tree40 = Ok b /\ compile empty_db false tree40 = Ok b0.
Proof.
  destruct leaves40 as [A _]. split; [exact A|]. split.
  - match goal with |- compact_leaves ?x => let y := eval vm_compute in x in change x with y end.
    repeat (apply Forall_cons; [match goal with |- Forall _ ?x => let y := eval vm_compute in x in change x with y end;
      repeat (apply Forall_cons; [split; [discriminate|left; reflexivity]|]); apply Forall_nil|]). apply Forall_nil.
  - eexists. eexists. split; vm_compute; reflexivity.
Qed.

(** A usage of page 0, and one of a vendor page with a number over 255, take
    more bytes when their page is moved to an item of its own. *)
Theorem C43_refuted : Forall (fun t => exists b b0, well_formed t /\ closed_tree t /\
    compile empty_db true t = Ok b /\ compile empty_db false t = Ok b0 /\ (length b0 < length b)%nat)
  [TColl (VNamed "Application" 1) (Some (VInt 5)) []; TColl (VNamed "Application" 1) (Some (VInt 0xff000101)) []].
Proof.
  repeat apply Forall_cons; [..|apply Forall_nil].
  all: eexists; eexists; split; [wf|]; split; [constructor|]; split; [vm_compute; reflexivity|]; split; [vm_compute; reflexivity|].
  all: vm_compute; lia.
Qed.
Print Assumptions C43_refuted.

(** For every tree: the optimised output is longer by at most two bytes for
    each usage the tree declares. *)
Theorem C43_always : forall db t b b0, well_formed t ->
  compile db true t = Ok b -> compile db false t = Ok b0 ->
  (length b <= length b0 + 2 * length (flat_map leaf_usages (fst (threaded 0 t))))%nat.
Proof. exact c43_always. Qed.
Print Assumptions C43_always.

Definition tree43 : tree :=
  TColl (VNamed "Application" 1) (Some (VInt 0x10002)) [tv (vari 1 1 1 0 0 None None); tv (vari 0xff000101 1 1 0 0 None None)].

(** The first tree reaches the bound, with one usage; the second one gets
    shorter in spite of its usages of page 0 and of a vendor page. *)
Example C43_always_case :
  (well_formed (TColl (VNamed "Application" 1) (Some (VInt 5)) []) /\
   exists b b0, compile empty_db true (TColl (VNamed "Application" 1) (Some (VInt 5)) []) = Ok b /\
     compile empty_db false (TColl (VNamed "Application" 1) (Some (VInt 5)) []) = Ok b0 /\
     length b = (length b0 + 2 * length (flat_map leaf_usages (fst (threaded 0 (TColl (VNamed "Application" 1) (Some (VInt 5)) [])))))%nat) /\
  (well_formed tree43 /\ exists b b0, compile empty_db true tree43 = Ok b /\ compile empty_db false tree43 = Ok b0 /\ (length b < length b0)%nat).
Proof.
  split; (split; [wf|]).
  - exists [5; 0; 9; 5; 161; 1; 192], [9; 5; 161; 1; 192]. repeat split; vm_compute; reflexivity.
  - destruct (compile empty_db true tree43) as [b|] eqn:E; [|vm_compute in E; discriminate E].
    destruct (compile empty_db false tree43) as [b0|] eqn:E0; [|vm_compute in E0; discriminate E0].
    exists b, b0. vm_compute in E, E0. injection E as <-. injection E0 as <-. repeat split. vm_compute. lia.
Qed.
