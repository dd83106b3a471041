(* Properties_Extract.v -- C44 to C49: item streams to trees and back. *)
From Verif Require Import Py Usage Item Parser Optimizer Descriptor Extractor HidSpec Spec StreamSpec OptSpec ExtractSpec
  ItemFacts ParserFacts OptFacts PassFacts StreamTree Properties_Stream ExtractSpec ExtractFacts ExtractView ExtractAgain
  BackSpec ExtractBack ExtractPrefix.
Local Open Scope Z_scope.

(** [l] ends the way [closes] asks for *)
Ltac closed_by n :=
  split; [split; vm_compute; reflexivity|]; exists n, []; split; [vm_compute; reflexivity|constructor].

Ltac unbuf := apply fits_fit; vm_compute; reflexivity.
Ltac plain_tab := first [left; solve [repeat constructor]|right; do 2 eexists; repeat split; reflexivity].
Ltac plain_body :=
  let H := fresh in
  split; [plain_tab|]; split; [plain_tab|]; split; [plain_tab|]; split; [reflexivity|];
  split; [vm_compute; repeat constructor; discriminate|]; split; [vm_compute; repeat constructor; discriminate|];
  split; [intros _ _; do 2 eexists; split; [reflexivity|split; discriminate]|];
  match goal with
  | |- if ?b then _ else _ => let b' := eval vm_compute in b in change b with b'; cbv iota
  end;
  first
  [ intros H; vm_compute in H; first [discriminate H|vm_compute; repeat constructor]
  | split; [vm_compute; repeat constructor|]; split; [vm_compute; repeat constructor|]; split;
    [first [intros H; discriminate H|intros _ H; vm_compute in H; first [discriminate H|repeat split; vm_compute; reflexivity]]
    |intros H; first [vm_compute; solve [repeat constructor]|exfalso; apply H; split; vm_compute; reflexivity]] ].
Ltac plain_item :=
  let H := fresh in
  cbn [plain_data]; intros H; first [solve [vm_compute in H; discriminate H]|clear H; plain_body].
Ltac plain :=
  match goal with |- plain_stream ?o ?e => let e' := eval vm_compute in e in change (plain_stream o e') end;
  repeat (cbn [plain_stream tl]; match goal with
  | |- True => exact I
  | |- plain_data _ _ /\ _ => split; [plain_item|]
  | |- simple_tab _ /\ _ => split; [plain_tab|]
  | |- plain_stream _ _ => idtac
  end).

(** two reports, interleaved, in two collections *)
Definition pad44 := items
  [(Usage, 0x10002); (Collection, 1); (LogicalMinimum, 0); (LogicalMaximum, 1); (ReportSize, 1); (ReportID, 1);
   (ReportCount, 3); (UsageMinimum, 0x90001); (UsageMaximum, 0x90002); (Input, 2); (ReportID, 2); (Usage, 0x10030);
   (Collection, 0); (ReportCount, 1); (Usage, 0x10030); (Input, 2); (ReportSize, 4); (Input, 1); (EndCollection, 0);
   (ReportID, 1); (ReportSize, 5); (Input, 3); (EndCollection, 0)].
Definition tree_of (r : result tree) : tree := match r with Ok t => t | Err _ => TTop [] end.

(** C44 for streams whose last main item closes a collection, every
    collection being closed.  Missing: streams that go on after that; what
    follows is not in the tree, see C44_refuted. *)
Theorem C44_partial : forall db l t m way rid,
  Forall constructed l -> push_free l -> closes (map ic l) -> extract db l = Ok t ->
  bits_of (of_report way rid (numbered (scoped 0 t))) = report_bits way rid (host_view m (map wire l)).
Proof. exact c44. Qed.
Print Assumptions C44_partial.

Example C44_case :
  Forall constructed pad44 /\ push_free pad44 /\ closes (map ic pad44) /\
  exists t, extract empty_db pad44 = Ok t /\
    bits_of (of_report Input 1 (numbered (scoped 0 t))) = 8 /\ bits_of (of_report Input 2 (numbered (scoped 0 t))) = 5.
Proof.
  split; [apply items_built|]. split; [vm_compute; repeat constructor; discriminate|]. split.
  - closed_by (removelast (map ic pad44)).
  - exists (tree_of (extract empty_db pad44)). vm_compute. repeat split; reflexivity.
Qed.

(** data after the last closed collection, or in a collection that is never
    closed, is lost without an error *)
Definition open44 : list (list item) :=
  [items [(ReportSize, 8); (ReportCount, 1); (Collection, 1); (Input, 1); (EndCollection, 0); (Input, 1)];
   items [(ReportSize, 8); (ReportCount, 1); (Collection, 1); (Input, 1); (EndCollection, 0); (Collection, 1); (Input, 1)]].

Theorem C44_refuted : Forall (fun l => exists t, Forall constructed l /\ push_free l /\ extract empty_db l = Ok t /\
  forall m, bits_of (of_report Input 0 (numbered (scoped 0 t))) = 8 /\ report_bits Input 0 (host_view m (map wire l)) = 16)
  open44.
Proof.
  repeat apply Forall_cons; [..|apply Forall_nil];
    (exists (tree_of (Ok (TTop [TReport 0 [TColl (VNamed "Application" 1) None
       [tv (mk_padding (VNamed "Input" 8) 8)]]]))); split; [apply items_built|];
     split; [vm_compute; repeat constructor; discriminate|]; split; [vm_compute; reflexivity|];
     intros []; vm_compute; split; reflexivity).
Qed.
Print Assumptions C44_refuted.

(** Nothing else is lost: for every stream that decompiles, whatever it
    contains, the tree holds the bits of a part of it that goes at least up to
    the last EndCollection that leaves no collection open, read by a host that
    ignores Push and Pop. *)
Theorem C44_always : forall db l t, Forall constructed l -> extract db l = Ok t ->
  exists a, covers a (stackless l) /\ forall m way rid,
    bits_of (of_report way rid (numbered (scoped 0 t))) = report_bits way rid (host_view m (map wire a)).
Proof. exact c44_always. Qed.
Print Assumptions C44_always.

Example C44_always_case :
  let l := items [(ReportSize, 8); (ReportCount, 1); (Collection, 1); (Push, 0); (Input, 1); (EndCollection, 0); (Input, 1)] in
  Forall constructed l /\ (exists t, extract empty_db l = Ok t) /\ covers (firstn 5 (stackless l)) (stackless l) /\
  report_bits Input 0 (host_view AtMain (map wire (firstn 5 (stackless l)))) = 8.
Proof.
  split; [apply items_built|]. split; [eexists; vm_compute; reflexivity|]. split; [|vm_compute; reflexivity].
  exists (skipn 5 (stackless (items [(ReportSize, 8); (ReportCount, 1); (Collection, 1); (Push, 0); (Input, 1); (EndCollection, 0); (Input, 1)]))).
  split; [vm_compute; reflexivity|]. split.
  - eexists. eexists. split; [vm_compute; apply (app_removelast_last (Item Input (VInt 0))); discriminate|vm_compute; reflexivity].
  - intros a' i b' E EC _. vm_compute in E. change (length a' < 5)%nat.
    do 5 (destruct a' as [|? a']; [cbn; lia|injection E as ? E]). exfalso. destruct a' as [|? a'].
    + injection E as E _. rewrite <- E in EC. discriminate EC.
    + injection E as _ E. destruct a'; discriminate E.
Qed.

(** C46 for push-free streams whose last main item closes a collection: the
    values stand for the data items one after the other, each with the report
    id in force, and each is in exactly one Report.  Missing: streams that go
    on after the last EndCollection (see C44_refuted) and streams with Pop,
    see C46_refuted. *)
Theorem C46_partial : forall db l t,
  Forall constructed l -> push_free l -> closes (map ic l) -> extract db l = Ok t ->
  all_reported t /\
  exists vss, Forall2 stands_for (data_states (map wire l)) vss /\ numbered (scoped 0 t) = concat vss.
Proof. exact c46. Qed.
Print Assumptions C46_partial.

Example C46_case :
  exists t, extract empty_db pad44 = Ok t /\
    map (fun x => (fst x, v_size (snd x))) (numbered (scoped 0 t)) = [(1, 1); (1, 1); (1, 1); (2, 1); (2, 4); (1, 5)] /\
    map (fun e => let '(g, _, _, _) := e in (g_rid g, g_size g * g_count g)) (data_states (map wire pad44)) =
      [(1, 3); (2, 1); (2, 4); (1, 5)].
Proof. exists (tree_of (extract empty_db pad44)). vm_compute. repeat split; reflexivity. Qed.

(** Push and Pop are taken for global items and otherwise ignored *)
Definition pop46 := items
  [(ReportSize, 8); (ReportCount, 1); (Collection, 1); (Push, 0); (ReportID, 1); (Input, 1); (Pop, 0); (Input, 1);
   (EndCollection, 0)].

Theorem C46_refuted : exists l t, Forall constructed l /\ closes (map ic l) /\ extract empty_db l = Ok t /\
  ~ exists vss, Forall2 stands_for (data_states (map wire l)) vss /\ numbered (scoped 0 t) = concat vss.
Proof.
  exists pop46, (tree_of (extract empty_db pop46)). split; [apply items_built|].
  split; [closed_by (removelast (map ic pop46))|]. split; [vm_compute; reflexivity|].
  intros [vss [F E]].
  assert (ED : exists e1 e2, data_states (map wire pop46) = [e1; e2] /\ let '(g, _, _, _) := e2 in g_rid g = 0).
  { eexists. eexists. split; vm_compute; reflexivity. }
  destruct ED as [e1 [[[[g x] c] f] [ED G]]]. rewrite ED in F.
  inversion F as [|? v1 ? q S1 F1]; subst. inversion F1 as [|? v2 ? q2 S2 F2]; subst. inversion F2; subst.
  destruct S2 as [S2 B2].
  assert (R : Forall (fun x => fst x = 1) (concat [v1; v2])).
  { rewrite <- E. vm_compute. repeat constructor. }
  cbn [concat] in R. rewrite app_nil_r in R. apply Forall_app in R. destruct R as [_ R].
  destruct v2 as [|y v2].
  - assert (Z8 : g_size g * g_count g = 8).
    { assert (Q : map (fun e => let '(g, _, _, _) := e in g_size g * g_count g) (data_states (map wire pop46)) = [8; 8]) by (vm_compute; reflexivity).
      rewrite ED in Q. cbn [map] in Q. congruence. }
    rewrite Z8 in B2. discriminate B2.
  - inversion R as [|? ? R1]; subst. inversion S2 as [|? ? [S3 _]]; subst. congruence.
Qed.
Print Assumptions C46_refuted.

(** That is all that goes wrong: Push and Pop are ignored, for every stream,
    and the values of the tree stand for the data items up to the last
    EndCollection that leaves no collection open, or a later one. *)
Theorem C46_stack : forall db l, extract db l = extract db (stackless l).
Proof. exact extract_flat. Qed.
Print Assumptions C46_stack.

Theorem C46_always : forall db l t, Forall constructed l -> extract db l = Ok t ->
  exists a, covers a (stackless l) /\ all_reported t /\
  exists vss, Forall2 stands_for (data_states (map wire a)) vss /\ numbered (scoped 0 t) = concat vss.
Proof. exact c46_always. Qed.
Print Assumptions C46_always.

(** the stream of C46_refuted and what a host sees that ignores Push and Pop *)
Example C46_always_case :
  Forall constructed pop46 /\ stackless pop46 <> pop46 /\
  (exists t, extract empty_db pop46 = Ok t /\ map fst (numbered (scoped 0 t)) = [1; 1]) /\
  map (fun e => let '(g, _, _, _) := e in (g_rid g, g_size g)) (data_states (map wire (stackless pop46))) = [(1, 8); (1, 8)] /\
  map (fun e => let '(g, _, _, _) := e in (g_rid g, g_size g)) (data_states (map wire pop46)) = [(1, 8); (0, 8)].
Proof.
  split; [apply items_built|]. split; [intros E; apply (f_equal (@length item)) in E; discriminate E|].
  split; [eexists; split; vm_compute; reflexivity|]. split; vm_compute; reflexivity.
Qed.

(** The decompiled tree of a plain stream, see [plain_data], whose last main
    item closes a collection: its collections and values are those a host
    sees, except that collections that contain nothing (or only such
    collections) are missing.  Missing for C47: the empty collections (see
    C47_refuted), streams that are not plain (see C45_refuted) and the ends of
    streams (see C44_refuted). *)
Theorem C47_partial : forall db l t,
  Forall constructed l -> push_free l -> closes (map ic l) -> plain_stream [] (main_states (map wire l)) ->
  extract db l = Ok t ->
  exists fl, drawn fl (host_view AtMain (map wire l)) /\ prunes fl (scoped 0 t) /\ no_empty (scoped 0 t).
Proof. exact c47. Qed.
Print Assumptions C47_partial.

(** C45 for plain streams.  Missing: the others, see C45_refuted. *)
Theorem C45_partial : forall db l t,
  Forall constructed l -> push_free l -> closes (map ic l) -> plain_stream [] (main_states (map wire l)) ->
  extract db l = Ok t ->
  fields_of (numbered (scoped 0 t)) (filter is_field (host_view AtMain (map wire l))).
Proof. exact c45. Qed.
Print Assumptions C45_partial.

(** Both for every plain stream, whatever follows the last closed collection
    and wherever Push and Pop are: the tree shows exactly the part up to the
    last EndCollection that leaves no collection open, as a host sees it that
    ignores Push and Pop.  [stackless l] is [l] when there are none. *)
Theorem C47_always : forall db l t,
  Forall constructed l -> plain_stream [] (main_states (map wire (stackless l))) -> extract db l = Ok t ->
  exists a, covers a (stackless l) /\ balanced (map ic a) /\
  exists fl, drawn fl (host_view AtMain (map wire a)) /\ prunes fl (scoped 0 t) /\ no_empty (scoped 0 t).
Proof. exact c47_always. Qed.
Print Assumptions C47_always.

Theorem C45_always : forall db l t,
  Forall constructed l -> plain_stream [] (main_states (map wire (stackless l))) -> extract db l = Ok t ->
  exists a, covers a (stackless l) /\ balanced (map ic a) /\
  fields_of (numbered (scoped 0 t)) (filter is_field (host_view AtMain (map wire a))).
Proof. exact c45_always. Qed.
Print Assumptions C45_always.

(** a stream that goes on, with Push *)
Example C45_C47_always_case :
  let l := pad44 ++ items [(Push, 0); (Collection, 0); (Usage, 0x10031); (Input, 2)] in
  Forall constructed l /\ plain_stream [] (main_states (map wire (stackless l))) /\
  (exists t, extract empty_db l = Ok t /\ length (numbered (scoped 0 t)) = 6%nat) /\
  length (filter is_field (host_view AtMain (map wire pad44))) = 6%nat.
Proof.
  split; [apply Forall_app; split; apply items_built|]. split; [plain|]. split; [eexists; split; vm_compute; reflexivity|vm_compute; reflexivity].
Qed.

Example C45_C47_case :
  Forall constructed pad44 /\ push_free pad44 /\ closes (map ic pad44) /\ plain_stream [] (main_states (map wire pad44)) /\
  exists t, extract empty_db pad44 = Ok t /\
    map (fun x => option_map py_int (v_usage (snd x))) (numbered (scoped 0 t)) =
      [Some 0x90001; Some 0x90002; Some 0x90002; Some 0x10030; Some 0; Some 0].
Proof.
  split; [apply items_built|]. split; [vm_compute; repeat constructor; discriminate|].
  split; [closed_by (removelast (map ic pad44))|]. split.
  - plain.
  - exists (tree_of (extract empty_db pad44)). vm_compute. split; reflexivity.
Qed.

(** the unit of an array with a usage per logical value is lost; a range after
    a single usage is ignored; so are all ranges but the last one *)
Definition lost45 : list (list item) :=
  [items [(Usage, 0x10002); (Collection, 1); (LogicalMinimum, 0); (LogicalMaximum, 1); (ReportSize, 8); (ReportCount, 1);
          (Unit, 0x11); (UsageMinimum, 0x90001); (UsageMaximum, 0x90002); (Input, 0); (EndCollection, 0)];
   items [(Usage, 0x10002); (Collection, 1); (LogicalMinimum, 0); (LogicalMaximum, 1); (ReportSize, 1); (ReportCount, 3);
          (Usage, 0x90004); (UsageMinimum, 0x90001); (UsageMaximum, 0x90002); (Input, 2); (EndCollection, 0)];
   items [(Usage, 0x10002); (Collection, 1); (LogicalMinimum, 0); (LogicalMaximum, 1); (ReportSize, 1); (ReportCount, 3);
          (UsageMinimum, 0x90004); (UsageMaximum, 0x90004); (UsageMinimum, 0x90001); (UsageMaximum, 0x90002);
          (Input, 2); (EndCollection, 0)]].

Lemma fields_of_fun r v vs ev : fields_of ((r, v) :: vs) ev -> v_kind v = KValue ->
  exists ev', ev = value_events r v ++ ev' /\ fields_of vs ev'.
Proof. intros F K. inversion F; subst; [eauto|congruence]. Qed.

Theorem C45_refuted : Forall (fun l => exists t, Forall constructed l /\ push_free l /\ closes (map ic l) /\
  extract empty_db l = Ok t /\ ~ fields_of (numbered (scoped 0 t)) (filter is_field (host_view AtMain (map wire l)))) lost45.
Proof.
  repeat apply Forall_cons; [..|apply Forall_nil].
  all: match goal with |- exists t, Forall _ ?l /\ _ => exists (tree_of (extract empty_db l)) end; split; [apply items_built|].
  all: split; [vm_compute; repeat constructor; discriminate|].
  all: split; [match goal with |- closes (map ic ?l) => closed_by (removelast (map ic l)) end|].
  all: split; [vm_compute; reflexivity|].
  all: intros F.
  all: match type of F with fields_of ?a ?b => let a' := eval vm_compute in a in let b' := eval vm_compute in b in change (fields_of a' b') in F end.
  all: apply fields_of_fun in F; [|reflexivity]; destruct F as [ev' [F F2]].
  all: match type of F with ?a = ?b ++ _ => let b' := eval vm_compute in b in change (a = b' ++ ev') in F end.
  1, 3: discriminate F.
  apply (f_equal (@tl event)) in F. cbn [tl app] in F. rewrite <- F in F2.
  apply fields_of_fun in F2; [|reflexivity]. destruct F2 as [ev2 [F3 _]].
  match type of F3 with ?a = ?b ++ _ => let b' := eval vm_compute in b in change (a = b' ++ ev2) in F3 end.
  discriminate F3.
Qed.
Print Assumptions C45_refuted.

(** empty collections are dropped *)
Definition empty47 := items
  [(Usage, 0x10002); (Collection, 1); (Usage, 0x10001); (Collection, 0); (EndCollection, 0); (ReportSize, 8);
   (ReportCount, 1); (Input, 1); (EndCollection, 0)].

Lemma drawn_pad r v ls e ev : drawn (LVal r v :: ls) (e :: ev) -> v_kind v = KPadding -> v_size v <> 0 -> is_field e = true.
Proof.
  intros D K N. inversion D as [| | |? ? fs ? ev1 F B D1 EQ1 EQ2]; subst. destruct fs as [|x fs].
  - exfalso. remember [(r, v)] as vs eqn:EV. remember ([] : list event) as q eqn:EQ. destruct F as [|r1 v1 vs1 ev2 K2 F|r1 v1 vs1 ev2 f z n K2 Z F].
    + discriminate EV.
    + assert (v1 = v) by congruence. subst v1. congruence.
    + assert (v1 = v) by congruence. subst v1. apply app_eq_nil in EQ. destruct EQ as [EQ _]. destruct n; [|discriminate EQ]. apply N. rewrite Z. reflexivity.
  - cbn [app] in EQ2. assert (E : x = e) by congruence. subst x. apply andb_true_iff in B. apply B.
Qed.

Theorem C47_refuted : exists l t, Forall constructed l /\ push_free l /\ closes (map ic l) /\
  plain_stream [] (main_states (map wire l)) /\ extract empty_db l = Ok t /\
  ~ drawn (scoped 0 t) (host_view AtMain (map wire l)).
Proof.
  exists empty47, (tree_of (extract empty_db empty47)). split; [apply items_built|].
  split; [vm_compute; repeat constructor; discriminate|].
  split; [closed_by (removelast (map ic empty47))|]. split; [plain|]. split; [vm_compute; reflexivity|].
  intros F. match type of F with drawn ?a ?b => let a' := eval vm_compute in a in let b' := eval vm_compute in b in change (drawn a' b') in F end.
  inversion F as [|? ? ? ? ? ? ? ? ? F1| |]; subst. apply drawn_pad in F1; [discriminate F1|reflexivity|discriminate].
Qed.
Print Assumptions C47_refuted.

(** C48 for plain streams whose fields start at multiples of their sizes (or
    of 8), that do not go back to report id 0, whose buffers of bytes end where
    every field may start, and whose tree compiles.  Missing: the others, see C48_refuted and
    C48_rejected. *)
Theorem C48_partial : forall db l t b,
  Forall constructed l -> push_free l -> closes (map ic l) -> plain_stream [] (main_states (map wire l)) ->
  zeros_first (map state_rid (data_states (map wire l))) -> buffers_fit (data_states (map wire l)) ->
  naturally_aligned (host_view AtMain (map wire l)) ->
  extract db l = Ok t -> compile db false t = Ok b ->
  exists ev, reads_as b ev /\ placed [] ev = placed [] (host_view AtMain (map wire l)).
Proof. exact c48. Qed.
Print Assumptions C48_partial.

Definition again48 := items
  [(UsagePage, 1); (Usage, 4); (Collection, 1); (ReportID, 1); (LogicalMinimum, 0); (LogicalMaximum, 1); (ReportSize, 1);
   (ReportCount, 3); (UsagePage, 9); (UsageMinimum, 1); (UsageMaximum, 3); (Input, 2); (ReportCount, 1); (ReportSize, 5);
   (Input, 3); (UsagePage, 1); (Usage, 1); (Collection, 0); (LogicalMinimum, -127); (LogicalMaximum, 127);
   (ReportSize, 16); (ReportCount, 2); (Usage, 0x30); (Usage, 0x31); (Input, 2); (EndCollection, 0); (ReportID, 2);
   (LogicalMinimum, 0); (UsagePage, 8); (Usage, 0x4b); (Output, 2); (EndCollection, 0)].

Example C48_case :
  Forall constructed again48 /\ push_free again48 /\ closes (map ic again48) /\
  plain_stream [] (main_states (map wire again48)) /\
  zeros_first (map state_rid (data_states (map wire again48))) /\ buffers_fit (data_states (map wire again48)) /\
  naturally_aligned (host_view AtMain (map wire again48)) /\
  exists t b, extract empty_db again48 = Ok t /\ compile empty_db false t = Ok b /\
    map snd (placed [] (host_view AtMain (map wire again48))) = [0; 1; 2; 8; 24; 0; 16].
Proof.
  split; [apply items_built|]. split; [vm_compute; repeat constructor; discriminate|].
  split; [closed_by (removelast (map ic again48))|]. split; [plain|].
  split. { apply nz_zeros_first. vm_compute. repeat constructor; discriminate. }
  split. { unbuf. }
  split.
  - unfold naturally_aligned. match goal with |- Forall _ ?q => let q' := eval vm_compute in q in change q with q' end.
    repeat apply Forall_cons; [..|apply Forall_nil]; cbn [fst snd event_bits f_size]; apply Z.mod_divide; solve [discriminate|vm_compute; reflexivity].
  - exists (tree_of (extract empty_db again48)).
    match goal with |- exists b, _ /\ ?c = _ /\ _ => let c' := eval vm_compute in c in match c' with Ok ?b => exists b end end.
    vm_compute. repeat split; reflexivity.
Qed.

(** a buffer of five bytes between a byte and two nibbles *)
Definition buffer48 := items
  [(Usage, 0x10004); (Collection, 1); (LogicalMinimum, 0); (LogicalMaximum, 15); (ReportSize, 8); (ReportCount, 1); (Usage, 0x10030); (Feature, 2);
   (ReportCount, 5); (Usage, 0x10031); (Feature, 0x102); (ReportSize, 4); (ReportCount, 2); (Usage, 0x10032); (Usage, 0x10033); (Feature, 2); (EndCollection, 0)].

Example C48_buffer :
  Forall constructed buffer48 /\ push_free buffer48 /\ closes (map ic buffer48) /\
  plain_stream [] (main_states (map wire buffer48)) /\
  zeros_first (map state_rid (data_states (map wire buffer48))) /\ buffers_fit (data_states (map wire buffer48)) /\
  naturally_aligned (host_view AtMain (map wire buffer48)) /\
  exists t b, extract empty_db buffer48 = Ok t /\ compile empty_db false t = Ok b /\
    map snd (placed [] (host_view AtMain (map wire buffer48))) = [0; 8; 16; 24; 32; 40; 48; 52].
Proof.
  split; [apply items_built|]. split; [vm_compute; repeat constructor; discriminate|].
  split; [closed_by (removelast (map ic buffer48))|]. split; [plain|].
  split. { exists (map state_rid (data_states (map wire buffer48))), []. split; [rewrite app_nil_r; reflexivity|]. split; [vm_compute; repeat constructor|constructor]. }
  split.
  { unbuf. }
  split.
  - unfold naturally_aligned. match goal with |- Forall _ ?q => let q' := eval vm_compute in q in change q with q' end.
    repeat apply Forall_cons; [..|apply Forall_nil]; cbn [fst snd event_bits f_size]; apply Z.mod_divide; solve [discriminate|vm_compute; reflexivity].
  - exists (tree_of (extract empty_db buffer48)).
    match goal with |- exists b, _ /\ ?c = _ /\ _ => let c' := eval vm_compute in c in match c' with Ok ?b => exists b end end.
    vm_compute. repeat split; reflexivity.
Qed.

(** values are aligned on their sizes; after a Report, the id 0 is ignored *)
Definition moved48 : list (list item) :=
  [items [(Usage, 0x10004); (Collection, 1); (LogicalMinimum, 0); (LogicalMaximum, 1); (ReportSize, 1); (ReportCount, 1);
          (Usage, 0x90001); (Input, 2); (ReportSize, 3); (Usage, 0x10030); (Input, 2); (EndCollection, 0)];
   items [(Usage, 0x10004); (Collection, 1); (LogicalMinimum, 0); (LogicalMaximum, 1); (ReportSize, 8); (ReportCount, 1);
          (ReportID, 1); (Usage, 0x90001); (Input, 2); (ReportID, 0); (Usage, 0x10030); (Input, 2); (EndCollection, 0)]].

Theorem C48_refuted : Forall (fun l => exists t b, Forall constructed l /\ push_free l /\ closes (map ic l) /\
  plain_stream [] (main_states (map wire l)) /\ buffers_fit (data_states (map wire l)) /\
  extract empty_db l = Ok t /\ compile empty_db false t = Ok b /\
  forall ev, reads_as b ev -> placed [] ev <> placed [] (host_view AtMain (map wire l))) moved48.
Proof.
  repeat apply Forall_cons; [..|apply Forall_nil].
  all: match goal with |- exists t b, Forall _ ?l /\ _ => exists (tree_of (extract empty_db l));
         let c := eval vm_compute in (compile empty_db false (tree_of (extract empty_db l))) in
         match c with Ok ?b => exists b end end.
  all: split; [apply items_built|]; split; [vm_compute; repeat constructor; discriminate|].
  all: split; [match goal with |- closes (map ic ?l) => closed_by (removelast (map ic l)) end|]; split; [plain|].
  all: split; [unbuf|].
  all: split; [vm_compute; reflexivity|]; split; [vm_compute; reflexivity|]; intros ev RA Q.
  all: match type of RA with reads_as ?b _ =>
         match goal with |- _ => pose proof (fun t l H C => host_concrete empty_db t l b H C AtMain) as HC end end.
  1: specialize (HC (tree_of (extract empty_db (nth 0 moved48 []))) _ ltac:(vm_compute; reflexivity) ltac:(vm_compute; reflexivity)).
  2: specialize (HC (tree_of (extract empty_db (nth 1 moved48 []))) _ ltac:(vm_compute; reflexivity) ltac:(vm_compute; reflexivity)).
  all: apply RA in HC; subst ev; vm_compute in Q; discriminate Q.
Qed.
Print Assumptions C48_refuted.

(** a collection without usage decompiles to one that does not compile *)
Theorem C48_rejected : exists l t e, Forall constructed l /\ push_free l /\ closes (map ic l) /\
  plain_stream [] (main_states (map wire l)) /\ extract empty_db l = Ok t /\ compile empty_db false t = Err e.
Proof.
  pose (l := items [(Collection, 1); (ReportSize, 8); (ReportCount, 1); (Input, 1); (EndCollection, 0)]).
  exists l, (tree_of (extract empty_db l)). eexists. split; [apply items_built|].
  split; [vm_compute; repeat constructor; discriminate|]. split; [closed_by (removelast (map ic l))|]. split; [subst l; plain|].
  split; vm_compute; reflexivity.
Qed.
Print Assumptions C48_rejected.

(** C49 for trees of restorable values (BackSpec) whose last data is in a
    collection.  Missing: the others, see C49_refuted, and the alignment of
    the values, which no item tells. *)
Theorem C49_partial : forall db t l,
  well_formed t -> stream_items db t = Ok l ->
  Forall (restorable db) (located [] (fst (threaded 0 t))) -> settled (fst (threaded 0 t)) ->
  exists t', extract db l = Ok t' /\
    Forall2 same_value (real_values (fst (threaded 0 t))) (real_values (scoped 0 t')).
Proof. exact c49. Qed.
Print Assumptions C49_partial.

Definition mouse := Some (VUsage "GenericDesktop.Mouse" 0x10002 [CA]).
Definition select := Some (VUsage "GenericDesktop.Speaker" 0x1000b [NAry]).
Definition arr49 (u : option pval) (unit count : Z) : result value :=
  mk_value KValue (VArgs input u 8 (VInt 2) (Some 0) None None None (Some (NList [VInt 0x70004; VInt 0x70005; VInt 0x70009]))
    (VInt unit) 0 0 0 count None).

Definition buffer49 : result value :=
  mk_value KValue (VArgs input (Some (VInt 0xff000001)) 8 (VInt 0x102) (Some 0) (Some 255) None None None (VInt 0) 0 0 0 6 None).

(** two reports, padding, alignment, arrays with and without a usage, a buffer
    of six bytes *)
Definition tree49 : tree :=
  TTop [TColl (VNamed "Application" 1) mouse
    [TReport 1 [tv small; tv (mk_padding input 3); tv large; tv (mk_align input 16 (VInt 2));
                tv (mk_value KValue (VArgs (VNamed "Feature" 11) (Some (VInt 0x10030)) 12 (VInt 6) (Some (-100)) (Some 100) (Some 0) (Some 7)
                      None (VInt 0x11) 3 4 5 1 None))];
     TReport 2 [TColl (VNamed "Physical" 0) (Some (VInt 0x10001)) [tv (arr49 select 0 1); tv (arr49 None 0 1); tv buffer49]]]].

Definition brief (x : place * Z * value) : Z * list Z * Z * list Z * Z * Z :=
  let '(_, r, v) := x in
  (r, usage_list (v_usage v), v_size v, array_usages (v_named v), py_int (v_unit v), v_count v).

Lemma same_brief a b : Forall2 same_value a b -> map brief b = map brief a.
Proof.
  induction 1 as [|[[p r] v] [[p' r'] w] a b H F IH]; [reflexivity|]. destruct H as [_ [-> S]]. cbn [map]. rewrite IH. unfold brief.
  rewrite (sa_usage _ _ S), (sa_size _ _ S), (sa_named _ _ S), (sa_unit _ _ S), (sa_count _ _ S). reflexivity.
Qed.

Definition stream_of (t : tree) : list item := match stream_items empty_db t with Ok l => l | Err _ => [] end.

Example C49_case :
  well_formed tree49 /\ stream_items empty_db tree49 = Ok (stream_of tree49) /\
  Forall (restorable empty_db) (located [] (fst (threaded 0 tree49))) /\ settled (fst (threaded 0 tree49)) /\
  map brief (real_values (fst (threaded 0 tree49))) =
    [(1, [0x90001], 4, [], 0, 1); (1, [0x10030], 8, [], 0, 1); (1, [0x10030], 12, [], 0x11, 1);
     (2, [0x1000b], 8, [0x70004; 0x70005; 0x70009], 0, 1); (2, [], 8, [0x70004; 0x70005; 0x70009], 0, 1);
     (2, [0xff000001], 8, [], 0, 6)].
Proof.
  split; [wf|]. split; [vm_compute; reflexivity|]. split; [|split].
  - match goal with |- Forall _ ?q => let q' := eval vm_compute in q in change q with q' end.
    repeat apply Forall_cons; [..|apply Forall_nil]; unfold restorable; intros R; try discriminate R; clear R.
    all: split; [first [left; reflexivity|right; split; reflexivity]|].
    all: match goal with |- if ?b then _ else _ => let b' := eval vm_compute in b in change b with b'; cbv iota end.
    all: try (intros X Y; vm_compute in X, Y; discriminate).
    all: split; [reflexivity|]; split; [reflexivity|].
    + cbn. split; [discriminate|left; reflexivity].
    + cbn. do 3 eexists. split; [reflexivity|]. split; [intros [X _]; discriminate X|intros [X _]; discriminate X].
  - match goal with |- settled ?q => let q' := eval vm_compute in q in change q with q' end.
    match goal with |- settled ?q => exists (removelast q), LClose, []; split; [reflexivity|]; split; [exact I|constructor] end.
  - vm_compute. reflexivity.
Qed.

(** not given back: more than one repetition of anything but bytes; the unit of an array; an array
    whose usage is not of type NamedArray; an array outside any collection;
    a value after the last collection *)
Definition lost49 : list tree :=
  [TTop [TColl (VNamed "Application" 1) mouse [tv twice]];
   TTop [TColl (VNamed "Application" 1) mouse [tv (arr49 select 0x11 1)]];
   TTop [TColl (VNamed "Application" 1) mouse [tv (arr49 (Some (VInt 0x10001)) 0 1)]];
   TTop [tv (arr49 None 0 1); TColl (VNamed "Application" 1) mouse [tv small]];
   TTop [TColl (VNamed "Application" 1) mouse [tv small]; tv large]].

Theorem C49_refuted : Forall (fun t => exists l, well_formed t /\ stream_items empty_db t = Ok l /\
  ((exists e, extract empty_db l = Err e) \/
   exists t', extract empty_db l = Ok t' /\
     ~ Forall2 same_value (real_values (fst (threaded 0 t))) (real_values (scoped 0 t')))) lost49.
Proof.
  unfold lost49. repeat apply Forall_cons; [..|apply Forall_nil].
  all: match goal with |- exists l, well_formed ?t /\ _ => exists (stream_of t) end; split; [wf|]; split; [vm_compute; reflexivity|].
  4: left; eexists; vm_compute; reflexivity.
  all: right; match goal with |- exists t', extract _ ?l = _ /\ _ => exists (tree_of (extract empty_db l)) end; split; [vm_compute; reflexivity|].
  all: intros F; apply same_brief in F; vm_compute in F; discriminate F.
Qed.
Print Assumptions C49_refuted.
