(* NameTree.v -- trees that are the same but for names compile to the same
   bytes (C51, C52) *)
From Coq Require Import ZifyBool ZifyNat.
From Verif Require Import Py Usage Item Parser Optimizer Descriptor HidSpec StreamSpec DumpSpec ItemFacts ParserFacts ExtractAgain NameFacts.
Local Open Scope list_scope.
Local Open Scope Z_scope.
Ltac Zify.zify_post_hook ::= Z.div_mod_to_equations.

Inductive same_reqs : list (icls * option pval) -> list (icls * option pval) -> Prop :=
| sr_nil : same_reqs [] []
| sr_cons c v w l m : same_request c v w -> same_reqs l m -> same_reqs ((c, v) :: l) ((c, w) :: m).

Lemma sr_app a b c d : same_reqs a b -> same_reqs c d -> same_reqs (a ++ c) (b ++ d).
Proof. intros F G. induction F; [exact G|]. cbn [app]. constructor; auto. Qed.

Lemma items_twins db db' l m : same_reqs l m -> same_result twins (mk_items db l) (mk_items db' m).
Proof.
  induction 1 as [|c v w l m R _ IH]; [constructor|]. cbn [mk_items]. pose proof (item_twin db db' c v w R) as T.
  destruct (mk_item db c v) as [i|e], (mk_item db' c w) as [j|f]; cbn [same_result] in T; try contradiction; cbn [bind same_result]; [|exact T].
  destruct (mk_items db l) as [is|e], (mk_items db' m) as [js|f]; cbn [same_result] in IH; try contradiction; cbn [bind same_result]; [|exact IH].
  constructor; assumption.
Qed.

Lemma same_self c v : c <> Collection -> same_request c v v.
Proof. intros N. destruct v as [x|]; [|exact I]. split; [reflexivity|]. split; [contradiction|auto]. Qed.

Lemma same_usage v w : py_int w = py_int v -> same_request Usage (Some v) (Some w).
Proof. intros E. split; [exact E|]. split; [discriminate|intros _; left; reflexivity]. Qed.

Lemma usage_same u w : usage_list w = usage_list u ->
  usage_truthy w = usage_truthy u /\ (usage_truthy u = true -> same_request Usage u w).
Proof.
  assert (G : forall v, usage_list v = match v with Some x => if truthy x then [py_int x] else [] | None => [] end).
  { intros [[z| |]|]; cbn; try reflexivity. destruct (z =? 0); reflexivity. }
  rewrite !G. unfold usage_truthy, opt_truthy. destruct u as [x|], w as [y|].
  - destruct (truthy x), (truthy y); intros E; try discriminate E; split; auto; [|discriminate]. intros _. apply same_usage. congruence.
  - destruct (truthy x); intros E; [discriminate E|]. split; [reflexivity|discriminate].
  - destruct (truthy y); intros E; [discriminate E|]. split; [reflexivity|discriminate].
  - split; [reflexivity|discriminate].
Qed.

Lemma array_len a b : same_array a b -> narr_truthy b = narr_truthy a.
Proof.
  intros H. destruct a as [[l|r]|], b as [[m|q]|]; try contradiction; try reflexivity; cbn [same_array narr_truthy narr_len] in *.
  - apply (f_equal (@length Z)) in H. rewrite !map_length in H. rewrite H. reflexivity.
  - unfold range_len. destruct H as [-> ->]. reflexivity.
Qed.

Lemma array_reqs db db' a b : same_array a b ->
  same_reqs (map (fun u => (Usage, Some u)) (match a with Some a => narr_iter db a | None => [] end))
            (map (fun u => (Usage, Some u)) (match b with Some a => narr_iter db' a | None => [] end)).
Proof.
  assert (G : forall l m, map py_int m = map py_int l -> same_reqs (map (fun u => (Usage, Some u)) l) (map (fun u => (Usage, Some u)) m)).
  { induction l as [|x l IH]; intros [|y m] E; try discriminate E; cbn [map]; constructor; injection E as E1 E2; [apply same_usage, E1|apply IH, E2]. }
  intros H. destruct a as [[l|r]|], b as [[m|q]|]; try contradiction; cbn [same_array narr_iter] in *; [apply G, H| |constructor].
  apply G. unfold range_iter. destruct H as [-> ->]. rewrite !map_map. apply map_ext. intros z. rewrite !lookup_int. reflexivity.
Qed.

Definition data_class (c : icls) : Prop := c = Input \/ c = Output \/ c = Feature.

Ltac self := apply same_self; discriminate.

Lemma value_same db db' v w named c : rebuilt v w -> data_class c ->
  same_reqs (value_reqs db v named c) (value_reqs db' w named c).
Proof.
  intros R D. pose proof (usage_same _ _ (rb_usage _ _ R)) as [UT US]. pose proof (array_reqs db db' _ _ (rb_named _ _ R)) as AR.
  unfold value_reqs. rewrite (rb_flags _ _ R), (rb_lmin _ _ R), (rb_lmax _ _ R), (rb_pmin _ _ R), (rb_pmax _ _ R),
    (rb_uexp _ _ R), (rb_desig _ _ R), (rb_str _ _ R), (rb_count _ _ R), (rb_size _ _ R), UT.
  assert (C : same_request Collection (Some (VNamed "Logical" 2)) (Some (VNamed "Logical" 2))).
  { split; [reflexivity|]. split; [intros _; discriminate|intros M; discriminate M]. }
  apply sr_app; [|apply sr_app].
  - destruct (negb _); [constructor|]. apply sr_app; [|apply sr_app; [|apply sr_app; [|apply sr_app]]].
    + destruct (usage_truthy (v_usage v)); repeat constructor. apply US; reflexivity.
    + destruct named.
      * apply sr_app; [repeat (constructor; [self|]); constructor|]. apply sr_app; [|exact AR].
        destruct (usage_truthy (v_usage v)); repeat constructor; try exact C; discriminate.
      * destruct (_ && _); repeat (constructor; [self|]); constructor.
    + constructor; [self|]. constructor; [self|]. constructor; [|constructor; [self|constructor]].
      split; [exact (rb_unit _ _ R)|]. split; [discriminate|intros M; discriminate M].
    + destruct (v_desig v =? 0); [constructor|]. constructor; [self|constructor].
    + destruct (v_str v =? 0); [constructor|]. constructor; [self|constructor].
  - constructor; [self|]. constructor; [self|]. constructor; [|constructor].
    split; [exact (rb_flags _ _ R)|]. destruct D as [->|[->| ->]]; (split; [discriminate|]); try (intros M; discriminate M). auto.
  - destruct (_ && _); [|constructor]. constructor; [self|constructor].
Qed.

Lemma way_data st way n st1 c : rs_add st way n = Ok st1 -> main_class way = Ok c -> data_class c.
Proof.
  unfold rs_add, rs_key. destruct ((way =? 8) || (way =? 9) || (way =? 11)) eqn:W; [|discriminate]. intros _.
  assert (way = 8 \/ way = 9 \/ way = 11) as D by lia. unfold data_class. destruct D as [->|[->| ->]]; vm_compute; intros E; injection E as <-; auto.
Qed.

Definition same_out (x y : sst * list item) : Prop := fst y = fst x /\ twins (snd x) (snd y).

Lemma element_same db db' st v w : rebuilt v w -> same_result same_out (element db st v) (element db' st w).
Proof.
  intros R. unfold element. rewrite (rb_kind _ _ R), (rb_way _ _ R), (rb_align _ _ R), (rb_size _ _ R), (array_len _ _ (rb_named _ _ R)).
  set (way := py_int (v_way v)).
  match goal with |- same_result _ (bind ?p _) (bind ?p _) => destruct p as [pad|e] end; [|reflexivity]. cbn [bind].
  assert (G : same_result same_out
    (if pad =? 0 then Ok (st, []) else
       let* st1 := rs_add st way pad in let* c := main_class way in
       let* o := mk_items db [(ReportCount, Some (VInt 1)); (ReportSize, Some (VInt pad)); (c, Some (VInt 3))] in Ok (st1, o))
    (if pad =? 0 then Ok (st, []) else
       let* st1 := rs_add st way pad in let* c := main_class way in
       let* o := mk_items db' [(ReportCount, Some (VInt 1)); (ReportSize, Some (VInt pad)); (c, Some (VInt 3))] in Ok (st1, o))).
  { destruct (pad =? 0); [split; [reflexivity|constructor]|]. destruct (rs_add st way pad) as [st1|e] eqn:E1; [|reflexivity]. cbn [bind].
    destruct (main_class way) as [c|e] eqn:E2; [|reflexivity]. cbn [bind]. pose proof (way_data _ _ _ _ _ E1 E2) as D.
    assert (S : same_reqs [(ReportCount, Some (VInt 1)); (ReportSize, Some (VInt pad)); (c, Some (VInt 3))]
                          [(ReportCount, Some (VInt 1)); (ReportSize, Some (VInt pad)); (c, Some (VInt 3))]).
    { constructor; [self|]. constructor; [self|]. constructor; [|constructor]. destruct D as [->|[->| ->]]; self. }
    pose proof (items_twins db db' _ _ S) as T.
    destruct (mk_items db _) as [o|e], (mk_items db' _) as [q|f]; cbn [same_result] in T; try contradiction; cbn [bind same_result]; [|exact T].
    split; [reflexivity|exact T]. }
  revert G. match goal with |- same_result _ ?x ?y -> _ => destruct x as [[st1 o1]|e], y as [[st1' q1]|f] end; cbn [same_result]; try contradiction; cbn [bind];
    [|intros ->; reflexivity].
  intros [E O1]. cbn [fst snd] in E, O1. subst st1'. destruct (v_kind v); [|split; [reflexivity|exact O1]..].
  destruct (narr_truthy (v_named v)) as [named|e]; [|reflexivity]. cbn [bind].
  destruct (rs_add st1 way (v_size v)) as [st2|e] eqn:E1; [|reflexivity]. cbn [bind].
  destruct (main_class way) as [c|e] eqn:E2; [|reflexivity]. cbn [bind]. pose proof (way_data _ _ _ _ _ E1 E2) as D.
  pose proof (items_twins db db' _ _ (value_same db db' v w named c R D)) as T.
  destruct (mk_items db _) as [o|e], (mk_items db' _) as [q|f]; cbn [same_result] in T; try contradiction; cbn [bind same_result]; [|exact T].
  split; [reflexivity|]. apply twins_app; assumption.
Qed.

Lemma kinds_list ms : (fix all ms := match ms with [] => True | m :: r => kinds_ok m /\ all r end) ms <-> Forall kinds_ok ms.
Proof.
  induction ms as [|m ms IH]; [split; constructor|]. rewrite IH. split.
  - intros [A B]. constructor; auto.
  - intros A. inversion A; auto.
Qed.

Definition same_stream db db' (t : tree) : Prop :=
  kinds_ok t -> forall t', same_tree t t' -> forall st, same_result same_out (stream_tree db st t) (stream_tree db' st t').

Lemma members_same db db' ms : Forall (same_stream db db') ms -> Forall kinds_ok ms -> forall ns, same_members ms ns ->
  forall st, same_result same_out (stream_members db st ms) (stream_members db' st ns).
Proof.
  intros F. induction F as [|m ms H F IH]; intros K ns SM st; inversion SM; subst; [split; [reflexivity|constructor]|].
  cbn [stream_members]. pose proof (H (Forall_inv K) _ ltac:(eassumption) st) as G.
  destruct (stream_tree db st m) as [[s1 o1]|e], (stream_tree db' st n) as [[s1' q1]|f]; cbn [same_result] in G; try contradiction; cbn [bind same_result]; [|exact G].
  destruct G as [E O1]. cbn [fst snd] in E, O1. subst s1'.
  pose proof (IH (Forall_inv_tail K) _ ltac:(eassumption) s1) as G.
  destruct (stream_members db s1 ms) as [[s2 o2]|e], (stream_members db' s1 ns0) as [[s2' q2]|f]; cbn [same_result] in G; try contradiction; cbn [bind same_result]; [|exact G].
  destruct G as [E O2]. cbn [fst snd] in E, O2. split; [exact E|apply twins_app; assumption].
Qed.

Lemma stream_go db : forall ms st,
  (fix go (st : sst) (ms : list tree) {struct ms} : result (sst * list item) :=
     match ms with
     | [] => Ok (st, [])
     | m :: r => let* (st1, o1) := stream_tree db st m in let* (st2, o2) := go st1 r in Ok (st2, o1 ++ o2)
     end) st ms = stream_members db st ms.
Proof. induction ms as [|m ms IH]; intros st; [reflexivity|]. cbn [stream_members]. destruct (stream_tree db st m) as [[s1 o1]|e]; [|reflexivity]. cbn [bind]. rewrite IH. reflexivity. Qed.

Lemma tree_same db db' t : same_stream db db' t.
Proof.
  revert t. apply tree_all.
  - intros v _ t' ST st. inversion ST; subst. apply element_same. assumption.
  - intros id ms F K t' ST st. cbn [kinds_ok] in K. apply kinds_list in K. inversion ST; subst. cbn [stream_tree]. rewrite !stream_go.
    assert (G : same_result twins (if id =? 0 then Ok [] else mk_items db [(ReportID, Some (VInt id))])
                                  (if id =? 0 then Ok [] else mk_items db' [(ReportID, Some (VInt id))])).
    { destruct (id =? 0); [constructor|]. apply items_twins. constructor; [self|constructor]. }
    revert G. match goal with |- same_result _ ?x ?y -> _ => destruct x as [o|e], y as [q|f] end; cbn [same_result]; try contradiction; cbn [bind]; intros O; [|exact O].
    pose proof (members_same db db' ms F K ns ltac:(eassumption) (SST id (s_size st))) as G.
    destruct (stream_members db _ ms) as [[s1 o1]|e], (stream_members db' _ ns) as [[s1' q1]|f]; cbn [same_result] in G; try contradiction; cbn [bind same_result]; [|exact G].
    destruct G as [E O1]. split; [exact E|apply twins_app; assumption].
  - intros ms F K t' ST st. cbn [kinds_ok] in K. apply kinds_list in K. inversion ST; subst. cbn [stream_tree]. rewrite !stream_go.
    apply members_same; assumption.
  - intros k u ms F [N K] t' ST st. apply kinds_list in K. inversion ST as [| | |k0 u0 k' u' ms0 ns EK EU SM]; subst. cbn [stream_tree]. rewrite !stream_go.
    assert (G : same_result twins (mk_items db [(Usage, u); (Collection, Some k)]) (mk_items db' [(Usage, u'); (Collection, Some k')])).
    { apply items_twins. constructor; [|constructor; [|constructor]].
      - destruct u as [x|], u' as [y|]; try discriminate EU; [|exact I]. apply same_usage. cbn in EU. congruence.
      - split; [exact EK|]. split; [auto|intros M; discriminate M]. }
    revert G. match goal with |- same_result _ ?x ?y -> _ => destruct x as [o|e], y as [q|f] end; cbn [same_result]; try contradiction; cbn [bind]; intros O; [|exact O].
    pose proof (members_same db db' ms F K ns SM st) as G.
    destruct (stream_members db _ ms) as [[s1 o1]|e], (stream_members db' _ ns) as [[s1' q1]|f]; cbn [same_result] in G; try contradiction; cbn [bind same_result]; [|exact G].
    destruct G as [E O1]. cbn [fst snd] in E, O1.
    assert (G : same_result twins (mk_items db [(EndCollection, Some (VInt 0))]) (mk_items db' [(EndCollection, Some (VInt 0))])).
    { apply items_twins. constructor; [self|constructor]. }
    revert G. match goal with |- same_result _ ?x ?y -> _ => destruct x as [o2|e], y as [q2|f] end; cbn [same_result]; try contradiction; cbn [bind]; intros O2; [|exact O2].
    split; [exact E|]. apply twins_app; [exact O|]. apply twins_app; assumption.
Qed.

Lemma c51 db db' opt t t' : same_tree t t' -> kinds_ok t -> compile db' opt t' = compile db opt t.
Proof.
  intros ST K. unfold compile, stream_items. pose proof (tree_same db db' t K t' ST sst_init) as G.
  destruct (stream_tree db sst_init t) as [[s o]|e], (stream_tree db' sst_init t') as [[s' q]|f]; cbn [same_result] in G; try contradiction; cbn [bind].
  - destruct G as [_ O]. cbn [snd] in O. destruct opt; apply twins_serialize; [apply optimize_twins|]; exact O.
  - congruence.
Qed.
