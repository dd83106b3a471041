(* TreeOpt.v -- the optimised streams of trees: C40 and C42 *)
From Coq Require Import ZifyBool ZifyNat.
From Verif Require Import Py Usage Item Parser Optimizer Descriptor Converter HidSpec Spec ItemFacts ParserFacts
  CodecProofs UsageProofs StreamSpec PlainHost StreamProofs StreamTree OptSpec AllSpec TreeSpec
  OptFacts MainMergeFacts Skeleton PassFacts PhysFacts OptAll.
Ltac Zify.zify_post_hook ::= Z.div_mod_to_equations.

(* ------------------------------------------------------------------ *)
(** the items of each leaf *)

Definition way_of (v : value) : icls := way_class (py_int (v_way v)).

Definition pad_items (c : icls) (p : Z) : list spec_item :=
  if p =? 0 then [] else [(ReportCount, 1); (ReportSize, p); (c, 3)].

Definition phys_items (v : value) : list spec_item :=
  if is_array v then [(PhysicalMinimum, 0); (PhysicalMaximum, 0)]
  else if opt_Z_eqb (v_pmin v) (v_lmin v) && opt_Z_eqb (v_pmax v) (v_lmax v)
  then [(PhysicalMinimum, 0); (PhysicalMaximum, 0)]
  else [(PhysicalMinimum, or0 (v_pmin v)); (PhysicalMaximum, or0 (v_pmax v))].

Definition us_items (l : list Z) : list spec_item := map (fun z => (Usage, z)) l.

Definition val_items (v : value) : list spec_item :=
  match v_kind v with
  | KValue =>
      if is_constant (py_int (v_flags v)) then val_end v (way_of v)
      else us_items (usage_list (v_usage v)) ++
           (if is_array v
            then phys_items v ++ map (fun _ => (Collection, 2)) (usage_list (v_usage v))
                 ++ us_items (array_usages (v_named v))
            else phys_items v)
           ++ val_mid v ++ val_end v (way_of v)
           ++ (if is_array v then map (fun _ => (EndCollection, 0)) (usage_list (v_usage v)) else [])
  | _ => []
  end.

Inductive piece : Z -> leaf -> list spec_item -> Prop :=
| pc_open r k u : piece r (LOpen k (Some u)) [(Usage, py_int u); (Collection, py_int k)]
| pc_close r : piece r LClose [(EndCollection, 0)]
| pc_val r v p : made v -> (p <> 0 \/ v_kind v = KValue -> data_cls (way_of v)) ->
    piece r (LVal r v) (pad_items (way_of v) p ++ val_items v).

Inductive pieces : Z -> list leaf -> list spec_item -> Z -> Prop :=
| ps_nil r : pieces r [] [] r
| ps_rid r id ls o r' : pieces id ls o r' -> pieces r ls ((ReportID, id) :: o) r'
| ps_leaf r x ls o o' r' : piece r x o -> pieces r ls o' r' -> pieces r (x :: ls) (o ++ o') r'.

Lemma pieces_app r l1 o1 r1 l2 o2 r2 :
  pieces r l1 o1 r1 -> pieces r1 l2 o2 r2 -> pieces r (l1 ++ l2) (o1 ++ o2) r2.
Proof.
  intros H1 H2. induction H1; auto.
  - constructor. auto.
  - cbn [app]. rewrite <- app_assoc. constructor; auto.
Qed.

Lemma reqs_items db v : v_kind v = KValue ->
  map req_cv (value_reqs db v (is_array v) (way_of v)) = val_items v.
Proof.
  intros K. unfold val_items. rewrite K. destruct (is_constant (py_int (v_flags v))) eqn:C.
  - apply reqs_const. exact C.
  - rewrite reqs_data by exact C. unfold us_items, phys_items. destruct (is_array v); [|reflexivity].
    rewrite <- !app_assoc. reflexivity.
Qed.

Lemma element_piece db st v st' o r :
  made v -> element db st v = Ok (st', o) -> piece r (LVal r v) (map cv o).
Proof.
  intros M H. unfold element in H.
  set (way := py_int (v_way v)) in *.
  match type of H with bind ?r _ = _ => destruct r as [pad|] eqn:PAD; [|discriminate] end.
  cbn [bind] in H.
  match type of H with bind ?r _ = _ => destruct r as [[st1 out1]|] eqn:OUT1; [|discriminate] end.
  cbn [bind] in H. clear PAD.
  assert (O1 : map cv out1 = pad_items (way_of v) pad /\ (pad <> 0 -> data_cls (way_of v))).
  { unfold pad_items. destruct (pad =? 0) eqn:P0.
    - injection OUT1 as <- <-. split; [reflexivity|lia].
    - destruct (rs_add st way pad) as [st2|] eqn:RA; [|discriminate]. cbn [bind] in OUT1.
      destruct (main_class way) as [c|] eqn:MC; [|discriminate]. cbn [bind] in OUT1.
      match type of OUT1 with bind ?r _ = _ => destruct r as [is|] eqn:MI; [|discriminate] end.
      cbn [bind] in OUT1. injection OUT1 as <- <-.
      apply rs_add_ok in RA. destruct RA as [R1 [R2 [R3 R4]]].
      destruct (main_class_ok _ _ MC R3) as [-> DC].
      assert (RO : Forall req_ok [(ReportCount, Some (VInt 1)); (ReportSize, Some (VInt pad));
                                  (way_class way, Some (VInt 3))]).
      { repeat constructor. unfold req_ok. destruct (way_class way); auto. lia. }
      split; [|intros _; exact DC].
      etransitivity; [exact (mk_items_cv _ _ _ RO MI)|]. reflexivity. }
  destruct O1 as [O1 D1].
  destruct (v_kind v) eqn:K.
  - destruct (narr_truthy (v_named v)) as [b|] eqn:T; [|discriminate]. cbn [bind] in H.
    apply truthy_is_array in T. subst b.
    destruct (rs_add st1 way (v_size v)) as [st2|] eqn:RA; [|discriminate]. cbn [bind] in H.
    destruct (main_class way) as [c|] eqn:MC; [|discriminate]. cbn [bind] in H.
    match type of H with bind ?r _ = _ => destruct r as [is|] eqn:MI; [|discriminate] end.
    cbn [bind] in H. injection H as <- <-.
    apply rs_add_ok in RA. destruct RA as [R1 [R2 [R3 R4]]].
    destruct (main_class_ok _ _ MC R3) as [-> DC].
    assert (NC : way_class way <> Collection) by (destruct DC as [E|[E|E]]; rewrite E; discriminate).
    pose proof (value_reqs_ok db v (way_class way) NC) as RO.
    pose proof (mk_items_cv _ _ _ RO MI) as CV.
    rewrite map_app, O1. change (map cv is) with (map (fun i => (ic i, ival i)) is). rewrite CV.
    change (way_class way) with (way_of v). rewrite reqs_items by exact K.
    constructor; auto.
  - injection H as <- <-.
    replace (map cv out1) with (pad_items (way_of v) pad ++ val_items v)
      by (unfold val_items; rewrite K, app_nil_r; auto).
    constructor; auto. rewrite K. intros [X|X]; [auto|discriminate].
  - injection H as <- <-.
    replace (map cv out1) with (pad_items (way_of v) pad ++ val_items v)
      by (unfold val_items; rewrite K, app_nil_r; auto).
    constructor; auto. rewrite K. intros [X|X]; [auto|discriminate].
Qed.

Lemma stream_pieces db t : forall st st' o r,
  well_formed t -> stream_tree db st t = Ok (st', o) ->
  pieces r (fst (threaded r t)) (map cv o) (snd (threaded r t)).
Proof.
  assert (ALL : forall ms, Forall (fun t => forall st st' o r,
      well_formed t -> stream_tree db st t = Ok (st', o) ->
      pieces r (fst (threaded r t)) (map cv o) (snd (threaded r t))) ms ->
    forall st st' o r, Forall well_formed ms -> stream_members db st ms = Ok (st', o) ->
      pieces r (fst (threaded_all r ms)) (map cv o) (snd (threaded_all r ms))).
  { induction 1 as [|m ms H _ IH]; intros st st' o r WF E; cbn [stream_members] in E.
    - injection E as <- <-. constructor.
    - destruct (stream_tree db st m) as [[st1 o1]|] eqn:E1; [|discriminate]. cbn [bind] in E.
      destruct (stream_members db st1 ms) as [[st2 o2]|] eqn:E2; [|discriminate]. cbn [bind] in E.
      injection E as <- <-. inversion WF; subst. cbn [threaded_all]. rewrite map_app.
      pose proof (H _ _ _ r ltac:(assumption) E1) as P1.
      destruct (threaded r m) as [a r1]. cbn [fst snd] in P1.
      pose proof (IH _ _ _ r1 ltac:(assumption) E2) as P2.
      destruct (threaded_all r1 ms) as [b r2]. cbn [fst snd] in *.
      eapply pieces_app; eauto. }
  induction t as [v|id ms IH|ms IH|k u ms IH] using tree_rect2; intros st st' o r WF H.
  - cbn [threaded fst snd]. rewrite <- (app_nil_r (map cv o)). constructor; [|constructor].
    eapply element_piece; eauto.
  - rewrite stream_report in H.
    destruct (if id =? 0 then _ else _) as [o0|] eqn:E0; [|discriminate]. cbn [bind] in H.
    destruct (stream_members db _ ms) as [[st1 o1]|] eqn:E1; [|discriminate]. cbn [bind] in H.
    injection H as <- <-. rewrite threaded_report, map_app.
    assert (WA : Forall well_formed ms) by (apply well_formed_all; exact WF).
    destruct (id =? 0) eqn:Z0.
    + injection E0 as <-. apply (ALL ms IH _ _ _ _ WA E1).
    + assert (O : map cv o0 = [(ReportID, id)]).
      { etransitivity; [eapply mk_items_cv; [|exact E0]|]; [|reflexivity]. repeat constructor. }
      rewrite O. constructor. apply (ALL ms IH _ _ _ _ WA E1).
  - rewrite stream_top in H. rewrite threaded_top. eapply ALL; eauto. apply well_formed_all. exact WF.
  - rewrite stream_coll in H.
    destruct (mk_items db [(Usage, u); (Collection, Some k)]) as [o0|] eqn:E0; [|discriminate]. cbn [bind] in H.
    destruct (stream_members db st ms) as [[st1 o1]|] eqn:E1; [|discriminate]. cbn [bind] in H.
    destruct (mk_items db [(EndCollection, Some (VInt 0))]) as [o2|] eqn:E2; [|discriminate]. cbn [bind] in H.
    injection H as <- <-. destruct WF as [W1 W2].
    destruct (coll_items _ _ _ _ E0) as [x ->].
    assert (O : map cv o0 = [(Usage, py_int x); (Collection, py_int k)]).
    { etransitivity; [eapply mk_items_cv; [|exact E0]|]; [|reflexivity].
      constructor; [exact I|]. constructor; [|constructor]. exact W1. }
    assert (O2 : map cv o2 = [(EndCollection, 0)]).
    { etransitivity; [eapply mk_items_cv; [|exact E2]|]; [|reflexivity]. repeat constructor. }
    pose proof (ALL ms IH _ _ _ r (proj1 (well_formed_all ms) W2) E1) as P1.
    rewrite threaded_coll. destruct (threaded_all r ms) as [a r1]. cbn [fst snd] in *.
    rewrite !map_app, O, O2.
    change (LOpen k (Some x) :: a ++ [LClose]) with ([] ++ LOpen k (Some x) :: a ++ [LClose]).
    cbn [app]. change ((Usage, py_int x) :: (Collection, py_int k) :: map cv o1 ++ [(EndCollection, 0)])
      with ([(Usage, py_int x); (Collection, py_int k)] ++ map cv o1 ++ [(EndCollection, 0)]).
    constructor; [constructor|]. eapply pieces_app; [exact P1|].
    change [(EndCollection, 0)] with ([(EndCollection, 0)] ++ @nil spec_item). constructor; constructor.
Qed.

(** all the items are built by the constructors *)
Lemma mk_items_constructed db reqs l : mk_items db reqs = Ok l -> Forall constructed l.
Proof.
  revert l. induction reqs as [|[c v] reqs IH]; intros l H; cbn [mk_items] in H.
  - injection H as <-. constructor.
  - destruct (mk_item db c v) as [i|] eqn:E; [|discriminate]. cbn [bind] in H.
    destruct (mk_items db reqs) as [is|]; [|discriminate]. cbn [bind] in H. injection H as <-.
    constructor; auto. exists db, v. rewrite (mk_item_class _ _ _ _ E). exact E.
Qed.

Lemma element_constructed db st v st' o : element db st v = Ok (st', o) -> Forall constructed o.
Proof.
  intros H. unfold element in H.
  match type of H with bind ?r _ = _ => destruct r as [pad|] eqn:PAD; [|discriminate] end.
  cbn [bind] in H.
  match type of H with bind ?r _ = _ => destruct r as [[st1 out1]|] eqn:OUT1; [|discriminate] end.
  cbn [bind] in H. clear PAD.
  assert (O1 : Forall constructed out1).
  { destruct (pad =? 0); [injection OUT1 as <- <-; constructor|].
    destruct (rs_add st (py_int (v_way v)) pad) as [st2|]; [|discriminate]. cbn [bind] in OUT1.
    destruct (main_class (py_int (v_way v))) as [c|]; [|discriminate]. cbn [bind] in OUT1.
    match type of OUT1 with bind ?r _ = _ => destruct r as [is|] eqn:MI; [|discriminate] end.
    cbn [bind] in OUT1. injection OUT1 as <- <-. eapply mk_items_constructed; eauto. }
  destruct (v_kind v); [|injection H as <- <-; auto..].
  destruct (narr_truthy (v_named v)) as [b|]; [|discriminate]. cbn [bind] in H.
  destruct (rs_add st1 (py_int (v_way v)) (v_size v)) as [st2|]; [|discriminate]. cbn [bind] in H.
  destruct (main_class (py_int (v_way v))) as [c|]; [|discriminate]. cbn [bind] in H.
  match type of H with bind ?r _ = _ => destruct r as [is|] eqn:MI; [|discriminate] end.
  cbn [bind] in H. injection H as <- <-. apply Forall_app. split; auto. eapply mk_items_constructed; eauto.
Qed.

Lemma stream_constructed db t : forall st st' o, stream_tree db st t = Ok (st', o) -> Forall constructed o.
Proof.
  assert (ALL : forall ms, Forall (fun t => forall st st' o, stream_tree db st t = Ok (st', o) -> Forall constructed o) ms ->
    forall st st' o, stream_members db st ms = Ok (st', o) -> Forall constructed o).
  { induction 1 as [|m ms H _ IH]; intros st st' o E; cbn [stream_members] in E.
    - injection E as <- <-. constructor.
    - destruct (stream_tree db st m) as [[st1 o1]|] eqn:E1; [|discriminate]. cbn [bind] in E.
      destruct (stream_members db st1 ms) as [[st2 o2]|] eqn:E2; [|discriminate]. cbn [bind] in E.
      injection E as <- <-. apply Forall_app. split; eauto. }
  induction t as [v|id ms IH|ms IH|k u ms IH] using tree_rect2; intros st st' o H.
  - eapply element_constructed; eauto.
  - rewrite stream_report in H.
    destruct (if id =? 0 then _ else _) as [o0|] eqn:E0; [|discriminate]. cbn [bind] in H.
    destruct (stream_members db _ ms) as [[st1 o1]|] eqn:E1; [|discriminate]. cbn [bind] in H.
    injection H as <- <-. apply Forall_app. split; [|eapply ALL; eauto].
    destruct (id =? 0); [injection E0 as <-; constructor|eapply mk_items_constructed; eauto].
  - rewrite stream_top in H. eapply ALL; eauto.
  - rewrite stream_coll in H.
    destruct (mk_items db [(Usage, u); (Collection, Some k)]) as [o0|] eqn:E0; [|discriminate]. cbn [bind] in H.
    destruct (stream_members db st ms) as [[st1 o1]|] eqn:E1; [|discriminate]. cbn [bind] in H.
    destruct (mk_items db [(EndCollection, Some (VInt 0))]) as [o2|] eqn:E2; [|discriminate]. cbn [bind] in H.
    injection H as <- <-. rewrite !Forall_app. split; [|split]; [eapply mk_items_constructed; eauto| |eapply mk_items_constructed; eauto].
    eapply ALL; eauto.
Qed.

(** a closed tree ends with EndCollection *)
Lemma members_last db ms m st st' o :
  stream_members db st (ms ++ [m]) = Ok (st', o) ->
  exists st1 o1 o2, stream_tree db st1 m = Ok (st', o2) /\ o = o1 ++ o2.
Proof.
  revert st o. induction ms as [|x ms IH]; intros st o H; cbn [app stream_members] in H.
  - destruct (stream_tree db st m) as [[st1 o1]|] eqn:E1; [|discriminate]. cbn [bind] in H.
    injection H as <- <-. exists st, [], o1. rewrite app_nil_r. auto.
  - destruct (stream_tree db st x) as [[st1 o1]|] eqn:E1; [|discriminate]. cbn [bind] in H.
    destruct (stream_members db st1 (ms ++ [m])) as [[st2 o2]|] eqn:E2; [|discriminate]. cbn [bind] in H.
    injection H as <- <-. destruct (IH _ _ E2) as [s [a [b [X ->]]]].
    exists s, (o1 ++ a), b. rewrite app_assoc. auto.
Qed.

Lemma ends_app a b : ends b -> ends (a ++ b).
Proof. intros [l' [i [-> X]]]. exists (a ++ l'), i. rewrite app_assoc. auto. Qed.

Lemma closed_ends db t : closed_tree t -> forall st st' o, stream_tree db st t = Ok (st', o) -> ends o.
Proof.
  induction 1 as [k u ms|ms m _ IH|id ms m _ IH]; intros st st' o H.
  - rewrite stream_coll in H.
    destruct (mk_items db [(Usage, u); (Collection, Some k)]) as [o0|] eqn:E0; [|discriminate]. cbn [bind] in H.
    destruct (stream_members db st ms) as [[st1 o1]|] eqn:E1; [|discriminate]. cbn [bind] in H.
    destruct (mk_items db [(EndCollection, Some (VInt 0))]) as [o2|] eqn:E2; [|discriminate]. cbn [bind] in H.
    injection H as <- <-. apply ends_app, ends_app.
    pose proof (mk_items_classes _ _ _ E2) as C. destruct o2 as [|i [|]]; try discriminate C. injection C as C.
    exists [], i. rewrite C. auto.
  - rewrite stream_top in H. destruct (members_last _ _ _ _ _ _ H) as [s [a [b [X ->]]]].
    apply ends_app. eauto.
  - rewrite stream_report in H.
    destruct (if id =? 0 then _ else _) as [o0|] eqn:E0; [|discriminate]. cbn [bind] in H.
    destruct (stream_members db _ (ms ++ [m])) as [[st1 o1]|] eqn:E1; [|discriminate]. cbn [bind] in H.
    injection H as <- <-. destruct (members_last _ _ _ _ _ _ E1) as [s [a [b [X ->]]]].
    apply ends_app, ends_app. eauto.
Qed.

(* ------------------------------------------------------------------ *)
(** each item *)

Definition item_of (us : list Z) (w : spec_item) : Prop :=
  plain (fst w) = true /\ (fst w = Usage -> In (snd w) us) /\ (fst w = DesignatorIndex -> snd w <> 0).

Lemma items_mono us us' l : (forall u, In u us -> In u us') -> Forall (item_of us) l -> Forall (item_of us') l.
Proof. intros H. apply Forall_impl. intros w [A [B C]]. split; [|split]; auto. Qed.

Lemma other_item us c z : plain c = true -> c <> Usage -> c <> DesignatorIndex -> item_of us (c, z).
Proof. intros. split; [|split]; auto; intros X; cbn [fst] in X; congruence. Qed.

Lemma us_item us l : (forall u, In u l -> In u us) -> Forall (item_of us) (us_items l).
Proof.
  intros H. apply Forall_map, Forall_forall. intros u I. split; [reflexivity|split; [auto|discriminate]].
Qed.

Lemma way_plain v us z : data_cls (way_of v) -> item_of us (way_of v, z).
Proof. intros [E|[E|E]]; rewrite E; apply other_item; try reflexivity; discriminate. Qed.

Lemma idx_items us d s : Forall (item_of us) (map (fun z => (DesignatorIndex, z)) (idx d) ++ map (fun z => (StringIndex, z)) (idx s)).
Proof.
  apply Forall_app. unfold idx. split.
  - destruct (Z.eqb_spec d 0); cbn [map]; repeat constructor; auto; discriminate.
  - destruct (s =? 0); cbn [map]; repeat constructor; discriminate.
Qed.

Ltac oth := apply other_item; [reflexivity|discriminate|discriminate].

Lemma mid_items us v : Forall (item_of us) (val_mid v).
Proof. unfold val_mid. apply Forall_app. split; [repeat constructor; discriminate|apply idx_items]. Qed.

Lemma end_items us v : data_cls (way_of v) -> Forall (item_of us) (val_end v (way_of v)).
Proof. intros D. unfold val_end. constructor; [oth|constructor; [oth|constructor; [apply way_plain; exact D|constructor]]]. Qed.

Lemma phys_other us v : Forall (item_of us) (phys_items v).
Proof. unfold phys_items. destruct (is_array v); [|destruct (_ && _)]; repeat constructor; discriminate. Qed.

Lemma pad_item us v p : (p <> 0 -> data_cls (way_of v)) -> Forall (item_of us) (pad_items (way_of v) p).
Proof.
  intros D. unfold pad_items. destruct (Z.eqb_spec p 0); [constructor|].
  constructor; [oth|constructor; [oth|constructor; [apply way_plain; auto|constructor]]].
Qed.

Lemma piece_items r x o : piece r x o -> Forall (item_of (leaf_usages x)) o.
Proof.
  intros H. inversion H as [r0 k u|r0|r0 v p M D]; subst.
  - constructor; [split; [reflexivity|split; [left; reflexivity|discriminate]]|]. repeat constructor; discriminate.
  - repeat constructor; discriminate.
  - apply Forall_app. split; [apply pad_item; auto|].
    unfold leaf_usages, data_value, val_items.
    destruct (v_kind v); [|constructor..].
    destruct (is_constant (py_int (v_flags v))); cbn [negb]; [apply end_items; auto|].
    apply Forall_app. split; [apply us_item; intros u I; apply in_app_iff; auto|].
    apply Forall_app. split.
    { destruct (is_array v); [|apply phys_other].
      apply Forall_app. split; [apply phys_other|]. apply Forall_app. split.
      - apply Forall_map, Forall_forall. intros; oth.
      - apply us_item; intros u I; apply in_app_iff; auto. }
    apply Forall_app. split; [apply mid_items|]. apply Forall_app. split; [apply end_items; auto|].
    destruct (is_array v); [|constructor]. apply Forall_map, Forall_forall. intros; oth.
Qed.

Lemma pieces_items r ls o r' : pieces r ls o r' -> Forall (item_of (flat_map leaf_usages ls)) o.
Proof.
  induction 1 as [r|r id ls o r' _ IH|r x ls o o' r' P _ IH]; [constructor| |].
  - constructor; [oth|exact IH].
  - cbn [flat_map]. apply Forall_app. split.
    + eapply items_mono; [|eapply piece_items; eauto]. intros u I. apply in_app_iff. auto.
    + eapply items_mono; [|exact IH]. intros u I. apply in_app_iff. auto.
Qed.

Lemma paged_flat ls : paged_leaves ls -> forall u, In u (flat_map leaf_usages ls) -> 65536 <= u.
Proof.
  intros P u I. apply in_flat_map in I. destruct I as [x [I1 I2]].
  unfold paged_leaves in P. rewrite Forall_forall in P. specialize (P x I1). rewrite Forall_forall in P. auto.
Qed.

Lemma pieces_extended r ls o r' : pieces r ls o r' -> paged_leaves ls ->
  extended o /\ Forall (fun x => fst x <> Delimiter /\ (fst x = DesignatorIndex -> snd x <> 0)) o /\ bare_usages o /\
  Forall (fun x => fst x <> Push /\ fst x <> Pop) o.
Proof.
  intros P G. pose proof (pieces_items _ _ _ _ P) as F. pose proof (paged_flat ls G) as U.
  split; [|split; [|split]]; (eapply Forall_impl; [|exact F]); intros [c z] [A [B C]]; cbn [fst snd] in *.
  - intros T. destruct c; try discriminate T; try discriminate A. apply U. auto.
  - split; [intros ->; discriminate A|auto].
  - split; [|split]; intros ->; discriminate A.
  - split; intros ->; discriminate A.
Qed.

(* ------------------------------------------------------------------ *)
(** physical bounds *)

Lemma pieces_values (Q : spec_item -> Prop) r ls o r' :
  (forall c z, physical_tag c = false -> Q (c, z)) ->
  (forall v, In v (leaf_values ls) -> data_value v = true -> Forall Q (phys_items v)) ->
  pieces r ls o r' -> Forall Q o.
Proof.
  intros Q0 QV P. revert QV. induction P as [r|r id ls o r' _ IH|r x ls o o' r' P _ IH]; intros QV; [constructor| |].
  - constructor; [apply Q0; reflexivity|auto].
  - apply Forall_app. split.
    2:{ apply IH. intros v I. apply QV. cbn [leaf_values flat_map]. apply in_app_iff. auto. }
    assert (MP : forall (A : Type) (f : A -> spec_item) l, (forall x, physical_tag (fst (f x)) = false) -> Forall Q (map f l)).
    { intros A f l H. apply Forall_map, Forall_forall. intros y _. specialize (H y). destruct (f y). auto. }
    assert (W : forall v, physical_tag (way_of v) = false).
    { intros v. unfold way_of, way_class. destruct (_ =? 8); [reflexivity|]. destruct (_ =? 9); reflexivity. }
    inversion P as [r0 k u|r0|r0 v p M D]; subst.
    + repeat constructor; apply Q0; reflexivity.
    + repeat constructor; apply Q0; reflexivity.
    + assert (EN : Forall Q (val_end v (way_of v))) by (repeat constructor; apply Q0; auto).
      apply Forall_app. split.
      { unfold pad_items. destruct (p =? 0); repeat constructor; apply Q0; auto. }
      specialize (QV v ltac:(left; reflexivity)). unfold data_value in QV. unfold val_items.
      destruct (v_kind v); [|constructor..].
      destruct (is_constant (py_int (v_flags v))); [exact EN|]. specialize (QV eq_refl).
      apply Forall_app. split; [apply MP; reflexivity|]. apply Forall_app. split.
      { destruct (is_array v); auto. apply Forall_app. split; auto. apply Forall_app. split; apply MP; reflexivity. }
      apply Forall_app. split.
      { unfold val_mid. apply Forall_app. split; [repeat constructor; apply Q0; reflexivity|].
        apply Forall_app. split; apply MP; reflexivity. }
      apply Forall_app. split; [exact EN|]. destruct (is_array v); [apply MP; reflexivity|constructor].
Qed.

Lemma opt_eqb_refl o : opt_Z_eqb o o = true.
Proof. destruct o; [apply Z.eqb_refl|reflexivity]. Qed.

Lemma pieces_unscaled r ls o r' :
  (forall v, In v (leaf_values ls) -> data_value v = true -> is_array v = true \/ (v_pmin v = v_lmin v /\ v_pmax v = v_lmax v)) ->
  pieces r ls o r' -> no_physical o.
Proof.
  intros H P. unfold no_physical. eapply pieces_values; [| |exact P].
  - intros c z E X. cbn [fst] in X. congruence.
  - intros v I D. unfold phys_items. destruct (H v I D) as [E|[E1 E2]].
    + rewrite E. repeat constructor.
    + rewrite E1, E2, !opt_eqb_refl. destruct (is_array v); repeat constructor.
Qed.

(** chunks of a piece and of the rest *)
Lemma chunks_pre a b : Forall (fun x => main_tag (fst x) = false) a ->
  exists c cs, chunks b = c :: cs /\ chunks (a ++ b) = (a ++ c) :: cs.
Proof.
  induction 1 as [|x a H _ IH]; cbn [app].
  - destruct (chunks b) as [|c cs] eqn:E; [|eauto].
    destruct b as [|y b]; cbn [chunks] in E; [discriminate|].
    destruct (main_tag (fst y)); [discriminate|]. destruct (chunks b); discriminate.
  - destruct IH as [c [cs [E1 E2]]]. exists c, cs. split; auto.
    cbn [chunks]. rewrite H, E2. reflexivity.
Qed.

Lemma chunks_main (Q : list spec_item -> Prop) a m b : Forall (fun x => main_tag (fst x) = false) a -> main_tag (fst m) = true ->
  Q a -> Forall Q (chunks b) -> Forall Q (chunks (a ++ m :: b)).
Proof.
  intros A M H F. destruct (chunks_pre a (m :: b) A) as [c [cs [E1 E2]]]. rewrite E2.
  cbn [chunks] in E1. rewrite M in E1. injection E1 as <- <-. rewrite app_nil_r. constructor; auto.
Qed.

Lemma chunks_one (Q : list spec_item -> Prop) x b : main_tag (fst x) = false ->
  (forall c, Q c -> Q (x :: c)) -> Forall Q (chunks b) -> Forall Q (chunks (x :: b)).
Proof.
  intros M H F. destruct (chunks_pre [x] b ltac:(constructor; auto)) as [c [cs [E1 E2]]].
  cbn [app] in E2. rewrite E2. rewrite E1 in F. inversion F; subst. constructor; auto.
Qed.

Lemma way_main v : main_tag (way_of v) = true.
Proof. unfold way_of, way_class. destruct (_ =? 8); [reflexivity|]. destruct (_ =? 9); reflexivity. Qed.

Lemma tags_map {A} (f : A -> spec_item) l : (forall x, main_tag (fst (f x)) = false) ->
  Forall (fun x => main_tag (fst x) = false) (map f l).
Proof. intros H. apply Forall_map, Forall_forall. intros; apply H. Qed.

Lemma phys_tags v : Forall (fun x => main_tag (fst x) = false) (phys_items v).
Proof. unfold phys_items. destruct (is_array v); [|destruct (_ && _)]; repeat constructor. Qed.

Lemma mid_tags v : Forall (fun x => main_tag (fst x) = false) (val_mid v).
Proof. unfold val_mid. apply Forall_app. split; [repeat constructor|]. apply Forall_app. split; apply tags_map; reflexivity. Qed.

(** what is before the main items of a value *)
Definition before_const (v : value) : list spec_item := [(ReportCount, v_count v); (ReportSize, v_size v)].
Definition before_value (v : value) (us : list Z) : list spec_item :=
  us_items us ++ phys_items v ++ val_mid v ++ before_const v.
Definition before_array (v : value) (us : list Z) : list spec_item :=
  us_items us ++ val_mid v ++ before_const v.
Definition before_plain_array (v : value) : list spec_item :=
  phys_items v ++ us_items (array_usages (v_named v)) ++ val_mid v ++ before_const v.

Record chunk_pred (Q : list spec_item -> Prop) : Prop := ChunkPred {
  cp_nil : Q [];
  cp_rid : forall id c, Q c -> Q ((ReportID, id) :: c);
  cp_pad : forall p, Q [(ReportCount, 1); (ReportSize, p)];
  cp_use : forall u, Q [(Usage, u)];
  cp_const : forall v, Q (before_const v)
}.

Lemma val_end_split v : val_end v (way_of v) = before_const v ++ [(way_of v, py_int (v_flags v))].
Proof. reflexivity. Qed.

Lemma pieces_chunks (Q : list spec_item -> Prop) r ls o r' :
  chunk_pred Q ->
  (forall v, In v (leaf_values ls) -> made v -> data_value v = true ->
     if is_array v
     then match usage_list (v_usage v) with
          | [] => Q (before_plain_array v)
          | us => Q (us_items us ++ phys_items v) /\ Q (before_array v (array_usages (v_named v)))
          end
     else Q (before_value v (usage_list (v_usage v)))) ->
  pieces r ls o r' -> Forall Q (chunks o).
Proof.
  intros [Q0 QR QP QU QC] QV P. revert QV.
  induction P as [r|r id ls o r' _ IH|r x ls o o' r' P _ IH]; intros QV.
  - repeat constructor. exact Q0.
  - apply chunks_one; auto.
  - assert (F : Forall Q (chunks o')).
    { apply IH. intros v I. apply QV. cbn [leaf_values flat_map]. apply in_app_iff. auto. }
    clear IH. inversion P as [r0 k u|r0|r0 v p M D]; subst.
    + apply (chunks_main Q [(Usage, py_int u)] (Collection, py_int k) o'); auto; repeat constructor.
    + apply (chunks_main Q [] (EndCollection, 0) o'); auto.
    + rewrite <- app_assoc. unfold pad_items.
      assert (F2 : Forall Q (chunks (val_items v ++ o'))).
      { specialize (QV v ltac:(left; reflexivity) M). unfold data_value in QV. unfold val_items.
        destruct (v_kind v); [|exact F..].
        destruct (is_constant (py_int (v_flags v))).
        - rewrite val_end_split, <- app_assoc. apply chunks_main; auto; [repeat constructor|apply way_main].
        - specialize (QV eq_refl). rewrite val_end_split.
          destruct (is_array v).
          + destruct (usage_list_cases (v_usage v)) as [U|[u U]]; rewrite U in *; cbn [map us_items app].
            * fold (us_items (array_usages (v_named v))).
              match goal with |- Forall Q (chunks (?a ++ o')) => replace (a ++ o') with
                (before_plain_array v ++ (way_of v, py_int (v_flags v)) :: o')
                by (unfold before_plain_array; rewrite ?app_nil_r, <- !app_assoc; reflexivity) end.
              apply chunks_main; auto; [|apply way_main]. unfold before_plain_array.
              rewrite !Forall_app. split; [apply phys_tags|]. split; [apply tags_map; reflexivity|].
              split; [apply mid_tags|repeat constructor].
            * destruct QV as [V1 V2].
              match goal with |- Forall Q (chunks ?a) => replace a with
                ((us_items [u] ++ phys_items v) ++ (Collection, 2) ::
                 before_array v (array_usages (v_named v)) ++ (way_of v, py_int (v_flags v)) ::
                 [] ++ (EndCollection, 0) :: o')
                by (unfold before_array, us_items; repeat (cbn [map app]; rewrite <- ?app_assoc); reflexivity) end.
              apply chunks_main; auto; [cbn [us_items map app]; constructor; [reflexivity|apply phys_tags]|].
              apply chunks_main; auto; [|apply way_main|apply chunks_main; auto].
              unfold before_array. rewrite !Forall_app. split; [apply tags_map; reflexivity|].
              split; [apply mid_tags|repeat constructor].
          + match goal with |- Forall Q (chunks ?a) => replace a with
              (before_value v (usage_list (v_usage v)) ++ (way_of v, py_int (v_flags v)) :: o')
              by (unfold before_value; rewrite ?app_nil_r, <- !app_assoc; reflexivity) end.
            apply chunks_main; auto; [|apply way_main]. unfold before_value.
            rewrite !Forall_app. split; [apply tags_map; reflexivity|]. split; [apply phys_tags|].
            split; [apply mid_tags|repeat constructor]. }
      destruct (p =? 0); [exact F2|]. cbn [app].
      apply (chunks_main Q [(ReportCount, 1); (ReportSize, p)] (way_of v, 3)); auto; try apply way_main; repeat constructor.
Qed.

Lemma own_pred : chunk_pred own_physical.
Proof.
  constructor.
  - left. constructor.
  - intros id c [B|[p [q [a [b [[A1 [A2 [A3 A4]]] N]]]]]].
    + left. constructor; auto.
    + right. exists p, q, a, b. split; auto. unfold all_bounds. cbn [last_of].
      rewrite A1, A2, A3, A4. auto.
  - intros p. left. repeat constructor.
  - intros u. left. repeat constructor.
  - intros v. left. repeat constructor.
Qed.

Lemma last_phys v pre : exists p q,
  phys_items v = [(PhysicalMinimum, p); (PhysicalMaximum, q)] /\
  all_bounds (pre ++ phys_items v ++ val_mid v ++ before_const v) p q (or0 (v_lmin v)) (or0 (v_lmax v)) /\
  (forall us, all_bounds (pre ++ phys_items v ++ us_items us ++ val_mid v ++ before_const v) p q (or0 (v_lmin v)) (or0 (v_lmax v))).
Proof.
  assert (E : exists p q, phys_items v = [(PhysicalMinimum, p); (PhysicalMaximum, q)]).
  { unfold phys_items. destruct (is_array v); [|destruct (_ && _)]; eauto. }
  destruct E as [p [q E]]. exists p, q. split; auto. rewrite E.
  assert (NU : forall c us, c <> Usage -> last_of c (us_items us) = None).
  { intros c us N. induction us as [|u us IH]; auto. cbn [us_items map last_of fst snd].
    fold (us_items us). rewrite IH. destruct (icls_eqb Usage c) eqn:X; auto.
    destruct c; try discriminate X. congruence. }
  assert (LM : forall c, bounds_tag c = true -> last_of c (val_mid v ++ before_const v) =
     if icls_eqb c LogicalMinimum then Some (or0 (v_lmin v)) else
     if icls_eqb c LogicalMaximum then Some (or0 (v_lmax v)) else None).
  { intros c B. unfold val_mid, idx, before_const. destruct (v_desig v =? 0), (v_str v =? 0), c; try discriminate B; reflexivity. }
  generalize dependent (val_mid v ++ before_const v). intros M LM.
  split; [|intros us]; (split; [|split; [|split]]); rewrite ?last_of_app; rewrite ?NU by discriminate; rewrite LM by reflexivity; reflexivity.
Qed.

Lemma pieces_scaled r ls o r' :
  (forall v, In v (leaf_values ls) -> data_value v = true -> boxed v = false /\ ~ (or0 (v_lmin v) = 0 /\ or0 (v_lmax v) = 0)) ->
  pieces r ls o r' -> Forall own_physical (chunks o).
Proof.
  intros H P. eapply pieces_chunks; [apply own_pred| |exact P]. clear P.
  intros v I M D. destruct (H v I D) as [B N]. unfold boxed in B.
  assert (D2 : is_constant (py_int (v_flags v)) = false).
  { unfold data_value in D. destruct (v_kind v); try discriminate. destruct (is_constant _); [discriminate|auto]. }
  destruct (made_facts v M D2) as [_ FN].
  destruct (is_array v) eqn:A.
  - destruct (usage_list (v_usage v)); [|discriminate B].
    destruct (last_phys v []) as [p [q [E [_ X]]]]. right.
    exists p, q, (or0 (v_lmin v)), (or0 (v_lmax v)). split; [apply X|].
    unfold phys_items in E. rewrite A in E. injection E as <- <-. intros Y. injection Y as Y1 Y2. auto.
  - destruct (last_phys v (us_items (usage_list (v_usage v)))) as [p [q [E [X _]]]]. right.
    exists p, q, (or0 (v_lmin v)), (or0 (v_lmax v)). split; [apply X|].
    destruct (FN eq_refl) as [lo [hi [p' [q' [L1 [L2 [P1 [P2 _]]]]]]]].
    unfold phys_items in E. rewrite A, L1, L2, P1, P2 in E. rewrite L1, L2 in *. cbn [opt_Z_eqb or0] in *.
    destruct ((p' =? lo) && (q' =? hi)) eqn:Q; injection E as <- <-; intros Y; injection Y as Y1 Y2; [auto|].
    subst. rewrite !Z.eqb_refl in Q. discriminate.
Qed.

Lemma page_pred : chunk_pred one_page.
Proof.
  constructor.
  - exists 0. constructor.
  - intros id c [p F]. exists p. constructor; auto. discriminate.
  - intros p. exists 0. repeat constructor; discriminate.
  - intros u. exists (u / 65536). repeat constructor.
  - intros v. exists 0. repeat constructor; discriminate.
Qed.

Lemma page_us us pre post : Forall (fun x => usage_tag (fst x) = false) pre ->
  Forall (fun x => usage_tag (fst x) = false) post ->
  (exists p, of_page p us) -> one_page (pre ++ us_items us ++ post).
Proof.
  intros A B [p F]. exists p.
  assert (X : forall l : list spec_item, Forall (fun x => usage_tag (fst x) = false) l ->
     Forall (fun x => usage_tag (fst x) = true -> snd x / 65536 = p) l).
  { intros l. apply Forall_impl. intros; congruence. }
  rewrite !Forall_app. split; [auto|split; auto]. apply Forall_map. unfold of_page in F.
  eapply Forall_impl; [|exact F]. auto.
Qed.

Lemma phys_usage v : Forall (fun x => usage_tag (fst x) = false) (phys_items v).
Proof. unfold phys_items. destruct (is_array v); [|destruct (_ && _)]; repeat constructor. Qed.
Lemma mid_usage v : Forall (fun x => usage_tag (fst x) = false) (val_mid v ++ before_const v).
Proof. unfold val_mid, idx, before_const. destruct (v_desig v =? 0), (v_str v =? 0); repeat constructor. Qed.

Lemma usage_list_page u : exists p, of_page p (usage_list u).
Proof. destruct (usage_list_cases u) as [E|[z E]]; rewrite E; [exists 0|exists (z / 65536)]; repeat constructor. Qed.

Lemma pieces_pages r ls o r' :
  (forall v, In v (leaf_values ls) -> data_value v = true -> exists p, of_page p (array_usages (v_named v))) ->
  pieces r ls o r' -> Forall one_page (chunks o).
Proof.
  intros H P. eapply pieces_chunks; [apply page_pred| |exact P]. clear P.
  intros v I M D. specialize (H v I D).
  destruct (is_array v) eqn:A.
  - destruct (usage_list (v_usage v)) as [|u us] eqn:U.
    + unfold before_plain_array. apply page_us; auto using phys_usage, mid_usage.
    + split; [|unfold before_array; apply (page_us _ []); auto using mid_usage].
      apply (page_us _ []); auto using phys_usage. rewrite <- U. apply usage_list_page.
  - unfold before_value. apply (page_us _ []); auto; [|apply usage_list_page].
    rewrite Forall_app. auto using phys_usage, mid_usage.
Qed.

(* ------------------------------------------------------------------ *)
(** the main items with the state in which they are read *)

Definition pmain : Type := pst * icls * Z.

Fixpoint p_trace (s : pst) (l : list spec_item) : list pmain :=
  match l with
  | [] => []
  | w :: r => (if main_tag (fst w) then [(s, fst w, snd w)] else []) ++ p_trace (fst (p_step s w)) r
  end.

Lemma p_trace_app s a b : p_trace s (a ++ b) = p_trace s a ++ p_trace (fst (p_run s a)) b.
Proof.
  revert s. induction a as [|w a IH]; intros s; auto. cbn [app p_trace p_run].
  rewrite IH, <- app_assoc. destruct (p_step s w) as [s1 o1]. cbn [fst].
  destruct (p_run s1 a) as [s2 o2]. reflexivity.
Qed.

Lemma p_trace_quiet s a : Forall (fun x => main_tag (fst x) = false) a -> p_trace s a = [].
Proof.
  intros F. revert s. induction F as [|w a H _ IH]; intros s; auto. cbn [p_trace]. rewrite H, IH. reflexivity.
Qed.

Lemma p_trace_main s a w b : Forall (fun x => main_tag (fst x) = false) a -> main_tag (fst w) = true ->
  p_trace s (a ++ w :: b) =
  (fst (p_run s a), fst w, snd w) :: p_trace (P (p_g (fst (p_run s a))) [] [] []) b.
Proof.
  intros F M. rewrite p_trace_app, p_trace_quiet by auto. cbn [app p_trace]. rewrite M. cbn [app].
  do 2 f_equal. destruct w as [c z]. unfold p_step. cbn [fst] in *. unfold main_tag in M.
  destruct (hid_kind c); try discriminate M. reflexivity.
Qed.

Definition hmain (e : mstate) (p : pmain) : Prop :=
  let '(g, x, c, v) := e in
  let '(s, c', v') := p in
  c' = c /\ v' = v /\ forall m, stands m s (H g [] x).

Lemma trace_states l : forall p s, (forall m, stands m p s) ->
  Forall (fun w => plain (w_cls w) = true) l ->
  Forall2 hmain (snd (h_run (fun g x c v => [(g, x, c, v)]) s l)) (p_trace p (map (fun w => (w_cls w, w_val w)) l)).
Proof.
  induction l as [|w l IH]; intros p s S F; [constructor|].
  inversion F as [|? ? F1 F2]; subst.
  assert (ST : fst (h_step (fun g x c v => [(g, x, c, v)]) s w) = fst (h_step (full_obs AtDecl) s w) /\
               snd (h_step (fun g x c v => [(g, x, c, v)]) s w) =
                 if main_tag (w_cls w) then [(h_g s, h_l s, w_cls w, w_val w)] else []).
  { unfold h_step, main_tag. destruct w as [c v e]. cbn [w_cls w_val] in *.
    destruct c; try discriminate F1; split; reflexivity. }
  destruct ST as [ST1 ST2].
  cbn [map h_run p_trace fst snd].
  destruct (h_step (fun g x c v => [(g, x, c, v)]) s w) as [s1 o1]. cbn [fst snd] in *. subst s1 o1.
  set (s1 := fst (h_step (full_obs AtDecl) s w)).
  assert (S1 : forall m, stands m (fst (p_step p (w_cls w, w_val w))) s1).
  { intros m. destruct (stands_step m p s w (S m) F1) as [X _].
    replace s1 with (fst (h_step (full_obs m) s w)); [exact X|]. unfold s1, h_step.
    destruct w as [c v e]. cbn [w_cls w_val] in *. destruct c; try discriminate F1; reflexivity. }
  specialize (IH _ _ S1 F2).
  destruct (h_run (fun g x c v => [(g, x, c, v)]) s1 l) as [s2 o2]. cbn [fst snd] in *.
  apply Forall2_app; [|exact IH].
  destruct (main_tag (w_cls w)); [|constructor]. constructor; [|constructor].
  split; auto. split; auto. intros m. destruct (S m) as [A [B [C D]]]. destruct s as [g st x].
  cbn [h_g h_stack h_l] in *. subst st. split; [exact A|]. split; [exact B|]. split; [reflexivity|]. exact D.
Qed.

(** a main item that is neither data nor has usages *)
Definition dull (e : pmain) : Prop :=
  let '(s, c, f) := e in data_tag c = false \/ (is_constant f = true /\ p_us s = []).

Definition data_of (r : Z) (v : value) (e : pmain) : Prop :=
  let '(s, c, f) := e in
  c = way_of v /\ f = py_int (v_flags v) /\ p_us s = field_usages v /\
  p_ds s = one_of (v_desig v) /\ p_ss s = one_of (v_str v) /\
  g_count (p_g s) = v_count v /\ mk_attrs (p_g s) c f = value_attrs r v.

Inductive fronts : list leaf -> list pmain -> Prop :=
| fr_nil : fronts [] []
| fr_dull x ls t tr : Forall dull t -> t <> [] \/ plain_leaf x = true -> fronts ls tr -> fronts (x :: ls) (t ++ tr)
| fr_data r v ls t e tr : Forall dull t -> data_value v = true -> boxed v = false -> data_of r v e ->
    fronts ls tr -> fronts (LVal r v :: ls) (t ++ e :: tr)
| fr_box x ls t e e' tr : Forall dull t -> t <> [] -> is_constant (snd e) = false -> dull e' -> fronts ls tr -> fronts (x :: ls) (t ++ e :: e' :: tr).

Lemma quiet_state s a : Forall (fun x => main_tag (fst x) = false) a -> snd (p_run s a) = [].
Proof.
  intros F. revert s. induction F as [|[c z] a H _ IH]; intros s; auto. cbn [p_run fst] in *.
  unfold p_step. unfold main_tag in H. 
  destruct (hid_kind c); [discriminate H| |].
  - specialize (IH (P (g_set c z (p_g s)) (p_us s) (p_ds s) (p_ss s))).
    destruct (p_run _ a) as [s2 o2]. cbn [snd] in *. auto.
  - destruct c; match goal with |- context [p_run ?x a] => specialize (IH x); destruct (p_run x a) end;
      cbn [snd] in *; auto.
Qed.

Lemma fst_run s l1 l2 s1 : fst (p_run s l1) = s1 -> fst (p_run s (l1 ++ l2)) = fst (p_run s1 l2).
Proof. intros E. rewrite p_run_app, E. reflexivity. Qed.

Lemma run_usages g us ds ss l : fst (p_run (P g us ds ss) (us_items l)) = P g (us ++ l) ds ss.
Proof. unfold us_items. rewrite p_usages. reflexivity. Qed.

Lemma run_phys pg lm lx pm px ue un sz ri ct us ds ss v p q : phys_items v = [(PhysicalMinimum, p); (PhysicalMaximum, q)] ->
  fst (p_run (P (G pg lm lx pm px ue un sz ri ct) us ds ss) (phys_items v)) = P (G pg lm lx p q ue un sz ri ct) us ds ss.
Proof. intros ->. reflexivity. Qed.

Lemma run_mid_const pg lm lx pm px ue un sz ri ct us v :
  fst (p_run (P (G pg lm lx pm px ue un sz ri ct) us [] []) (val_mid v ++ before_const v)) =
  P (G pg (or0 (v_lmin v)) (or0 (v_lmax v)) pm px (v_uexp v) (py_int (v_unit v)) (v_size v) ri (v_count v))
    us (one_of (v_desig v)) (one_of (v_str v)).
Proof. rewrite (fst_run _ _ _ _ (f_equal fst (run_mid _ _ _ _ _ _ _ _ _ _ us v))). reflexivity. Qed.

(** the state before the main item of a value *)
Lemma state_plain_array g v : is_constant (py_int (v_flags v)) = false -> made v -> is_array v = true ->
  let s := fst (p_run (P g [] [] []) (before_plain_array v)) in
  p_us s = array_usages (v_named v) /\ p_ds s = one_of (v_desig v) /\ p_ss s = one_of (v_str v) /\
  g_count (p_g s) = v_count v /\ mk_attrs (p_g s) (way_of v) (py_int (v_flags v)) = value_attrs (g_rid g) v /\
  g_rid (p_g s) = g_rid g.
Proof.
  intros C M A s. destruct g as [pg lm lx pm px ue un sz ri ct].
  assert (E : s = P (G pg (or0 (v_lmin v)) (or0 (v_lmax v)) 0 0 (v_uexp v) (py_int (v_unit v)) (v_size v) ri (v_count v))
     (array_usages (v_named v)) (one_of (v_desig v)) (one_of (v_str v))).
  { unfold s, before_plain_array.
    rewrite (fst_run _ _ _ (P (G pg lm lx 0 0 ue un sz ri ct) [] [] [])) by (unfold phys_items; rewrite A; reflexivity).
    rewrite (fst_run _ _ _ _ (run_usages _ _ _ _ _)). apply run_mid_const. }
  rewrite E. cbn [p_us p_ds p_ss p_g g_count g_rid]. repeat (split; [reflexivity|]). split; [|reflexivity].
  unfold mk_attrs, value_attrs, effective. cbn. rewrite A. reflexivity.
Qed.

Lemma state_value g v : is_constant (py_int (v_flags v)) = false -> made v -> is_array v = false ->
  let s := fst (p_run (P g [] [] []) (before_value v (usage_list (v_usage v)))) in
  p_us s = usage_list (v_usage v) /\ p_ds s = one_of (v_desig v) /\ p_ss s = one_of (v_str v) /\
  g_count (p_g s) = v_count v /\ mk_attrs (p_g s) (way_of v) (py_int (v_flags v)) = value_attrs (g_rid g) v /\
  g_rid (p_g s) = g_rid g.
Proof.
  intros C M A s. destruct g as [pg lm lx pm px ue un sz ri ct].
  destruct (made_facts v M C) as [_ FN]. destruct (FN A) as [lo [hi [p [q [L1 [L2 [P1 [P2 PZ]]]]]]]].
  assert (PH : exists p' q', phys_items v = [(PhysicalMinimum, p'); (PhysicalMaximum, q')] /\ effective p' q' lo hi = (p, q)).
  { unfold phys_items. rewrite A, L1, L2, P1, P2. cbn [opt_Z_eqb or0].
    destruct ((p =? lo) && (q =? hi)) eqn:E.
    - exists 0, 0. split; auto. unfold effective. cbn. f_equal; lia.
    - exists p, q. split; auto. unfold effective. replace ((p =? 0) && (q =? 0)) with false by lia. reflexivity. }
  destruct PH as [p' [q' [PH EF]]].
  assert (E : s = P (G pg (or0 (v_lmin v)) (or0 (v_lmax v)) p' q' (v_uexp v) (py_int (v_unit v)) (v_size v) ri (v_count v))
     (usage_list (v_usage v)) (one_of (v_desig v)) (one_of (v_str v))).
  { unfold s, before_value.
    rewrite (fst_run _ _ _ _ (run_usages _ _ _ _ _)). cbn [app].
    rewrite (fst_run _ _ _ _ (run_phys _ _ _ _ _ _ _ _ _ _ _ _ _ v p' q' PH)). apply run_mid_const. }
  rewrite E. cbn [p_us p_ds p_ss p_g g_count g_rid]. repeat (split; [reflexivity|]). split; [|reflexivity].
  unfold mk_attrs, value_attrs. cbn. rewrite A, L1, L2, P1, P2. cbn [or0]. rewrite EF. reflexivity.
Qed.

Definition resting (r : Z) (s : pst) : Prop := exists g, s = P g [] [] [] /\ g_rid g = r.

Lemma after_main s a w r : Forall (fun x => main_tag (fst x) = false) a -> main_tag (fst w) = true ->
  g_rid (p_g (fst (p_run s a))) = r -> resting r (fst (p_run s (a ++ [w]))).
Proof.
  intros F M R. rewrite (fst_run _ _ _ _ eq_refl). exists (p_g (fst (p_run s a))). split; auto.
  destruct w as [c z]. cbn [p_run]. unfold p_step. cbn [fst] in M. unfold main_tag in M.
  destruct (hid_kind c); try discriminate M. reflexivity.
Qed.

Lemma pad_front v p s r : (p <> 0 -> data_cls (way_of v)) -> resting r s ->
  resting r (fst (p_run s (pad_items (way_of v) p))) /\ Forall dull (p_trace s (pad_items (way_of v) p)).
Proof.
  intros D [g [-> R]]. unfold pad_items. destruct (p =? 0).
  - split; [exists g; auto|constructor].
  - split.
    + apply (after_main _ [(ReportCount, 1); (ReportSize, p)]); [repeat constructor|apply way_main|destruct g; exact R].
    + rewrite (p_trace_main _ [(ReportCount, 1); (ReportSize, p)] (way_of v, 3) []); [|repeat constructor|apply way_main].
      constructor; [|constructor]. right. split; [reflexivity|destruct g; reflexivity].
Qed.

Lemma before_const_tags v : Forall (fun x => main_tag (fst x) = false) (before_const v).
Proof. repeat constructor. Qed.
Lemma plain_array_tags v : Forall (fun x => main_tag (fst x) = false) (before_plain_array v).
Proof.
  unfold before_plain_array. rewrite !Forall_app. split; [apply phys_tags|]. split; [apply tags_map; reflexivity|].
  split; [apply mid_tags|repeat constructor].
Qed.
Lemma value_tags v us : Forall (fun x => main_tag (fst x) = false) (before_value v us).
Proof.
  unfold before_value. rewrite !Forall_app. split; [apply tags_map; reflexivity|]. split; [apply phys_tags|].
  split; [apply mid_tags|repeat constructor].
Qed.
Lemma array_tags v us : Forall (fun x => main_tag (fst x) = false) (before_array v us).
Proof.
  unfold before_array. rewrite !Forall_app. split; [apply tags_map; reflexivity|].
  split; [apply mid_tags|repeat constructor].
Qed.

Lemma rid_run s a : Forall (fun x => fst x <> ReportID /\ fst x <> Push /\ fst x <> Pop) a ->
  g_rid (p_g (fst (p_run s a))) = g_rid (p_g s).
Proof.
  intros F. revert s. induction F as [|[c z] a H _ IH]; intros s; auto. cbn [p_run fst] in *.
  unfold p_step. destruct s as [g us ds ss].
  destruct c; cbn [hid_kind p_g p_us p_ds p_ss];
    match goal with |- context [p_run ?x a] => specialize (IH x); destruct (p_run x a) end;
    cbn [fst snd p_g] in *; rewrite IH; try (destruct g; reflexivity).
  destruct H as [H _]. congruence.
Qed.

Lemma piece_front r x o s : piece r x o -> resting r s ->
  resting r (fst (p_run s o)) /\ forall ls tr, fronts ls tr -> fronts (x :: ls) (p_trace s o ++ tr).
Proof.
  intros PC RS. inversion PC as [r0 k u|r0|r0 v p M D]; subst.
  - destruct RS as [g [-> R]]. split; [exists g; auto|]. intros ls tr F.
    apply fr_dull; auto; [|left; discriminate]. constructor; [left; reflexivity|constructor].
  - destruct RS as [g [-> R]]. split; [exists g; auto|]. intros ls tr F.
    apply fr_dull; auto; [|left; discriminate]. constructor; [left; reflexivity|constructor].
  - destruct (pad_front v p s r ltac:(auto) RS) as [R1 D1].
    rewrite (fst_run _ _ _ _ eq_refl), p_trace_app.
    set (s1 := fst (p_run s (pad_items (way_of v) p))) in *. set (t1 := p_trace s (pad_items (way_of v) p)) in *.
    clearbody s1 t1. clear RS s PC.
    unfold val_items. destruct (v_kind v) eqn:K.
    2,3: split; [exact R1|]; intros ls tr F; cbn [p_trace]; rewrite app_nil_r; apply fr_dull; auto; right; cbn [plain_leaf]; rewrite K; reflexivity.
    destruct R1 as [g [-> RG]].
    destruct (is_constant (py_int (v_flags v))) eqn:C.
    + rewrite val_end_split. split.
      * apply after_main; [apply before_const_tags|apply way_main|]. rewrite rid_run; [exact RG|].
        repeat constructor; discriminate.
      * intros ls tr F. rewrite p_trace_main; [|apply before_const_tags|apply way_main]. cbn [p_trace].
        rewrite <- app_assoc. rewrite app_assoc. apply fr_dull; auto; [|left; destruct t1; discriminate].
        apply Forall_app. split; auto. constructor; [|constructor]. right. split; [exact C|]. destruct g; reflexivity.
    + assert (DV : data_value v = true) by (unfold data_value; rewrite K, C; reflexivity).
      rewrite val_end_split. destruct (is_array v) eqn:A.
      * destruct (usage_list_cases (v_usage v)) as [U|[u U]]; rewrite U; cbn [map us_items app].
        -- fold (us_items (array_usages (v_named v))).
           match goal with |- resting r (fst (p_run _ ?l)) /\ _ => replace l with
              (before_plain_array v ++ [(way_of v, py_int (v_flags v))])
              by (unfold before_plain_array; rewrite ?app_nil_r, <- !app_assoc; reflexivity) end.
           pose proof (state_plain_array g v C M A) as [S1 [S2 [S3 [S4 [S5 S6]]]]].
           split; [apply after_main; [apply plain_array_tags|apply way_main|congruence]|].
           intros ls tr F. rewrite p_trace_main; [|apply plain_array_tags|apply way_main]. cbn [p_trace fst snd].
           rewrite <- app_assoc. cbn [app]. apply fr_data; auto.
           ++ unfold boxed. rewrite A, U. reflexivity.
           ++ unfold data_of. repeat (split; [solve [auto]|]). split; [unfold field_usages; rewrite A; exact S1|].
              repeat (split; [solve [auto]|]). rewrite <- RG. auto.
        -- match goal with |- resting r (fst (p_run _ ?l)) /\ _ => replace l with
             ((us_items [u] ++ phys_items v) ++ (Collection, 2) ::
              before_array v (array_usages (v_named v)) ++ (way_of v, py_int (v_flags v)) ::
              [] ++ [(EndCollection, 0)])
             by (unfold before_array, us_items; repeat (cbn [map app]; rewrite <- ?app_assoc); reflexivity) end.
           split.
           { match goal with |- resting r (fst (p_run _ ?l)) => replace l with
              (((us_items [u] ++ phys_items v) ++ (Collection, 2) ::
              before_array v (array_usages (v_named v)) ++ [(way_of v, py_int (v_flags v))]) ++ [(EndCollection, 0)])
              by (repeat (cbn [app]; rewrite <- ?app_assoc); reflexivity) end.
             rewrite (fst_run _ _ _ _ eq_refl). eexists. split; [reflexivity|].
             cbn [p_run p_step hid_kind fst p_g]. rewrite rid_run; [exact RG|].
             rewrite !Forall_app. split; [split|].
             - repeat constructor; discriminate.
             - unfold phys_items. rewrite A. repeat constructor; discriminate.
             - constructor; [repeat split; discriminate|]. rewrite Forall_app. split.
               + unfold before_array. rewrite !Forall_app.
                 assert (MP : forall (B : Type) (f : B -> spec_item) l, (forall y, fst (f y) <> ReportID /\ fst (f y) <> Push /\ fst (f y) <> Pop) ->
                   Forall (fun z => fst z <> ReportID /\ fst z <> Push /\ fst z <> Pop) (map f l)).
                 { intros B f l H. apply Forall_map, Forall_forall. auto. }
                 split; [apply MP; repeat split; discriminate|]. split; [|repeat constructor; discriminate].
                 unfold val_mid. rewrite !Forall_app. split; [repeat constructor; discriminate|].
                 split; apply MP; repeat split; discriminate.
               + constructor; [|constructor]. cbn [fst]. unfold way_of, way_class.
                 destruct (_ =? 8); [repeat split; discriminate|]. destruct (_ =? 9); repeat split; discriminate. }
           intros ls tr F.
           rewrite p_trace_main; [|cbn [us_items map app]; constructor; [reflexivity|apply phys_tags]|reflexivity].
           rewrite p_trace_main; [|apply array_tags|apply way_main].
           rewrite p_trace_main; [|constructor|reflexivity]. cbn [p_trace fst snd].
           rewrite <- app_assoc. cbn [app].
           match goal with |- fronts _ (t1 ++ ?e0 :: ?e1 :: ?e2 :: tr) =>
             change (t1 ++ e0 :: e1 :: e2 :: tr) with (t1 ++ [e0] ++ e1 :: e2 :: tr) end.
           rewrite app_assoc. apply fr_box; auto.
           ++ apply Forall_app. split; auto. constructor; [left; reflexivity|constructor].
           ++ destruct t1; discriminate.
           ++ left. reflexivity.
      * match goal with |- resting r (fst (p_run _ ?l)) /\ _ => replace l with
          (before_value v (usage_list (v_usage v)) ++ [(way_of v, py_int (v_flags v))])
          by (unfold before_value; rewrite ?app_nil_r, <- !app_assoc; reflexivity) end.
        pose proof (state_value g v C M A) as [S1 [S2 [S3 [S4 [S5 S6]]]]].
        split; [apply after_main; [apply value_tags|apply way_main|congruence]|].
        intros ls tr F. rewrite p_trace_main; [|apply value_tags|apply way_main]. cbn [p_trace fst snd].
        rewrite <- app_assoc. cbn [app]. apply fr_data; auto.
        -- unfold boxed. rewrite A. reflexivity.
        -- unfold data_of. repeat (split; [solve [auto]|]). split; [unfold field_usages; rewrite A; exact S1|].
           repeat (split; [solve [auto]|]). rewrite <- RG. auto.
Qed.

Lemma pieces_fronts r ls o r' : pieces r ls o r' -> forall s, resting r s -> fronts ls (p_trace s o).
Proof.
  induction 1 as [r|r id ls o r' _ IH|r x ls o o' r' P _ IH]; intros s R.
  - constructor.
  - cbn [p_trace fst]. change (main_tag ReportID) with false. cbv iota. cbn [app]. apply IH.
    destruct R as [g [-> R]]. exists (g_set ReportID id g). split; [reflexivity|destruct g; reflexivity].
  - rewrite p_trace_app. destruct (piece_front _ _ _ _ P R) as [R1 F]. apply F. apply IH. exact R1.
Qed.

Lemma app_first {A} (t u : list A) tr e r : t ++ tr = u ++ e :: r -> ~ In e t ->
  exists w, u = t ++ w /\ tr = w ++ e :: r.
Proof.
  revert u. induction t as [|x t IH]; intros u E N; [exists u; auto|].
  destruct u as [|y u]; cbn [app] in E; injection E as E1 E2.
  - exfalso. apply N. left. exact E1.
  - subst y. destruct (IH u E2) as [w [-> ->]]; [intros I; apply N; right; exact I|]. exists w. auto.
Qed.

Lemma not_in_dull t e : Forall dull t -> ~ dull e -> ~ In e t.
Proof. intros F N I. rewrite Forall_forall in F. auto. Qed.

Definition is_value (r : Z) (v : value) (e : pmain) : Prop :=
  data_value v = true /\ boxed v = false /\ data_of r v e.

Lemma fronts_head ls tr : fronts ls tr -> forall e t, tr = e :: t -> ~ dull e ->
  exists mid r v l2, ls = mid ++ LVal r v :: l2 /\ forallb plain_leaf mid = true /\ is_value r v e.
Proof.
  induction 1 as [|x ls t tr D N F IH|r v ls t e tr D DV BX DO F IH|x ls t e e' tr D NE DC D' F IH]; intros e0 t0 E ND.
  - discriminate.
  - destruct t as [|y t].
    + destruct N as [N|N]; [congruence|]. destruct (IH e0 t0 E ND) as [mid [r [v [l2 [-> [PL V]]]]]].
      exists (x :: mid), r, v, l2. split; auto. split; auto. cbn [forallb]. rewrite N, PL. reflexivity.
    + cbn [app] in E. injection E as -> _. inversion D; subst. contradiction.
  - destruct t as [|y t]; cbn [app] in E; injection E as -> _; [|inversion D; subst; contradiction].
    exists [], r, v, ls. split; auto. split; auto. repeat split; auto.
  - destruct t as [|y t]; [congruence|]. cbn [app] in E; injection E as -> _. inversion D; subst; contradiction.
Qed.

Lemma fronts_pair ls tr : fronts ls tr -> forall t1 e1 e2 t2, tr = t1 ++ e1 :: e2 :: t2 -> ~ dull e1 -> ~ dull e2 ->
  exists l1 r1 v1 mid r2 v2 l2, ls = l1 ++ LVal r1 v1 :: mid ++ LVal r2 v2 :: l2 /\ forallb plain_leaf mid = true /\
    is_value r1 v1 e1 /\ is_value r2 v2 e2.
Proof.
  assert (UP : forall x ls e1 e2, (exists l1 r1 v1 mid r2 v2 l2, ls = l1 ++ LVal r1 v1 :: mid ++ LVal r2 v2 :: l2 /\ forallb plain_leaf mid = true /\
    is_value r1 v1 e1 /\ is_value r2 v2 e2) -> exists l1 r1 v1 mid r2 v2 l2, x :: ls = l1 ++ LVal r1 v1 :: mid ++ LVal r2 v2 :: l2 /\ forallb plain_leaf mid = true /\
    is_value r1 v1 e1 /\ is_value r2 v2 e2).
  { intros x l e1 e2 [l1 [r1 [v1 [mid [r2 [v2 [l2 [-> X]]]]]]]]. exists (x :: l1), r1, v1, mid, r2, v2, l2. auto. }
  induction 1 as [|x ls t tr D N F IH|r v ls t e tr D DV BX DO F IH|x ls t e e' tr D NE DC D' F IH]; intros t1 e1 e2 t2 E N1 N2.
  - destruct t1; discriminate.
  - apply app_first in E; [|apply not_in_dull; auto]. destruct E as [w [-> ->]]. apply UP. eapply IH; eauto.
  - apply app_first in E; [|apply not_in_dull; auto]. destruct E as [w [-> E]].
    destruct w as [|y w]; cbn [app] in E; injection E as -> E.
    + destruct (fronts_head _ _ F _ _ E N2) as [mid [r2 [v2 [l2 [-> [PL V]]]]]].
      exists [], r, v, mid, r2, v2, l2. repeat split; auto; apply V.
    + apply UP. eapply IH; eauto.
  - apply app_first in E; [|apply not_in_dull; auto]. destruct E as [w [-> E]].
    destruct w as [|y [|z w]]; cbn [app] in E; inversion E; subst; [contradiction..|].
    apply UP. eapply IH; eauto.
Qed.

Lemma attrs_eqw g1 g2 c f :
  g_set UsagePage 0 (g_set ReportCount 0 g1) = g_set UsagePage 0 (g_set ReportCount 0 g2) ->
  mk_attrs g1 c f = mk_attrs g2 c f.
Proof.
  intros E. transitivity (mk_attrs (g_set UsagePage 0 (g_set ReportCount 0 g1)) c f); [destruct g1; reflexivity|].
  rewrite E. destruct g2; reflexivity.
Qed.

Lemma same_idx a b : a = b -> same_one (one_of a) (one_of b).
Proof.
  intros ->. unfold same_one, one_of. destruct (b =? 0); [left; auto|]. right.
  split; [discriminate|]. split; [discriminate|]. exists b. split; repeat constructor.
Qed.

Lemma fronts_const ls tr : fronts ls tr ->
  Forall (fun e => is_constant (snd e) = true -> data_tag (snd (fst e)) = true -> p_us (fst (fst e)) = []) tr.
Proof.
  assert (DD : forall e, dull e -> is_constant (snd e) = true -> data_tag (snd (fst e)) = true -> p_us (fst (fst e)) = []).
  { intros [[s c] f] [X|[_ X]] _ Y; cbn [fst snd] in *; [congruence|exact X]. }
  assert (DF : forall t, Forall dull t -> Forall (fun e => is_constant (snd e) = true -> data_tag (snd (fst e)) = true -> p_us (fst (fst e)) = []) t).
  { intros t. apply Forall_impl. exact DD. }
  induction 1 as [|x ls t tr D N F IH|r v ls t e tr D DV BX DO F IH|x ls t e e' tr D NE DC D' F IH].
  - constructor.
  - apply Forall_app. auto.
  - apply Forall_app. split; auto. constructor; auto. destruct e as [[s c] f]. cbn [snd].
    destruct DO as [_ [-> _]]. unfold data_value in DV. intros C. rewrite C in DV. destruct (v_kind v); discriminate.
  - apply Forall_app. split; auto. constructor; [congruence|]. constructor; auto.
Qed.

Lemma tree_joins ls o r' : pieces 0 ls (map cv o) r' -> uniform_leaves ls ->
  joins (uniform AtDecl) (main_states (map wire o)) /\
  ((forall v1 v2, neighbours ls v1 v2 ->
     (exists p, of_page p (field_usages v1 ++ field_usages v2)) /\ (field_usages v1 = [] <-> field_usages v2 = [])) ->
   joins (fun e1 e2 => uniform AtDecl e1 e2 /\ same_page e1 e2) (main_states (map wire o))).
Proof.
  intros P U.
  assert (PL : Forall (fun w => plain (w_cls w) = true) (map wire o)).
  { pose proof (pieces_items _ _ _ _ P) as F. apply Forall_map. rewrite Forall_map in F.
    eapply Forall_impl; [|exact F]. intros i [A _]. exact A. }
  pose proof (trace_states (map wire o) p_init h_init stands_init PL) as T.
  rewrite map_map in T. change (map (fun x => (w_cls (wire x), w_val (wire x))) o) with (map cv o) in T.
  pose proof (pieces_fronts _ _ _ _ P p_init ltac:(exists g_init; split; reflexivity)) as FR.
  assert (MAIN : forall l1 e1 e2 l2, main_states (map wire o) = l1 ++ e1 :: e2 :: l2 -> may_join e1 e2 ->
    uniform AtDecl e1 e2 /\ ((forall v1 v2, neighbours ls v1 v2 ->
     (exists p, of_page p (field_usages v1 ++ field_usages v2)) /\ (field_usages v1 = [] <-> field_usages v2 = [])) -> same_page e1 e2)).
  2:{ split; [|intros X]; intros l1 e1 e2 l2 E MJ; destruct (MAIN l1 e1 e2 l2 E MJ) as [A B]; auto. }
  intros l1 [[[g1 x1] c1] f1] [[[g2 x2] c2] f2] l2 E MJ. unfold main_states in E. rewrite E in T.
  apply Forall2_app_inv_two in T. destruct T as [q1 [p1 [p2 [q2 [EQ [H1 H2]]]]]].
  destruct p1 as [[s1 c1'] f1'], p2 as [[s2 c2'] f2'].
  destruct H1 as [-> [-> S1]], H2 as [-> [-> S2]].
  destruct (S1 AtDecl) as [G1 [PG1 [_ [US1 [DS1 [SS1 DL1]]]]]].
  destruct (S2 AtDecl) as [G2 [PG2 [_ [US2 [DS2 [SS2 DL2]]]]]].
  cbn [h_g h_l] in *. subst g1 g2.
  destruct MJ as [DT [<- [<- [GE CT]]]].
  unfold uniform, same_page. rewrite PG1, PG2.
  rewrite (proj1 US1), (proj1 US2), (proj1 DS1), (proj1 DS2), (proj1 SS1), (proj1 SS2).
  assert (PA : paired x1).
  { unfold paired. repeat constructor; try apply US1; try apply DS1; try apply SS1. }
  destruct (is_constant f1) eqn:C.
  - split; [split; [discriminate|split; [exact PA|discriminate]]|]. intros _.
    pose proof (fronts_const _ _ FR) as FC. rewrite EQ in FC. apply Forall_app in FC. destruct FC as [_ FC].
    inversion FC as [|? ? FC1 FC2]; subst. inversion FC2 as [|? ? FC3 _]; subst. cbn [fst snd] in *.
    rewrite (FC1 C DT), (FC3 C DT). split; [exists 0; constructor|tauto].
  - assert (ND : forall s, ~ dull (s, c1, f1)) by (intros s [X|[X _]]; congruence).
    destruct (fronts_pair _ _ FR _ _ _ _ EQ (ND s1) (ND s2)) as [a [r1 [v1 [mid [r2 [v2 [b [LS [PM [V1 V2]]]]]]]]]].
    destruct V1 as [D1 [B1 [W1 [F1 [X1 [Y1 [Z1 [K1 A1]]]]]]]].
    destruct V2 as [D2 [B2 [W2 [F2 [X2 [Y2 [Z2 [K2 A2]]]]]]]].
    assert (AE : value_attrs r1 v1 = value_attrs r2 v2) by (rewrite <- A1, <- A2; apply attrs_eqw; exact GE).
    assert (RE : r1 = r2) by (apply (f_equal f_rid) in AE; exact AE). subst r2.
    assert (NB : neighbours ls v1 v2).
    { exists a, r1, mid, b. repeat (split; [assumption|]). congruence. }
    rewrite X1, X2, Y1, Y2, Z1, Z2.
    split; [|intros SP; apply SP; exact NB].
    split; [discriminate|]. split; [exact PA|]. intros _. split; [exact DL1|]. split; [exact DL2|].
    pose proof (U v1 v2 NB) as EV. unfold even_values in EV. rewrite <- F1 in EV.
    assert (LN : g_lmax (p_g s1) - g_lmin (p_g s1) + 1 = or0 (v_lmax v1) - or0 (v_lmin v1) + 1).
    { pose proof (f_equal f_lmax A1) as Q1. pose proof (f_equal f_lmin A1) as Q2. cbn in Q1, Q2. lia. }
    rewrite LN. destruct (is_variable f1); [exact EV|]. destruct EV as [E1 [E2 E3]].
    split; [exact E1|]. split; apply same_idx; assumption.
Qed.

(* ------------------------------------------------------------------ *)
(** what a compiled tree is like *)

(** the only reading of [b] by a host that binds usages like [m] *)
Definition reads_bound (m : binding) (b : list Z) (ev : list event) : Prop :=
  forall ev', host_reads m b ev' <-> ev' = ev.

Lemma stream_seen db t l : well_formed t -> stream_items db t = Ok l ->
  exists ev, (forall m, seen m l = ev) /\ follows any_gap [] (fst (threaded 0 t)) ev.
Proof.
  intros WF H. unfold stream_items in H.
  destruct (stream_tree db sst_init t) as [[st' o]|] eqn:E; [|discriminate]. cbn [bind] in H. injection H as <-.
  destruct (stream_run db (fun _ => False) t _ _ _ WF E) as [PL _ _ RUN].
  destruct (RUN g_init) as [g' [ev [X [_ [_ [_ [F _]]]]]]].
  exists ev. split; [|apply F]. intros m. unfold seen. rewrite plain_view by exact PL. unfold p_init.
  transitivity (snd (p_run (P g_init [] [] []) (map cv o))); [reflexivity|rewrite X; reflexivity].
Qed.

Lemma serialized_reads m l b : serialize l = Ok b -> reads_bound m b (seen m l).
Proof.
  intros S ev'. assert (R : host_reads m b (seen m l)) by (exists (map wire l); split; [apply serialize_means; exact S|reflexivity]).
  split; [intros R'; eapply host_reads_det; eauto|intros ->; exact R].
Qed.

(* ------------------------------------------------------------------ *)
(** C41: the converter *)

Lemma c41 db b ws out :
  blob_means b ws -> Forall number_allowed ws -> regular (map w_what ws) -> unstacked (map w_what ws) ->
  closed_stream (map w_what ws) -> joins (uniform AtDecl) (main_states ws) ->
  convert_opt db b = Ok out ->
  exists ws', blob_means out ws' /\ host_view AtDecl ws' = host_view AtDecl ws.
Proof.
  intros B N RG US CL J H. destruct (parse_good db 0 b ws B (proj1 (allowed_forall ws) N)) as [l [PA [M C]]].
  unfold convert_opt in H. rewrite blob_parse_from, PA in H. cbn [finished appended bind] in H.
  change (map wcv ws) with (map w_what ws) in M.
  assert (X : Forall ext_sound ws).
  { destruct RG as [X _]. unfold extended in X. rewrite Forall_map in X. eapply Forall_impl; [|exact X].
    intros w Y U _. apply Y. destruct w as [c v e]. cbn in *. destruct c; auto. }
  pose proof (wire_same b ws l B X M) as W.
  exists (map wire (optimize db l)). split; [apply serialize_means; exact H|].
  change (seen AtDecl (optimize db l) = host_view AtDecl ws). rewrite <- (host_view_same AtDecl _ _ W).
  rewrite <- M in RG, US, CL.
  apply c40_items; auto.
  - unfold push_free. unfold unstacked in US. rewrite Forall_map in US. exact US.
  - destruct CL as [l' [x [E [M1 M2]]]].
    destruct (exists_last (l := l)) as [l0 [i ->]]; [intros ->; destruct l'; discriminate|].
    rewrite map_app in E. cbn [map] in E. apply app_inj_tail in E. destruct E as [_ <-].
    exists l0, i. split; auto. destruct i as [c v]. cbn [cv fst ic] in *. destruct c; try discriminate M1; try discriminate M2; split; reflexivity.
  - unfold main_states. rewrite (h_run_same _ _ _ W). exact J.
Qed.

(* ------------------------------------------------------------------ *)
(** the neighbours in a list of leaves *)

Fixpoint next_value (ls : list leaf) : option (Z * value) :=
  match ls with
  | [] => None
  | x :: r => if plain_leaf x then next_value r else match x with LVal i v => Some (i, v) | _ => None end
  end.

Fixpoint nbrs (ls : list leaf) : list (Z * value * value) :=
  match ls with
  | [] => []
  | LVal i v :: r =>
      match next_value r with
      | Some (j, w) => if (i =? j) && data_value v && data_value w && negb (boxed v) && negb (boxed w) && (v_count v =? 1)
                       then [(i, v, w)] else []
      | None => []
      end ++ nbrs r
  | _ :: r => nbrs r
  end.

Lemma next_plain mid r v l2 : forallb plain_leaf mid = true -> plain_leaf (LVal r v) = false ->
  next_value (mid ++ LVal r v :: l2) = Some (r, v).
Proof.
  intros F N. induction mid as [|x mid IH]; cbn [app next_value].
  - rewrite N. reflexivity.
  - cbn [forallb] in F. apply andb_true_iff in F. destruct F as [-> F]. auto.
Qed.

Lemma neighbours_nbrs ls v1 v2 : neighbours ls v1 v2 ->
  exists r, In (r, v1, v2) (nbrs ls) /\ value_attrs r v1 = value_attrs r v2.
Proof.
  intros [l1 [r [mid [l2 [-> [PM [D1 [D2 [B1 [B2 [A C]]]]]]]]]]]. exists r. split; auto.
  induction l1 as [|x l1 IH]; cbn [app].
  - cbn [nbrs]. rewrite next_plain; auto.
    + rewrite Z.eqb_refl, D1, D2, B1, B2, C. left. reflexivity.
    + unfold plain_leaf, data_value in *. destruct (v_kind v2); auto; discriminate.
  - cbn [nbrs]. destruct x as [k u| |i v]; auto. apply in_app_iff. auto.
Qed.
