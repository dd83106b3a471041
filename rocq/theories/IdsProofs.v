(* IdsProofs.v -- proofs about the report ids in compiled descriptors *)
From Coq Require Import ZArith List Bool Lia ZifyBool ZifyNat String.
From Verif Require Import Py Usage Item Parser Optimizer Descriptor HidSpec Spec StreamSpec OptSpec ItemFacts ParserFacts StreamProofs StreamTree
  OptFacts MainMergeFacts Skeleton PassFacts TreeOpt SizeFacts IdsSpec.
Import ListNotations.
Local Open Scope list_scope.
Local Open Scope Z_scope.

Definition rids (l : list item) : list Z := declared_ids (map wire l).

Lemma rids_app a b : rids (a ++ b) = rids a ++ rids b.
Proof. unfold rids, declared_ids. rewrite map_app, flat_map_app. reflexivity. Qed.

Lemma rids_none l : ~ In ReportID (map ic l) -> rids l = [].
Proof.
  induction l as [|i l IH]; intros N; [reflexivity|]. unfold rids, declared_ids in *. cbn [map flat_map wire w_cls w_val].
  rewrite IH by (intros I; apply N; right; exact I). destruct (ic i) eqn:E; try reflexivity. elim N. left. exact E.
Qed.

Definition given_all (ms : list tree) : list Z := flat_map given_ids ms.
Lemma given_all_eq ms : (fix all ms := match ms with [] => [] | m :: r => given_ids m ++ all r end) ms = given_all ms.
Proof. induction ms as [|m ms IH]; [reflexivity|]. cbn [given_all flat_map]. rewrite IH. reflexivity. Qed.

Lemma main_class_not way c : main_class way = Ok c -> way = 8 \/ way = 9 \/ way = 11 -> c <> ReportID.
Proof. intros H W. destruct (main_class_ok _ _ H W) as [_ [->|[->| ->]]]; discriminate. Qed.

Lemma reqs_not db v b c : c <> ReportID -> ~ In ReportID (map fst (value_reqs db v b c)).
Proof.
  intros N I. unfold value_reqs in I. rewrite !map_app in I.
  assert (M : forall l : list pval, ~ In ReportID (map fst (map (fun u => (Usage, Some u)) l))).
  { intros l. rewrite map_map. cbn [fst]. induction l as [|x l IH]; [intros []|]. intros [E|E]; [discriminate E|exact (IH E)]. }
  repeat match type of I with
  | In _ (_ ++ _) => apply in_app_or in I; destruct I as [I|I]
  | In _ (map fst (if ?b then _ else _)) => destruct b
  | In _ (map fst (_ ++ _)) => rewrite map_app in I
  | In _ (map fst (map _ _)) => exact (M _ I)
  | In _ _ => cbn [map fst In] in I; intuition congruence
  end.
Qed.

Lemma element_rids db st v st' o : element db st v = Ok (st', o) -> rids o = [].
Proof.
  intros H. unfold element in H.
  match type of H with bind ?r _ = _ => destruct r as [pad|] eqn:PAD; [|discriminate] end.
  cbn [bind] in H.
  match type of H with bind ?r _ = _ => destruct r as [[st1 out1]|] eqn:OUT1; [|discriminate] end.
  cbn [bind] in H.
  assert (N1 : rids out1 = []).
  { destruct (pad =? 0).
    - injection OUT1 as <- <-. reflexivity.
    - destruct (rs_add st (py_int (v_way v)) pad) as [st2|] eqn:RA; [|discriminate]. cbn [bind] in OUT1.
      destruct (main_class (py_int (v_way v))) as [c|] eqn:MC; [|discriminate]. cbn [bind] in OUT1.
      match type of OUT1 with bind ?r _ = _ => destruct r as [items|] eqn:MI; [|discriminate] end.
      cbn [bind] in OUT1. injection OUT1 as <- <-. apply rids_none. rewrite (mk_items_classes _ _ _ MI).
      apply rs_add_ok in RA. destruct RA as [_ [_ [W _]]].
      pose proof (main_class_not _ _ MC W) as NC. cbn [map fst In]. intuition congruence. }
  destruct (v_kind v); [|injection H as <- <-; apply N1..].
  destruct (narr_truthy (v_named v)) as [b|] eqn:T; [|discriminate]. cbn [bind] in H.
  destruct (rs_add st1 (py_int (v_way v)) (v_size v)) as [st2|] eqn:RA; [|discriminate]. cbn [bind] in H.
  destruct (main_class (py_int (v_way v))) as [c|] eqn:MC; [|discriminate]. cbn [bind] in H.
  match type of H with bind ?r _ = _ => destruct r as [items|] eqn:MI; [|discriminate] end.
  cbn [bind] in H. injection H as <- <-.
  apply rs_add_ok in RA. destruct RA as [_ [_ [W _]]]. rewrite rids_app, N1. apply rids_none.
  rewrite (mk_items_classes _ _ _ MI). apply reqs_not. eapply main_class_not; eauto.
Qed.

Definition gives (t : tree) : Prop := forall db st st' o,
  stream_tree db st t = Ok (st', o) -> rids o = given_ids t /\ Forall (fun z => 1 <= z) (given_ids t).

Lemma gives_all ms : Forall gives ms -> forall db st st' o,
  stream_members db st ms = Ok (st', o) -> rids o = given_all ms /\ Forall (fun z => 1 <= z) (given_all ms).
Proof.
  induction 1 as [|m ms H _ IH]; intros db st st' o E; cbn [stream_members] in E.
  - injection E as <- <-. split; [reflexivity|constructor].
  - destruct (stream_tree db st m) as [[st1 o1]|] eqn:E1; [|discriminate]. cbn [bind] in E.
    destruct (stream_members db st1 ms) as [[st2 o2]|] eqn:E2; [|discriminate]. cbn [bind] in E.
    injection E as <- <-. destruct (H _ _ _ _ E1) as [A B]. destruct (IH _ _ _ _ E2) as [C D].
    cbn [given_all flat_map]. rewrite rids_app, A, C. split; [reflexivity|]. apply Forall_app. auto.
Qed.

Lemma tree_gives t : gives t.
Proof.
  induction t as [v|id ms IH|ms IH|k u ms IH] using tree_rect2; intros db st st' o H.
  - split; [eapply element_rids; exact H|constructor].
  - rewrite stream_report in H.
    destruct (if id =? 0 then _ else _) as [o0|] eqn:E0; [|discriminate]. cbn [bind] in H.
    destruct (stream_members db _ ms) as [[st1 o1]|] eqn:E1; [|discriminate]. cbn [bind] in H.
    injection H as <- <-. destruct (gives_all ms IH _ _ _ _ E1) as [A B].
    cbn [given_ids]. rewrite given_all_eq, rids_app, A.
    destruct (id =? 0) eqn:Z0; [injection E0 as <-; split; [reflexivity|exact B]|].
    cbn [mk_items] in E0. destruct (mk_item db ReportID (Some (VInt id))) as [i|] eqn:EI; [|discriminate]. cbn [bind] in E0. injection E0 as <-.
    pose proof (mk_item_class _ _ _ _ EI) as C. pose proof (mk_item_constructed _ _ _ _ EI) as CO.
    destruct (constructed_facts i CO) as [[S|S] _]; [rewrite C in S; discriminate S|].
    assert (V : ival i = id).
    { pose proof (mk_item_cv db ReportID (Some (VInt id)) i I EI) as Y. unfold req_cv in Y. cbn [fst snd py_int] in Y. congruence. }
    split.
    + unfold rids, declared_ids. cbn [map flat_map wire w_cls w_val]. rewrite C, V. reflexivity.
    + constructor; [lia|exact B].
  - rewrite stream_top in H. cbn [given_ids]. rewrite given_all_eq. eapply gives_all; eauto.
  - rewrite stream_coll in H.
    destruct (mk_items db [(Usage, u); (Collection, Some k)]) as [o0|] eqn:E0; [|discriminate]. cbn [bind] in H.
    destruct (stream_members db st ms) as [[st1 o1]|] eqn:E1; [|discriminate]. cbn [bind] in H.
    destruct (mk_items db [(EndCollection, Some (VInt 0))]) as [o2|] eqn:E2; [|discriminate]. cbn [bind] in H.
    injection H as <- <-. destruct (gives_all ms IH _ _ _ _ E1) as [A B]. cbn [given_ids]. rewrite given_all_eq, !rids_app, A.
    rewrite (rids_none o0), (rids_none o2).
    + rewrite app_nil_r. auto.
    + rewrite (mk_items_classes _ _ _ E2). cbn. intuition discriminate.
    + rewrite (mk_items_classes _ _ _ E0). cbn. intuition discriminate.
Qed.

(* ------------------------------------------------------------------ *)
(** optimised *)

Definition in_ids (ids : list Z) (i : item) : Prop := (ic i = ReportCount -> 0 <= ival i) /\ (ic i = ReportID -> In (ival i) ids).

Lemma rebuild_in ids db c v : c <> ReportID -> c <> ReportCount -> Forall (in_ids ids) (rebuild db c v).
Proof.
  intros N1 N2. unfold rebuild. destruct (mk_item db c (Some v)) as [i|] eqn:E; [|constructor].
  apply mk_item_class in E. constructor; [|constructor]. split; intros X; congruence.
Qed.

Lemma optimize_in ids db l : Forall (in_ids ids) l -> Forall (in_ids ids) (optimize db l).
Proof.
  intros F. rewrite optimize_all. cbn [passes map snd run_all fold_left].
  apply up_each. { intros i _ U. split; apply rebuild_in; try discriminate; intros E; rewrite E in U; discriminate U. }
  unfold usage_merge, designator_merge, string_merge.
  apply rm_each. { intros i c _ _ [->|[->| ->]]; apply rebuild_in; discriminate. }
  apply rm_each. { intros i c _ _ [->|[->| ->]]; apply rebuild_in; discriminate. }
  apply rm_each. { intros i c _ _ [->|[->| ->]]; apply rebuild_in; discriminate. }
  apply gm_each, pm_each, mm_each, du_each; [| |exact F].
  - intros n N. split; [intros _; exact N|discriminate].
  - intros i [H _]. exact H.
Qed.

Lemma rids_in i l : In i l -> ic i = ReportID -> In (ival i) (rids l).
Proof. intros I E. unfold rids, declared_ids. apply in_flat_map. exists (wire i). split; [apply in_map; exact I|]. cbn [wire w_cls w_val]. rewrite E. left. reflexivity. Qed.

Lemma c97 db t b ws : compile db false t = Ok b -> blob_means b ws ->
  declared_ids ws = given_ids t /\ Forall (fun z => 1 <= z) (declared_ids ws).
Proof.
  intros H M. unfold compile, stream_items in H. destruct (stream_tree db sst_init t) as [[st o]|] eqn:E; [|discriminate]. cbn [bind] in H.
  pose proof (blob_means_fun _ _ _ M (serialize_means _ _ H)) as ->. destruct (tree_gives t _ _ _ _ E) as [A B].
  unfold rids in A. rewrite A. auto.
Qed.

Lemma c97_optimised db t b ws : compile db true t = Ok b -> blob_means b ws ->
  Forall (fun z => In z (given_ids t) /\ 1 <= z) (declared_ids ws).
Proof.
  intros H M. unfold compile, stream_items in H. destruct (stream_tree db sst_init t) as [[st o]|] eqn:E; [|discriminate]. cbn [bind] in H.
  pose proof (blob_means_fun _ _ _ M (serialize_means _ _ H)) as ->. destruct (tree_gives t _ _ _ _ E) as [A B].
  assert (F : Forall (in_ids (given_ids t)) o).
  { apply Forall_forall. intros i I. split; [|intros X; rewrite <- A; apply rids_in; assumption].
    apply rc_nonneg. pose proof (stream_constructed _ _ _ _ _ E) as C. rewrite Forall_forall in C. exact (C i I). }
  apply (optimize_in _ db) in F. unfold declared_ids. apply Forall_flat_map, Forall_map. eapply Forall_impl; [|exact F].
  intros i [_ H1]. cbn [wire w_cls w_val]. destruct (ic i); constructor; [|constructor].
  specialize (H1 eq_refl). split; [exact H1|]. rewrite Forall_forall in B. exact (B _ H1).
Qed.

(* ------------------------------------------------------------------ *)
(** Reports with values *)

Lemma given_inside t z : In z (given_ids t) -> z <> 0 /\ exists ms, inside (TReport z ms) t.
Proof.
  assert (ALL : forall ms, Forall (fun t => In z (given_ids t) -> z <> 0 /\ exists ms, inside (TReport z ms) t) ms ->
    In z (given_all ms) -> z <> 0 /\ exists m x, In m ms /\ inside (TReport z x) m).
  { intros ms F I. unfold given_all in I. apply in_flat_map in I. destruct I as [m [I J]]. rewrite Forall_forall in F.
    destruct (F m I J) as [N [x X]]. split; [exact N|]. exists m, x. auto. }
  induction t as [v|id ms IH|ms IH|k u ms IH] using tree_rect2; cbn [given_ids]; try rewrite given_all_eq; intros I.
  - destruct I.
  - apply in_app_or in I. destruct I as [I|I].
    + destruct (id =? 0) eqn:E; [destruct I|]. destruct I as [<-|[]]. split; [lia|]. exists ms. apply in_self.
    + destruct (ALL ms IH I) as [N [m [x [A B]]]]. split; [exact N|]. exists x. eapply in_report; eauto.
  - destruct (ALL ms IH I) as [N [m [x [A B]]]]. split; [exact N|]. exists x. eapply in_top; eauto.
  - destruct (ALL ms IH I) as [N [m [x [A B]]]]. split; [exact N|]. exists x. eapply in_coll; eauto.
Qed.

Lemma holds_entered id v r : forall ws, In (LVal id v) (fst (entered_all id (map TValue ws ++ TValue v :: r))).
Proof.
  induction ws as [|w ws IH]; cbn [map app entered_all entered].
  - destruct (entered_all id r). left. reflexivity.
  - destruct (entered_all id _). right. exact IH.
Qed.

Lemma inside_entered id ws v r t : inside (TReport id (map TValue ws ++ TValue v :: r)) t ->
  forall n, In (LVal id v) (fst (entered n t)).
Proof.
  assert (ALL : forall x m ms, In m ms -> (forall n, In x (fst (entered n m))) -> forall n, In x (fst (entered_all n ms))).
  { intros x m ms. induction ms as [|a ms IH]; intros I H n; [destruct I|]. cbn [entered_all].
    destruct I as [->|I].
    - specialize (H n). destruct (entered n m) as [p q]. destruct (entered_all q ms). cbn [fst] in *. apply in_or_app. auto.
    - destruct (entered n a) as [p q]. specialize (IH I H q). destruct (entered_all q ms). cbn [fst] in *. apply in_or_app. auto. }
  remember (TReport id _) as s. induction 1 as [t|s id' ms m I J IH|s ms m I J IH|s k u ms m I J IH]; intros n; subst.
  - rewrite entered_report. apply holds_entered.
  - rewrite entered_report. eapply ALL; eauto.
  - rewrite entered_top. eapply ALL; eauto.
  - rewrite entered_coll. pose proof (ALL _ m ms I (IH eq_refl) n) as X. destruct (entered_all n ms). cbn [fst] in *. right. apply in_or_app. auto.
Qed.

Lemma given_limit db opt t b : compile db opt t = Ok b ->
  (forall id ms, inside (TReport id ms) t -> id <> 0 -> holds_value ms) -> Forall (fun z => 1 <= z <= 255) (given_ids t).
Proof.
  intros C H. apply Forall_forall. intros z I. destruct (given_inside t z I) as [N [ms J]].
  destruct (H z ms J N) as [ws [v [r [-> K]]]]. pose proof (inside_entered _ _ _ _ _ J 0) as E.
  destruct (Z_lt_dec z 1) as [L|L]; [|destruct (Z_le_dec z 255) as [M|M]; [lia|]].
  all: exfalso; destruct (c28 db opt t) as [e X]; [|congruence]; right; right; exists z, v; repeat split; auto; lia.
Qed.

Lemma c97_limit db opt t b ws : compile db opt t = Ok b -> blob_means b ws ->
  (forall id ms, inside (TReport id ms) t -> id <> 0 -> holds_value ms) -> Forall (fun z => 1 <= z <= 255) (declared_ids ws).
Proof.
  intros C M H. pose proof (given_limit _ _ _ _ C H) as G. destruct opt.
  - pose proof (c97_optimised db t b ws C M) as O. eapply Forall_impl; [|exact O]. intros z [I _].
    rewrite Forall_forall in G. auto.
  - destruct (c97 db t b ws C M) as [-> _]. exact G.
Qed.
