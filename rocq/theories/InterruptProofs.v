(* InterruptProofs.v -- what an interrupted run has written: C85 *)
From Coq Require Import ZifyBool ZifyNat.
From Verif Require Import Py Usage Item Parser Optimizer Descriptor HidSpec Spec ItemFacts ParserFacts
  CodecProofs OptFacts OptSpec Skeleton StreamSpec StreamTree StreamProofs PassFacts Interrupt.

(* ------------------------------------------------------------------ *)
(** the same outcome as the model without interruption *)

Definition agrees (r : srun) (q : result (sst * list item)) : Prop :=
  match s_end r with
  | Ok st => q = Ok (st, s_items r)
  | Err _ => exists e, q = Err e
  end.

Lemma emits_agree db l st :
  match s_end (emits db l st) with
  | Ok st' => st' = st /\ mk_items db l = Ok (s_items (emits db l st))
  | Err _ => exists e, mk_items db l = Err e
  end.
Proof.
  induction l as [|[c v] l IH]; [cbn; auto|]. cbn [emits mk_items].
  destruct (mk_item db c v) as [i|x]; cbn [bind]; [|cbn; eauto]. cbn [s_end s_items].
  destruct (s_end (emits db l st)) as [st'|].
  - destruct IH as [-> ->]. cbn [bind]. auto.
  - destruct IH as [x ->]. cbn [bind]. eauto.
Qed.

Lemma mk_items_app db a b : mk_items db (a ++ b) = let* x := mk_items db a in let* y := mk_items db b in Ok (x ++ y).
Proof.
  induction a as [|[c v] a IH]; cbn [app mk_items bind].
  - destruct (mk_items db b); reflexivity.
  - destruct (mk_item db c v) as [i|]; auto. cbn [bind]. rewrite IH. destruct (mk_items db a) as [x|]; auto. cbn [bind].
    destruct (mk_items db b); reflexivity.
Qed.

Lemma value_parts db e named c :
  value_reqs db e named c = value_before db e named ++ [(c, Some (v_flags e))] ++ value_after e named.
Proof. unfold value_reqs, value_before, value_after. cbv zeta. rewrite <- app_assoc. reflexivity. Qed.

Lemma pad_agree db e pad st : agrees (pad_run db e pad st)
  (if pad =? 0 then Ok (st, []) else
     let* st1 := rs_add st (py_int (v_way e)) pad in
     let* c := main_class (py_int (v_way e)) in
     let* o := mk_items db [(ReportCount, Some (VInt 1)); (ReportSize, Some (VInt pad)); (c, Some (VInt 3))] in
     Ok (st1, o)).
Proof.
  unfold pad_run. destruct (pad =? 0); [reflexivity|].
  set (way := py_int (v_way e)). set (l0 := [(ReportCount, Some (VInt 1)); (ReportSize, Some (VInt pad))]).
  pose proof (emits_agree db l0 st) as A. unfold after at 1.
  destruct (s_end (emits db l0 st)) as [st0|x] eqn:E0.
  - destruct A as [-> A]. unfold after, counts. destruct (rs_add st way pad) as [st1|x]; [|cbn; eauto].
    cbn [s_end s_items s_ok bind]. unfold emits_main. destruct (main_class way) as [c|x]; [|cbn; eauto]. cbn [bind].
    pose proof (emits_agree db [(c, Some (VInt 3))] st1) as B. unfold agrees. cbn [s_end s_items].
    change [(ReportCount, Some (VInt 1)); (ReportSize, Some (VInt pad)); (c, Some (VInt 3))] with (l0 ++ [(c, Some (VInt 3))]).
    rewrite mk_items_app, A. cbn [bind].
    destruct (s_end (emits db [(c, Some (VInt 3))] st1)) as [st2|].
    + destruct B as [-> ->]. reflexivity.
    + destruct B as [x ->]. cbn; eauto.
  - destruct A as [x' A]. unfold agrees. rewrite E0. destruct (rs_add st way pad); cbn [bind]; [|eauto].
    destruct (main_class way) as [c|]; cbn [bind]; [|eauto].
    change [(ReportCount, Some (VInt 1)); (ReportSize, Some (VInt pad)); (c, Some (VInt 3))] with (l0 ++ [(c, Some (VInt 3))]).
    rewrite mk_items_app, A. cbn. eauto.
Qed.

Lemma element_agree db st e : agrees (element_run db st e) (element db st e).
Proof.
  unfold element_run, element. fold (pad_of st e). destruct (pad_of st e) as [pad|x]; [|cbn; eauto]. cbn [bind].
  pose proof (pad_agree db e pad st) as A. unfold agrees in A. unfold after at 1.
  destruct (s_end (pad_run db e pad st)) as [st1|x] eqn:E1.
  2:{ destruct A as [x' ->]. unfold agrees. rewrite E1. cbn. eauto. }
  rewrite A. cbn [bind]. clear A E1. set (o1 := s_items _).
  destruct (v_kind e); [|cbn [s_items s_ok s_end]; unfold agrees; cbn [s_end s_items]; rewrite app_nil_r; reflexivity..].
  destruct (narr_truthy (v_named e)) as [named|x]; [|cbn; eauto]. cbn [bind].
  set (way := py_int (v_way e)).
  pose proof (emits_agree db (value_before db e named) st1) as A. unfold after at 1 4.
  destruct (s_end (emits db (value_before db e named) st1)) as [st0|x] eqn:E0.
  2:{ destruct A as [x' A]. unfold agrees. cbn [s_end]. rewrite E0.
      destruct (rs_add st1 way (v_size e)); cbn [bind]; [|eauto]. destruct (main_class way) as [c|]; cbn [bind]; [|eauto].
      rewrite value_parts, mk_items_app, A. cbn. eauto. }
  destruct A as [-> A]. unfold counts. destruct (rs_add st1 way (v_size e)) as [st2|x]; [|cbn; eauto].
  unfold after. cbn [s_end s_items s_ok bind]. unfold emits_main. destruct (main_class way) as [c|x]; [|cbn; eauto]. cbn [bind].
  pose proof (emits_agree db [(c, Some (v_flags e))] st2) as B.
  destruct (s_end (emits db [(c, Some (v_flags e))] st2)) as [st3|] eqn:E3.
  2:{ destruct B as [x' B]. unfold agrees. cbn [s_end s_items]. rewrite E3. rewrite value_parts, !mk_items_app, A, B. cbn. eauto. }
  destruct B as [-> B]. cbn [s_end s_items].
  pose proof (emits_agree db (value_after e named) st2) as D. unfold agrees. cbn [s_end s_items].
  destruct (s_end (emits db (value_after e named) st2)) as [st4|].
  - destruct D as [-> D]. rewrite value_parts, !mk_items_app, A, B, D. cbn [bind]. reflexivity.
  - destruct D as [x' D]. rewrite value_parts, !mk_items_app, A, B, D. cbn. eauto.
Qed.

Definition members_run (db : udb) : list tree -> sst -> srun :=
  fix go (ms : list tree) (st : sst) {struct ms} : srun :=
    match ms with
    | [] => s_ok st
    | m :: r => after (tree_run db st m) (go r)
    end.
Lemma members_cons db m r st : members_run db (m :: r) st = after (tree_run db st m) (members_run db r).
Proof. reflexivity. Qed.

Lemma run_report db st id ms : tree_run db st (TReport id ms) =
  after (emits db (if id =? 0 then [] else [(ReportID, Some (VInt id))]) (SST id (s_size st))) (members_run db ms).
Proof. reflexivity. Qed.
Lemma run_top db st ms : tree_run db st (TTop ms) = members_run db ms st.
Proof. reflexivity. Qed.
Lemma run_coll db st k u ms : tree_run db st (TColl k u ms) =
  after (emits db [(Usage, u); (Collection, Some k)] st) (fun st =>
  after (members_run db ms st) (fun st => emits db [(EndCollection, Some (VInt 0))] st)).
Proof. reflexivity. Qed.

Lemma members_agree db ms : Forall (fun t => forall st, agrees (tree_run db st t) (stream_tree db st t)) ms ->
  forall st, agrees (members_run db ms st) (stream_members db st ms).
Proof.
  induction 1 as [|m ms H _ IH]; intros st; [reflexivity|]. rewrite members_cons. cbn [stream_members].
  specialize (H st). unfold after. unfold agrees in H. destruct (s_end (tree_run db st m)) as [st1|] eqn:E.
  - rewrite H. cbn [bind]. specialize (IH st1). unfold agrees in *. cbn [s_end s_items].
    destruct (s_end (members_run db ms st1)) as [st2|].
    + rewrite IH. reflexivity.
    + destruct IH as [x ->]. cbn. eauto.
  - destruct H as [x ->]. unfold agrees. rewrite E. cbn. eauto.
Qed.

Lemma tree_agree db t : forall st, agrees (tree_run db st t) (stream_tree db st t).
Proof.
  induction t as [v|id ms IH|ms IH|k u ms IH] using tree_rect2; intros st.
  - apply element_agree.
  - rewrite run_report, stream_report.
    set (l0 := if id =? 0 then [] else [(ReportID, Some (VInt id))]).
    replace (if id =? 0 then Ok [] else mk_items db [(ReportID, Some (VInt id))]) with (mk_items db l0)
      by (unfold l0; destruct (id =? 0); reflexivity).
    set (st0 := SST id (s_size st)). pose proof (emits_agree db l0 st0) as A. unfold after.
    destruct (s_end (emits db l0 st0)) as [st1|] eqn:E.
    + destruct A as [-> ->]. cbn [bind]. pose proof (members_agree db ms IH st0) as B. unfold agrees in *. cbn [s_end s_items].
      destruct (s_end (members_run db ms st0)) as [st2|]; [rewrite B; reflexivity|]. destruct B as [x ->]. cbn. eauto.
    + destruct A as [x ->]. unfold agrees. rewrite E. cbn. eauto.
  - rewrite run_top, stream_top. apply members_agree. exact IH.
  - rewrite run_coll, stream_coll.
    set (l0 := [(Usage, u); (Collection, Some k)]). set (l1 := [(EndCollection, Some (VInt 0))]).
    pose proof (emits_agree db l0 st) as A. unfold after at 1.
    destruct (s_end (emits db l0 st)) as [st1|] eqn:E.
    + destruct A as [-> ->]. cbn [bind]. pose proof (members_agree db ms IH st) as B. unfold after. unfold agrees in *. cbn [s_end s_items].
      destruct (s_end (members_run db ms st)) as [st2|] eqn:E2; [|destruct B as [x ->]; rewrite E2; cbn; eauto].
      rewrite B. cbn [bind s_end s_items]. pose proof (emits_agree db l1 st2) as D.
      destruct (s_end (emits db l1 st2)) as [st3|]; [destruct D as [-> ->]; reflexivity|].
      destruct D as [x ->]. cbn. eauto.
    + destruct A as [x ->]. unfold agrees. rewrite E. cbn. eauto.
Qed.

Lemma stream_agree db t l : stream_items db t = Ok l <-> stream_run db t = Run l (Ok tt).
Proof.
  unfold stream_items, stream_run. pose proof (tree_agree db t sst_init) as A. unfold agrees in A.
  destruct (s_end (tree_run db sst_init t)) as [st|x].
  - rewrite A. cbn [bind]. split; intros E; injection E as <-; reflexivity.
  - destruct A as [y ->]. cbn [bind]. split; discriminate.
Qed.

(* ------------------------------------------------------------------ *)
(** the writer *)

Lemma reach_writes l e : exists b, serialize (appended (reach l e)) = Ok b.
Proof.
  induction l as [|i l [b IH]]; [exists []; reflexivity|]. cbn [reach]. destruct (bytes i) as [bi|] eqn:E.
  - cbn [appended serialize]. rewrite E, IH. cbn [bind]. eauto.
  - exists []. reflexivity.
Qed.

Lemma reach_prefix l e : exists r, l = appended (reach l e) ++ r /\
  (r = [] /\ finished (reach l e) = e \/
   exists i r' x, r = i :: r' /\ bytes i = Err x /\ finished (reach l e) = Err x).
Proof.
  induction l as [|i l [r [E D]]]; [exists []; auto|]. cbn [reach]. destruct (bytes i) as [bi|x] eqn:B.
  - exists r. cbn [appended finished app]. rewrite <- E. auto.
  - exists (i :: l). cbn [appended finished app]. split; auto. right. exists i, l, x. auto.
Qed.

Lemma reach_ok l e b : serialize l = Ok b -> reach l e = Run l e.
Proof.
  revert b. induction l as [|i l IH]; intros b; [reflexivity|]. cbn [serialize reach].
  destruct (bytes i) as [bi|]; [|discriminate]. cbn [bind]. destruct (serialize l) as [s|]; [|discriminate].
  intros _. rewrite (IH s eq_refl). reflexivity.
Qed.

Lemma reach_app a b e w : serialize a = Ok w ->
  reach (a ++ b) e = Run (a ++ appended (reach b e)) (finished (reach b e)).
Proof.
  revert w. induction a as [|i a IH]; intros w S; [cbn [app]; destruct (reach b e); reflexivity|].
  cbn [serialize] in S. destruct (bytes i) as [bi|] eqn:B; [|discriminate]. cbn [bind] in S.
  destruct (serialize a) as [s|]; [|discriminate]. cbn [app reach]. rewrite B, (IH s eq_refl). reflexivity.
Qed.

Lemma reach_iff l e b : finished (reach l e) = Ok tt /\ serialize (appended (reach l e)) = Ok b <->
  e = Ok tt /\ serialize l = Ok b.
Proof.
  split.
  - intros [F S]. destruct (reach_prefix l e) as [r [E [[-> D]|[i [r' [x [-> [_ D]]]]]]]]; [|congruence].
    rewrite app_nil_r in E. split; [congruence|]. rewrite E. exact S.
  - intros [-> S]. rewrite (reach_ok l _ b S). auto.
Qed.

Lemma through_ok p l : through p (Run l (Ok tt)) = Run (run_pass p l) (Ok tt).
Proof. unfold through, run_pass. cbn [appended finished]. destruct (feed p (p_init p) l). reflexivity. Qed.

Lemma compile_agree db opt t b :
  finished (compile_run db opt t) = Ok tt /\ serialize (appended (compile_run db opt t)) = Ok b <->
  compile db opt t = Ok b.
Proof.
  unfold compile_run, written. rewrite reach_iff.
  assert (F : finished (if opt then through (optimizer_new db sink 0 100) (stream_run db t) else stream_run db t) =
    finished (stream_run db t)) by (destruct opt; reflexivity).
  rewrite F. split.
  - intros [E S]. destruct (stream_run db t) as [l e] eqn:R. cbn [finished] in *. subst e.
    unfold compile. rewrite (proj2 (stream_agree db t l) R). cbn [bind]. destruct opt; [|exact S].
    rewrite through_ok in S. exact S.
  - unfold compile. destruct (stream_items db t) as [l|] eqn:E; [|discriminate]. cbn [bind]. intros S.
    apply stream_agree in E. rewrite E. split; [reflexivity|]. destruct opt; [rewrite through_ok|]; exact S.
Qed.

Lemma convert_agree db b out :
  finished (convert_run db false b) = Ok tt /\ serialize (appended (convert_run db false b)) = Ok out <->
  convert db b = Ok out.
Proof.
  unfold convert_run, written, convert. rewrite reach_iff. split.
  - intros [-> ->]. reflexivity.
  - destruct (serialize _) as [s|]; [|discriminate]. cbn [bind]. destruct (finished _) as [[]|]; [|discriminate].
    intros E. injection E as <-. auto.
Qed.

(* ------------------------------------------------------------------ *)
(** what precedes is kept *)

Lemma members_app db a : forall b st, members_run db (a ++ b) st = after (members_run db a st) (members_run db b).
Proof.
  induction a as [|m a IH]; intros b st.
  - unfold after. cbn. destruct (members_run db b st); reflexivity.
  - cbn [app]. rewrite !members_cons. unfold after at 1 3. destruct (s_end (tree_run db st m)) as [st1|] eqn:E.
    + rewrite IH. unfold after. cbn [s_end s_items]. destruct (s_end (members_run db a st1)) eqn:E1; cbn [s_items s_end]; [rewrite app_assoc; reflexivity|].
      rewrite E1. reflexivity.
    + unfold after. rewrite E. reflexivity.
Qed.

Lemma after_prefix r f : exists l, s_items (after r f) = s_items r ++ l.
Proof. unfold after. destruct (s_end r); [eexists; reflexivity|exists []; rewrite app_nil_r; reflexivity]. Qed.

Lemma c85_members db a b w : compile db false (TTop a) = Ok w ->
  exists w', serialize (appended (compile_run db false (TTop (a ++ b)))) = Ok (w ++ w').
Proof.
  intros H. unfold compile in H. destruct (stream_items db (TTop a)) as [l|] eqn:E; [|discriminate]. cbn [bind] in H.
  apply stream_agree in E. unfold compile_run, written.
  assert (P : exists l', appended (stream_run db (TTop (a ++ b))) = l ++ l').
  { unfold stream_run in *. cbn [appended] in *. rewrite run_top, members_app. rewrite run_top in E.
    destruct (after_prefix (members_run db a sst_init) (members_run db b)) as [l' ->]. exists l'. injection E as -> _. reflexivity. }
  destruct P as [l' ->]. rewrite (reach_app l l' _ w H). cbn [appended].
  destruct (reach_writes l' (finished (stream_run db (TTop (a ++ b))))) as [w' W]. exists w'.
  clear -H W. revert w H. induction l as [|i l IH]; intros w H.
  - injection H as <-. exact W.
  - cbn [serialize app] in *. destruct (bytes i) as [bi|]; [|discriminate]. cbn [bind] in *.
    destruct (serialize l) as [s|]; [|discriminate]. cbn [bind] in *. injection H as <-. rewrite (IH s eq_refl). cbn [bind].
    rewrite app_assoc. reflexivity.
Qed.
