(* ComposeProofs.v -- the Streamer on trees with reports of their own *)
From Coq Require Import ZifyBool ZifyNat.
From Verif Require Import Py Usage Item Parser Optimizer Descriptor HidSpec Spec ItemFacts ParserFacts
  CodecProofs StreamSpec StreamProofs StreamTree ComposeSpec.
Local Open Scope list_scope. Local Open Scope Z_scope.

(** the reports seen by the leaves *)
Definition at_report (w r : Z) (ls : list leaf) : Prop := exists v, In (LVal r v) ls /\ py_int (v_way v) = w.

Lemma at_app w r a b : at_report w r (a ++ b) <-> at_report w r a \/ at_report w r b.
Proof.
  split.
  - intros [v [I E]]. apply in_app_iff in I. destruct I; [left|right]; exists v; auto.
  - intros [[v [I E]]|[v [I E]]]; exists v; rewrite in_app_iff; auto.
Qed.

Lemma entered_length t : forall r r', length (fst (entered r t)) = length (fst (entered r' t)).
Proof.
  assert (ALL : forall ms, Forall (fun t => forall r r', length (fst (entered r t)) = length (fst (entered r' t))) ms ->
    forall r r', length (fst (entered_all r ms)) = length (fst (entered_all r' ms))).
  { induction 1 as [|m ms H _ IH]; intros r r'; [reflexivity|]. cbn [entered_all].
    specialize (H r r'). destruct (entered r m) as [a ra], (entered r' m) as [b rb]. cbn [fst] in H.
    specialize (IH ra rb). destruct (entered_all ra ms), (entered_all rb ms). cbn [fst] in *. rewrite !app_length. lia. }
  induction t as [v|id ms IH|ms IH|k u ms IH] using tree_rect2; intros r r'; [reflexivity|..].
  - rewrite !entered_report. reflexivity.
  - rewrite !entered_top. auto.
  - rewrite !entered_coll. specialize (ALL ms IH r r'). destruct (entered_all r ms), (entered_all r' ms). cbn [fst length] in *.
    rewrite !app_length. lia.
Qed.

Definition zeros (st st' : sst) (st2 st2' : sst) : Prop :=
  forall w k, s_size st2' w k - s_size st2 w k = s_size st' w k - s_size st w k.

(** what streaming needs of the state, and what it does to it *)
Definition agree (ls : list leaf) (st st2 : sst) : Prop :=
  forall w r j, at_report w r ls -> rs_key w r = Ok j -> s_size st w j = s_size st2 w j.

Lemma rs_add_rid st w n st' : rs_add st w n = Ok st' -> s_rid st' = s_rid st.
Proof. unfold rs_add. destruct (rs_key w (s_rid st)); [|discriminate]. cbn [bind]. intros [= <-]. reflexivity. Qed.

Lemma rs_add_same st st2 w n st' : s_rid st = s_rid st2 -> rs_add st w n = Ok st' ->
  exists st2', rs_add st2 w n = Ok st2' /\ zeros st st' st2 st2' /\ s_rid st2' = s_rid st2.
Proof.
  intros R H. unfold rs_add in *. rewrite <- R. destruct (rs_key w (s_rid st)) as [j|]; [|discriminate]. cbn [bind] in *.
  injection H as <-. eexists. split; [reflexivity|]. split; [|reflexivity]. intros w' k. cbn [s_size].
  destruct ((w' =? w) && (k =? j)); lia.
Qed.

Lemma zeros_refl a b : zeros a a b b.
Proof. intros w k. lia. Qed.

Lemma zeros_trans a b c a2 b2 c2 : zeros a b a2 b2 -> zeros b c b2 c2 -> zeros a c a2 c2.
Proof. intros H1 H2 w k. specialize (H1 w k). specialize (H2 w k). lia. Qed.

Lemma agree_zeros ls st st' st2 st2' : agree ls st st2 -> zeros st st' st2 st2' -> agree ls st' st2'.
Proof. intros A Z w r j I K. specialize (A w r j I K). specialize (Z w j). lia. Qed.

Lemma element_same db st st2 v st' o : s_rid st = s_rid st2 -> agree [LVal (s_rid st) v] st st2 ->
  element db st v = Ok (st', o) ->
  exists st2', element db st2 v = Ok (st2', o) /\ zeros st st' st2 st2' /\ s_rid st2' = s_rid st2 /\ s_rid st' = s_rid st.
Proof.
  intros R A H. unfold element in *. cbv zeta in *. set (w := py_int (v_way v)) in *.
  set (al := match v_kind v with KValue => v_align v | KAlign b => b | KPadding => 0 end) in *.
  set (p0 := match v_kind v with KPadding => v_size v | _ => 0 end) in *.
  assert (P : (if 1 <? al then let* j := rs_key w (s_rid st2) in Ok (if s_size st2 w j mod al =? 0 then 0 else al - s_size st2 w j mod al) else Ok p0)
            = (if 1 <? al then let* j := rs_key w (s_rid st) in Ok (if s_size st w j mod al =? 0 then 0 else al - s_size st w j mod al) else Ok p0)).
  { rewrite <- R. destruct (1 <? al); [|reflexivity]. destruct (rs_key w (s_rid st)) as [j|] eqn:K; [|reflexivity]. cbn [bind].
    rewrite (A w (s_rid st) j); [reflexivity|exists v; split; [left|]; reflexivity|exact K]. }
  rewrite P. clear P.
  destruct (if 1 <? al then _ else _) as [pad|] in *; [|discriminate]. cbn [bind] in *.
  match type of H with bind ?r _ = _ => destruct r as [[st1 out1]|] eqn:O1; [|discriminate] end. cbn [bind] in H.
  assert (X : exists st21, (if pad =? 0 then Ok (st2, []) else
       let* st1 := rs_add st2 w pad in
       let* c := main_class w in
       let* o := mk_items db [(ReportCount, Some (VInt 1)); (ReportSize, Some (VInt pad)); (c, Some (VInt 3))] in
       Ok (st1, o)) = Ok (st21, out1) /\ zeros st st1 st2 st21 /\ s_rid st21 = s_rid st2 /\ s_rid st1 = s_rid st).
  { destruct (pad =? 0).
    - injection O1 as <- <-. exists st2. split; [reflexivity|]. split; [apply zeros_refl|]. auto.
    - destruct (rs_add st w pad) as [s1|] eqn:RA; [|discriminate]. cbn [bind] in O1.
      destruct (rs_add_same _ _ _ _ _ R RA) as [s21 [E1 [E2 E3]]]. rewrite E1. cbn [bind].
      destruct (main_class w) as [c|]; [|discriminate]. cbn [bind] in *.
      destruct (mk_items db _) as [o1|]; [|discriminate]. cbn [bind] in *. injection O1 as <- <-.
      exists s21. split; [reflexivity|]. split; [exact E2|]. split; [exact E3|]. eapply rs_add_rid; eauto. }
  destruct X as [st21 [-> [Z [R1 R2]]]]. cbn [bind]. clear O1.
  assert (R' : s_rid st1 = s_rid st21) by congruence.
  destruct (v_kind v).
  - destruct (narr_truthy (v_named v)) as [nm|]; [|discriminate]. cbn [bind] in *.
    destruct (rs_add st1 w (v_size v)) as [s2|] eqn:RA; [|discriminate]. cbn [bind] in H.
    destruct (rs_add_same _ _ _ _ _ R' RA) as [s22 [E1 [E2 E3]]]. rewrite E1. cbn [bind].
    destruct (main_class w) as [c|]; [|discriminate]. cbn [bind] in *.
    destruct (mk_items db _) as [o1|]; [|discriminate]. cbn [bind] in *. injection H as <- <-.
    exists s22. split; [reflexivity|]. split; [eapply zeros_trans; eauto|]. split; [congruence|]. rewrite <- R2. eapply rs_add_rid; eauto.
  - injection H as <- <-. exists st21. auto.
  - injection H as <- <-. exists st21. auto.
Qed.

Definition same_run (t : sst -> result (sst * list item)) (en : Z -> list leaf * Z) : Prop :=
  forall st st2 st' o, fst (en (s_rid st)) = fst (en (s_rid st2)) -> agree (fst (en (s_rid st))) st st2 ->
    t st = Ok (st', o) ->
    exists st2', t st2 = Ok (st2', o) /\ zeros st st' st2 st2' /\ s_rid st' = snd (en (s_rid st)) /\ s_rid st2' = snd (en (s_rid st2)).

Lemma same_members db ms : Forall (fun m => same_run (fun st => stream_tree db st m) (fun r => entered r m)) ms ->
  same_run (fun st => stream_members db st ms) (fun r => entered_all r ms).
Proof.
  induction 1 as [|m ms H _ IH]; intros st st2 st' o E A S; cbn [stream_members entered_all] in *.
  - injection S as <- <-. exists st2. split; [reflexivity|]. split; [apply zeros_refl|]. auto.
  - destruct (stream_tree db st m) as [[s1 o1]|] eqn:S1; [|discriminate]. cbn [bind] in S.
    destruct (stream_members db s1 ms) as [[s2 o2]|] eqn:S2; [|discriminate]. cbn [bind] in S. injection S as <- <-.
    pose proof (entered_length m (s_rid st) (s_rid st2)) as L.
    specialize (H st st2 s1 o1).
    destruct (entered (s_rid st) m) as [a ra], (entered (s_rid st2) m) as [b rb]. cbn [fst snd] in *.
    destruct (entered_all ra ms) as [a' ra'] eqn:EA, (entered_all rb ms) as [b' rb'] eqn:EB. cbn [fst snd] in *.
    assert (X : a = b /\ a' = b').
    { clear - E L. revert b E L. induction a as [|x a IH]; intros [|y b] E L; try discriminate L; [split; [reflexivity|exact E]|].
      injection E as -> E. injection L as L. destruct (IH b E L) as [-> ->]. auto. }
    destruct X as [<- <-].
    destruct H as [s21 [T1 [Z1 [R1 R1']]]]; [reflexivity|intros w r j I K; apply (A w r j); auto; apply at_app; auto|exact S1|].
    rewrite T1. cbn [bind].
    destruct (IH s1 s21 s2 o2) as [s22 [T2 [Z2 [R2 R2']]]].
    + rewrite R1, R1', EA, EB. reflexivity.
    + rewrite R1, EA. cbn [fst]. eapply agree_zeros; [|exact Z1]. intros w r j I K. apply (A w r j); auto. apply at_app. auto.
    + exact S2.
    + rewrite T2. cbn [bind]. exists s22. split; [reflexivity|]. split; [eapply zeros_trans; eauto|].
      rewrite R1 in R2. rewrite R1' in R2'. rewrite EA in R2. rewrite EB in R2'. auto.
Qed.

Lemma same_tree db t : same_run (fun st => stream_tree db st t) (fun r => entered r t).
Proof.
  induction t as [v|id ms F|ms F|k u ms F] using tree_rect2.
  - intros st st2 st' o E A S. cbn [entered fst] in *. injection E as E.
    destruct (element_same db st st2 v st' o E A S) as [st2' [T [Z [R1 R2]]]]. exists st2'. cbn [snd]. auto.
  - intros st st2 st' o E A S. cbv beta in *. rewrite !entered_report in *. rewrite stream_report in *.
    destruct (if id =? 0 then _ else _) as [o0|]; [|discriminate]. cbn [bind] in *.
    destruct (stream_members db (SST id (s_size st)) ms) as [[s1 o1]|] eqn:S1; [|discriminate]. cbn [bind] in S. injection S as <- <-.
    destruct (same_members db ms F (SST id (s_size st)) (SST id (s_size st2)) s1 o1) as [s2 [T [Z [R1 R2]]]]; auto.
    rewrite T. exists s2. split; [reflexivity|]. auto.
  - intros st st2 st' o E A S. cbv beta in *. rewrite !entered_top in *. rewrite stream_top in *.
    apply (same_members db ms F); auto.
  - intros st st2 st' o E A S. cbv beta in *. rewrite !entered_coll in *. rewrite stream_coll in *.
    destruct (mk_items db [(Usage, u); (Collection, Some k)]) as [o0|]; [|discriminate]. cbn [bind] in *.
    destruct (stream_members db st ms) as [[s1 o1]|] eqn:S1; [|discriminate]. cbn [bind] in S.
    destruct (mk_items db [(EndCollection, Some (VInt 0))]) as [o2|]; [|discriminate]. cbn [bind] in *. injection S as <- <-.
    pose proof (same_members db ms F st st2 s1 o1) as X. cbv beta in X.
    destruct (entered_all (s_rid st) ms) as [a ra], (entered_all (s_rid st2) ms) as [b rb]. cbn [fst snd] in *.
    injection E as E. apply app_inv_tail in E. subst b.
    destruct X as [s2 [T [Z [R1 R2]]]]; auto.
    { intros w r j I K. apply (A w r j); auto. destruct I as [v [I W]]. exists v. split; auto. right. apply in_app_iff. auto. }
    rewrite T. cbn [bind]. exists s2. split; [reflexivity|]. auto.
Qed.

(** ** what streaming leaves alone *)

Lemma element_only db st v st' o : element db st v = Ok (st', o) -> 0 <= s_rid st ->
  s_rid st' = s_rid st /\ forall w k, (w, k) <> (py_int (v_way v), s_rid st) -> s_size st' w k = s_size st w k.
Proof.
  intros H N.
  assert (AD : forall s w n s', rs_add s w n = Ok s' -> 0 <= s_rid s -> forall w' k, (w', k) <> (w, s_rid s) -> s_size s' w' k = s_size s w' k).
  { intros s w n s' RA NN w' k D. unfold rs_add in RA. destruct (rs_key w (s_rid s)) as [j|] eqn:K; [|discriminate]. cbn [bind] in RA. injection RA as <-.
    unfold rs_key in K. destruct ((w =? 8) || (w =? 9) || (w =? 11)); [|discriminate].
    replace (s_rid s <? 0) with false in K by lia. destruct ((s_rid s <? 0) || (256 <=? s_rid s)); [discriminate|]. injection K as <-.
    cbn [s_size]. destruct ((w' =? w) && (k =? s_rid s)) eqn:X; [|reflexivity].
    exfalso. apply D. f_equal; lia. }
  unfold element in H. cbv zeta in H. set (w := py_int (v_way v)) in *.
  match type of H with bind ?r _ = _ => destruct r as [pad|]; [|discriminate] end. cbn [bind] in H.
  match type of H with bind ?r _ = _ => destruct r as [[st1 out1]|] eqn:O1; [|discriminate] end. cbn [bind] in H.
  assert (X : s_rid st1 = s_rid st /\ forall w' k, (w', k) <> (w, s_rid st) -> s_size st1 w' k = s_size st w' k).
  { destruct (pad =? 0).
    - injection O1 as <- <-. auto.
    - destruct (rs_add st w pad) as [s1|] eqn:RA; [|discriminate]. cbn [bind] in O1.
      destruct (main_class w) as [c|]; [|discriminate]. cbn [bind] in *.
      destruct (mk_items db _) as [o1|]; [|discriminate]. cbn [bind] in *. injection O1 as <- <-.
      split; [eapply rs_add_rid; eauto|]. eapply AD; eauto. }
  destruct X as [R1 X]. clear O1. destruct (v_kind v).
  - destruct (narr_truthy (v_named v)) as [nm|]; [|discriminate]. cbn [bind] in *.
    destruct (rs_add st1 w (v_size v)) as [s2|] eqn:RA; [|discriminate]. cbn [bind] in H.
    destruct (main_class w) as [c|]; [|discriminate]. cbn [bind] in *.
    destruct (mk_items db _) as [o1|]; [|discriminate]. cbn [bind] in *. injection H as <- <-.
    split; [rewrite <- R1; eapply rs_add_rid; eauto|]. intros w' k D. rewrite <- (X w' k D).
    eapply AD; eauto; rewrite R1; auto.
  - injection H as <- <-. auto.
  - injection H as <- <-. auto.
Qed.

Definition only (t : sst -> result (sst * list item)) (en : Z -> list leaf * Z) : Prop :=
  forall st st' o, t st = Ok (st', o) -> 0 <= s_rid st ->
    0 <= s_rid st' /\ s_rid st' = snd (en (s_rid st)) /\
    Forall (fun x => match x with LVal r _ => 0 <= r | _ => True end) (fst (en (s_rid st))) /\
    forall w k, ~ at_report w k (fst (en (s_rid st))) -> s_size st' w k = s_size st w k.

Lemma only_members db ms : Forall (fun m => only (fun st => stream_tree db st m) (fun r => entered r m)) ms ->
  only (fun st => stream_members db st ms) (fun r => entered_all r ms).
Proof.
  induction 1 as [|m ms H _ IH]; intros st st' o S N; cbn [stream_members entered_all] in *.
  - injection S as <- <-. cbn. auto.
  - destruct (stream_tree db st m) as [[s1 o1]|] eqn:S1; [|discriminate]. cbn [bind] in S.
    destruct (stream_members db s1 ms) as [[s2 o2]|] eqn:S2; [|discriminate]. cbn [bind] in S. injection S as <- <-.
    destruct (H _ _ _ S1 N) as [N1 [R1 [F1 X1]]]. destruct (entered (s_rid st) m) as [a ra]. cbn [fst snd] in *. subst ra.
    destruct (IH _ _ _ S2 N1) as [N2 [R2 [F2 X2]]]. destruct (entered_all (s_rid s1) ms) as [b rb]. cbn [fst snd] in *.
    split; auto. split; auto. split; [apply Forall_app; auto|]. intros w k D. rewrite X2, X1; auto; intros Y; apply D, at_app; auto.
Qed.

Lemma only_tree db t : only (fun st => stream_tree db st t) (fun r => entered r t).
Proof.
  induction t as [v|id ms F|ms F|k u ms F] using tree_rect2.
  - intros st st' o S N. cbv beta in *. cbn [entered fst snd]. destruct (element_only db st v st' o S N) as [R X].
    split; [lia|]. split; auto. split; [constructor; auto|]. intros w k D. apply X. intros [= -> ->]. apply D. exists v. split; [left|]; reflexivity.
  - intros st st' o S N. cbv beta in *. rewrite entered_report. rewrite stream_report in S.
    destruct (if id =? 0 then _ else _) as [o0|] eqn:O0; [|discriminate]. cbn [bind] in *.
    destruct (stream_members db (SST id (s_size st)) ms) as [[s1 o1]|] eqn:S1; [|discriminate]. cbn [bind] in S. injection S as <- <-.
    assert (NN : 0 <= id).
    { destruct (id =? 0) eqn:Z0; [lia|]. pose proof (mk_items_nonneg db _ _ O0) as X.
      assert (Y : Forall req_ok [(ReportID, Some (VInt id))]) by repeat constructor.
      specialize (X Y). inversion X as [|? ? X1 _]. apply X1. reflexivity. }
    exact (only_members db ms F _ _ _ S1 NN).
  - intros st st' o S N. cbv beta in *. rewrite entered_top. rewrite stream_top in S. eapply only_members; eauto.
  - intros st st' o S N. cbv beta in *. rewrite entered_coll. rewrite stream_coll in S.
    destruct (mk_items db [(Usage, u); (Collection, Some k)]) as [o0|]; [|discriminate]. cbn [bind] in *.
    destruct (stream_members db st ms) as [[s1 o1]|] eqn:S1; [|discriminate]. cbn [bind] in S.
    destruct (mk_items db [(EndCollection, Some (VInt 0))]) as [o2|]; [|discriminate]. cbn [bind] in *. injection S as <- <-.
    destruct (only_members db ms F _ _ _ S1 N) as [N1 [R1 [F1 X1]]]. cbv beta in *.
    destruct (entered_all (s_rid st) ms) as [a ra]. cbn [fst snd] in *. split; auto. split; auto.
    split; [constructor; auto; apply Forall_app; split; auto|]. intros w k' D. apply X1. intros [v [I W]]. apply D. exists v. split; auto.
    right. apply in_app_iff. auto.
Qed.

(** ** C82 *)

Lemma members_app db ms1 ms2 : forall st, stream_members db st (ms1 ++ ms2) =
  let* (st1, o1) := stream_members db st ms1 in let* (st2, o2) := stream_members db st1 ms2 in Ok (st2, o1 ++ o2).
Proof.
  induction ms1 as [|m ms1 IH]; intros st; cbn [app stream_members].
  - cbn [bind]. destruct (stream_members db st ms2) as [[s o]|]; reflexivity.
  - destruct (stream_tree db st m) as [[s1 o1]|]; [|reflexivity]. cbn [bind]. rewrite IH.
    destruct (stream_members db s1 ms1) as [[s2 o2]|]; [|reflexivity]. cbn [bind].
    destruct (stream_members db s2 ms2) as [[s3 o3]|]; [|reflexivity]. cbn [bind]. rewrite app_assoc. reflexivity.
Qed.

Lemma serialize_both l1 l2 : serialize (l1 ++ l2) =
  let* a := serialize l1 in let* b := serialize l2 in Ok (a ++ b).
Proof.
  induction l1 as [|i l1 IH]; cbn [app serialize].
  - cbn [bind]. destruct (serialize l2); reflexivity.
  - destruct (bytes i) as [x|]; [|reflexivity]. cbn [bind]. rewrite IH. destruct (serialize l1) as [a|]; [|reflexivity]. cbn [bind].
    destruct (serialize l2) as [b|]; [|reflexivity]. cbn [bind]. rewrite app_assoc. reflexivity.
Qed.

Lemma key_id w r j : 0 <= r -> rs_key w r = Ok j -> j = r.
Proof.
  intros N K. unfold rs_key in K. destruct ((w =? 8) || (w =? 9) || (w =? 11)); [|discriminate].
  replace (r <? 0) with false in K by lia. destruct ((r <? 0) || (256 <=? r)); [discriminate|]. congruence.
Qed.

Lemma in_reports t w r : In (w, r) (reports_of t) <-> at_report w r (fst (entered 0 t)).
Proof.
  unfold reports_of, at_report. rewrite in_flat_map. split.
  - intros [x [I H]]. destruct x; cbn [In] in H; try contradiction. destruct H as [[= <- <-]|[]]. eauto.
  - intros [v [I E]]. exists (LVal r v). split; auto. left. congruence.
Qed.

Lemma c82_items db ms1 ms2 l : starts_reports (TTop ms2) -> apart (TTop ms1) (TTop ms2) ->
  stream_items db (TTop (ms1 ++ ms2)) = Ok l <->
  exists l1 l2, stream_items db (TTop ms1) = Ok l1 /\ stream_items db (TTop ms2) = Ok l2 /\ l = l1 ++ l2.
Proof.
  intros SR AP. unfold stream_items. rewrite !stream_top, members_app.
  destruct (stream_members db sst_init ms1) as [[st1 o1]|e] eqn:S1; cbn [bind].
  2:{ split; [discriminate|]. intros [l1 [l2 [H _]]]. discriminate H. }
  assert (T1 : stream_tree db sst_init (TTop ms1) = Ok (st1, o1)) by (rewrite stream_top; exact S1).
  destruct (only_tree db (TTop ms1) _ _ _ T1 ltac:(cbn; lia)) as [N1 [_ [_ U]]]. cbv beta in *. cbn [s_rid sst_init] in U.
  assert (EQ : forall r, fst (entered r (TTop ms2)) = fst (entered 0 (TTop ms2))) by exact SR.
  assert (Z : forall st2 o2, stream_members db st1 ms2 = Ok (st2, o2) \/ stream_members db sst_init ms2 = Ok (st2, o2) ->
     agree (fst (entered 0 (TTop ms2))) st1 sst_init).
  { intros st2 o2 S w r j I K.
    assert (NR : 0 <= r).
    { destruct I as [v [I _]]. rewrite <- stream_top in S. rewrite <- (stream_top db sst_init) in S. destruct S as [S|S].
      - destruct (only_tree db (TTop ms2) _ _ _ S N1) as [_ [_ [F _]]]. cbv beta in F. rewrite EQ in F. rewrite Forall_forall in F. exact (F _ I).
      - destruct (only_tree db (TTop ms2) _ _ _ S ltac:(cbn; lia)) as [_ [_ [F _]]]. cbv beta in F. rewrite EQ in F. rewrite Forall_forall in F. exact (F _ I). }
    pose proof (key_id w r j NR K) as ->. rewrite U; [reflexivity|].
    intros X. apply (AP (w, r)); apply in_reports; auto. }
  split.
  - intros H. destruct (stream_members db st1 ms2) as [[st2 o2]|] eqn:S2; [|discriminate]. cbn [bind] in H. injection H as <-.
    rewrite <- stream_top in S2.
    destruct (same_tree db (TTop ms2) st1 sst_init st2 o2) as [st' [T _]]; cbv beta; [etransitivity; [apply EQ|symmetry; apply EQ]| |exact S2|].
    + rewrite EQ. apply (Z st2 o2). left. reflexivity.
    + rewrite stream_top in T. rewrite T. cbn [bind]. eauto.
  - intros [l1 [l2 [H1 [H2 ->]]]]. injection H1 as <-.
    destruct (stream_members db sst_init ms2) as [[st2 o2]|] eqn:S2; [|discriminate]. cbn [bind] in H2. injection H2 as <-.
    rewrite <- stream_top in S2.
    destruct (same_tree db (TTop ms2) sst_init st1 st2 o2) as [st' [T _]]; cbv beta; [etransitivity; [apply EQ|symmetry; apply EQ]| |exact S2|].
    + rewrite EQ. intros w r j I K. symmetry. refine (Z st2 o2 (or_intror eq_refl) w r j I K).
    + rewrite stream_top in T. rewrite T. reflexivity.
Qed.

Lemma c82 db ms1 ms2 b : starts_reports (TTop ms2) -> apart (TTop ms1) (TTop ms2) ->
  compile db false (TTop (ms1 ++ ms2)) = Ok b <->
  exists b1 b2, compile db false (TTop ms1) = Ok b1 /\ compile db false (TTop ms2) = Ok b2 /\ b = b1 ++ b2.
Proof.
  intros SR AP. unfold compile. split.
  - intros H. destruct (stream_items db (TTop (ms1 ++ ms2))) as [l|] eqn:E; [|discriminate]. cbn [bind] in H.
    apply c82_items in E; auto. destruct E as [l1 [l2 [E1 [E2 ->]]]]. rewrite E1, E2. cbn [bind].
    rewrite serialize_both in H. destruct (serialize l1) as [b1|]; [|discriminate]. cbn [bind] in H.
    destruct (serialize l2) as [b2|]; [|discriminate]. injection H as <-. eauto.
  - intros [b1 [b2 [H1 [H2 ->]]]]. destruct (stream_items db (TTop ms1)) as [l1|] eqn:E1; [|discriminate]. cbn [bind] in H1.
    destruct (stream_items db (TTop ms2)) as [l2|] eqn:E2; [|discriminate]. cbn [bind] in H2.
    rewrite (proj2 (c82_items db ms1 ms2 (l1 ++ l2) SR AP)) by eauto. cbn [bind]. rewrite serialize_both, H1, H2. reflexivity.
Qed.
