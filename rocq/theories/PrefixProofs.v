(* PrefixProofs.v -- proofs about trees that go on where another one stops *)
From Coq Require Import ZArith List Bool Lia ZifyBool ZifyNat String.
From Verif Require Import Py Usage Item Parser Optimizer Descriptor HidSpec Spec StreamSpec ItemFacts ParserFacts StreamProofs StreamTree
  ComposeProofs PrefixSpec.
Import ListNotations.
Local Open Scope list_scope.
Local Open Scope Z_scope.

Definition closer (i : item) : Prop := bytes i = Ok [0xc0].

Lemma end_closer db o : mk_items db [(EndCollection, Some (VInt 0))] = Ok o -> exists i, o = [i] /\ closer i.
Proof. intros H. vm_compute in H. injection H as <-. eexists. split; [reflexivity|]. vm_compute. reflexivity. Qed.

(** the items of the shorter tree but for the ends of collections *)
Definition begins (n : nat) (o o' : list item) : Prop := exists p c q, o = p ++ c /\ Forall closer c /\ length c = n /\ o' = p ++ q.

Lemma begins_more a o r : begins 0 (a ++ o) (a ++ o ++ r).
Proof. exists (a ++ o), [], r. rewrite app_nil_r, app_assoc. repeat split; auto. Qed.

Lemma begins_in n a o o' c r : begins n o o' -> Forall closer c -> begins (length c + n) (a ++ o ++ c) (a ++ o' ++ r).
Proof.
  intros [p [e [q [-> [F [L ->]]]]]] C. exists (a ++ p), (e ++ c), (q ++ r). rewrite <- !app_assoc. repeat split; auto.
  - apply Forall_app. auto.
  - rewrite app_length. lia.
Qed.

(** runs of the Streamer *)
Lemma run_app db st ms ns st' o : stream_members db st (ms ++ ns) = Ok (st', o) ->
  exists st1 o1 o2, stream_members db st ms = Ok (st1, o1) /\ stream_members db st1 ns = Ok (st', o2) /\ o = o1 ++ o2.
Proof.
  intros H. rewrite members_app in H. destruct (stream_members db st ms) as [[st1 o1]|e]; [|discriminate H]. cbn [bind] in H.
  destruct (stream_members db st1 ns) as [[st2 o2]|e] eqn:E; [|discriminate H]. cbn [bind] in H. injection H as <- <-. exists st1, o1, o2. auto.
Qed.

Lemma run_cons db st m ns st' o : stream_members db st (m :: ns) = Ok (st', o) ->
  exists st1 o1 o2, stream_tree db st m = Ok (st1, o1) /\ stream_members db st1 ns = Ok (st', o2) /\ o = o1 ++ o2.
Proof.
  intros H. cbn [stream_members] in H. destruct (stream_tree db st m) as [[st1 o1]|e]; [|discriminate H]. cbn [bind] in H.
  destruct (stream_members db st1 ns) as [[st2 o2]|e] eqn:E; [|discriminate H]. cbn [bind] in H. injection H as <- <-. exists st1, o1, o2. auto.
Qed.

Definition kept (n : nat) (t t' : tree) : Prop := forall db st st1 o1 st2 o2,
  stream_tree db st t = Ok (st1, o1) -> stream_tree db st t' = Ok (st2, o2) -> begins n o1 o2.

Lemma kept_more ms ns db st st1 o1 st2 o2 : stream_members db st ms = Ok (st1, o1) -> stream_members db st (ms ++ ns) = Ok (st2, o2) ->
  exists r, o2 = o1 ++ r.
Proof. intros A B. destruct (run_app _ _ _ _ _ _ B) as [s [x [y [E [_ ->]]]]]. rewrite A in E. injection E as <- <-. eauto. Qed.

Lemma kept_in n ms m m' ns db st st1 o1 st2 o2 : kept n m m' -> stream_members db st (ms ++ [m]) = Ok (st1, o1) -> stream_members db st (ms ++ m' :: ns) = Ok (st2, o2) ->
  exists a x y r, o1 = a ++ x /\ o2 = a ++ y ++ r /\ begins n x y.
Proof.
  intros K A B. destruct (run_app _ _ _ _ _ _ A) as [s [a [z [E [A1 ->]]]]]. destruct (run_app _ _ _ _ _ _ B) as [s' [a' [z' [E' [B1 ->]]]]].
  rewrite E in E'. injection E' as <- <-. destruct (run_cons _ _ _ _ _ _ A1) as [s1 [x [w [A2 [A3 ->]]]]]. cbn [stream_members] in A3. injection A3 as <- <-.
  destruct (run_cons _ _ _ _ _ _ B1) as [s2 [y [r [B2 [_ ->]]]]]. exists a, x, y, r. rewrite app_nil_r. repeat split; eauto.
Qed.

Lemma goes_kept n t t' : goes_on n t t' -> kept n t t'.
Proof.
  induction 1 as [t|ms ns|n ms m m' ns _ K|id ms ns|n id ms m m' ns _ K|k u ms ns|n k u ms m m' ns _ K]; intros db st st1 o1 st2 o2 A B.
  - rewrite A in B. injection B as <- <-. exists o1, [], []. rewrite app_nil_r. auto.
  - rewrite stream_top in A, B. destruct (kept_more _ _ _ _ _ _ _ _ A B) as [r ->]. apply (begins_more []).
  - rewrite stream_top in A, B. destruct (kept_in _ _ _ _ _ _ _ _ _ _ _ K A B) as [a [x [y [r [-> [-> G]]]]]].
    rewrite <- (app_nil_r x). apply (begins_in n a x y []); [exact G|constructor].
  - rewrite stream_report in A, B. destruct (if id =? 0 then _ else _) as [o|]; [|discriminate A]. cbn [bind] in A, B.
    destruct (stream_members db (SST id (s_size st)) ms) as [[s1 x]|] eqn:E1; [|discriminate A]. destruct (stream_members db (SST id (s_size st)) (ms ++ ns)) as [[s2 y]|] eqn:E2; [|discriminate B].
    cbn [bind] in A, B. injection A as <- <-. injection B as <- <-. destruct (kept_more _ _ _ _ _ _ _ _ E1 E2) as [r ->]. apply begins_more.
  - rewrite stream_report in A, B. destruct (if id =? 0 then _ else _) as [o|]; [|discriminate A]. cbn [bind] in A, B.
    destruct (stream_members db (SST id (s_size st)) (ms ++ [m])) as [[s1 x]|] eqn:E1; [|discriminate A]. destruct (stream_members db (SST id (s_size st)) (ms ++ m' :: ns)) as [[s2 y]|] eqn:E2; [|discriminate B].
    cbn [bind] in A, B. injection A as <- <-. injection B as <- <-. destruct (kept_in _ _ _ _ _ _ _ _ _ _ _ K E1 E2) as [a [x' [y' [r [-> [-> G]]]]]].
    replace (o ++ a ++ x') with ((o ++ a) ++ x' ++ []) by (rewrite app_nil_r, <- app_assoc; reflexivity).
    replace (o ++ a ++ y' ++ r) with ((o ++ a) ++ y' ++ r) by (rewrite <- app_assoc; reflexivity).
    apply (begins_in n (o ++ a) x' y' []); [exact G|constructor].
  - rewrite stream_coll in A, B. destruct (mk_items db [(Usage, u); (Collection, Some k)]) as [o|]; [|discriminate A]. cbn [bind] in A, B.
    destruct (stream_members db st ms) as [[s1 x]|] eqn:E1; [|discriminate A]. destruct (stream_members db st (ms ++ ns)) as [[s2 y]|] eqn:E2; [|discriminate B].
    cbn [bind] in A, B. destruct (mk_items db [(EndCollection, Some (VInt 0))]) as [e|] eqn:EE; [|discriminate A]. cbn [bind] in A, B.
    destruct (end_closer _ _ EE) as [i [-> CI]]. injection A as <- <-. injection B as <- <-. destruct (kept_more _ _ _ _ _ _ _ _ E1 E2) as [r ->].
    exists (o ++ x), [i], (r ++ [i]). rewrite <- !app_assoc. repeat split; auto.
  - rewrite stream_coll in A, B. destruct (mk_items db [(Usage, u); (Collection, Some k)]) as [o|]; [|discriminate A]. cbn [bind] in A, B.
    destruct (stream_members db st (ms ++ [m])) as [[s1 x]|] eqn:E1; [|discriminate A]. destruct (stream_members db st (ms ++ m' :: ns)) as [[s2 y]|] eqn:E2; [|discriminate B].
    cbn [bind] in A, B. destruct (mk_items db [(EndCollection, Some (VInt 0))]) as [e|] eqn:EE; [|discriminate A]. cbn [bind] in A, B.
    destruct (end_closer _ _ EE) as [i [-> CI]]. injection A as <- <-. injection B as <- <-. destruct (kept_in _ _ _ _ _ _ _ _ _ _ _ K E1 E2) as [a [x' [y' [r [-> [-> G]]]]]].
    replace (o ++ (a ++ x') ++ [i]) with ((o ++ a) ++ x' ++ [i]) by (rewrite <- !app_assoc; reflexivity).
    replace (o ++ (a ++ y' ++ r) ++ [i]) with ((o ++ a) ++ y' ++ (r ++ [i])) by (rewrite <- !app_assoc; reflexivity).
    apply (begins_in n (o ++ a) x' y' [i]); [exact G|repeat constructor; exact CI].
Qed.

Lemma ser_app a b x : serialize (a ++ b) = Ok x -> exists y z, serialize a = Ok y /\ serialize b = Ok z /\ x = y ++ z.
Proof.
  revert x. induction a as [|i a IH]; intros x H; cbn [app serialize] in *; [exists [], x; auto|].
  destruct (bytes i) as [c|]; [|discriminate H]. cbn [bind] in *. destruct (serialize (a ++ b)) as [s|]; [|discriminate H]. cbn [bind] in H. injection H as <-.
  destruct (IH s eq_refl) as [y [z [-> [Z ->]]]]. cbn [bind]. exists (c ++ y), z. rewrite app_assoc. auto.
Qed.

Lemma ser_closers c : Forall closer c -> serialize c = Ok (repeat 0xc0 (length c)).
Proof. induction 1 as [|i c H _ IH]; [reflexivity|]. cbn [serialize length repeat]. rewrite H, IH. reflexivity. Qed.

Lemma c101 db n t t' b b' : goes_on n t t' -> compile db false t = Ok b -> compile db false t' = Ok b' ->
  exists p q, b = p ++ repeat 0xc0 n /\ b' = p ++ q.
Proof.
  intros G C C'. unfold compile, stream_items in *. destruct (stream_tree db sst_init t) as [[s1 o1]|] eqn:E1; [|discriminate C].
  destruct (stream_tree db sst_init t') as [[s2 o2]|] eqn:E2; [|discriminate C']. cbn [bind] in C, C'.
  destruct (goes_kept n t t' G _ _ _ _ _ _ E1 E2) as [p [c [q [-> [F [L ->]]]]]].
  destruct (ser_app _ _ _ C) as [x [y [X [Y ->]]]]. destruct (ser_app _ _ _ C') as [x' [y' [X' [_ ->]]]]. rewrite X in X'. injection X' as <-.
  rewrite (ser_closers c F) in Y. injection Y as <-. rewrite L. exists x, y'. auto.
Qed.

(** the shorter tree compiles *)
Definition runs (t t' : tree) : Prop := forall db st st2 o2, stream_tree db st t' = Ok (st2, o2) -> exists st1 o1, stream_tree db st t = Ok (st1, o1).

Lemma runs_more ms ns db st st2 o2 : stream_members db st (ms ++ ns) = Ok (st2, o2) -> exists st1 o1, stream_members db st ms = Ok (st1, o1).
Proof. intros B. destruct (run_app _ _ _ _ _ _ B) as [s [x [_ [E _]]]]. eauto. Qed.

Lemma runs_in ms m m' ns db st st2 o2 : runs m m' -> stream_members db st (ms ++ m' :: ns) = Ok (st2, o2) ->
  exists st1 o1, stream_members db st (ms ++ [m]) = Ok (st1, o1).
Proof.
  intros K B. destruct (run_app _ _ _ _ _ _ B) as [s [x [y [E [B1 _]]]]]. destruct (run_cons _ _ _ _ _ _ B1) as [s1 [z [_ [B2 _]]]].
  destruct (K _ _ _ _ B2) as [s3 [w W]]. rewrite members_app, E. cbn [bind stream_members]. rewrite W. cbn [bind]. eauto.
Qed.

Lemma goes_runs n t t' : goes_on n t t' -> runs t t'.
Proof.
  induction 1 as [t|ms ns|n ms m m' ns _ K|id ms ns|n id ms m m' ns _ K|k u ms ns|n k u ms m m' ns _ K]; intros db st st2 o2 B.
  - eauto.
  - rewrite stream_top in *. eapply runs_more; eauto.
  - rewrite stream_top in *. eapply runs_in; eauto.
  - rewrite stream_report in *. destruct (if id =? 0 then _ else _) as [o|]; [|discriminate B]. cbn [bind] in *.
    destruct (stream_members db (SST id (s_size st)) (ms ++ ns)) as [[s2 y]|] eqn:E2; [|discriminate B].
    destruct (runs_more _ _ _ _ _ _ E2) as [s [x ->]]. cbn [bind]. eauto.
  - rewrite stream_report in *. destruct (if id =? 0 then _ else _) as [o|]; [|discriminate B]. cbn [bind] in *.
    destruct (stream_members db (SST id (s_size st)) (ms ++ m' :: ns)) as [[s2 y]|] eqn:E2; [|discriminate B].
    destruct (runs_in _ _ _ _ _ _ _ _ K E2) as [s [x ->]]. cbn [bind]. eauto.
  - rewrite stream_coll in *. destruct (mk_items db [(Usage, u); (Collection, Some k)]) as [o|]; [|discriminate B]. cbn [bind] in *.
    destruct (stream_members db st (ms ++ ns)) as [[s2 y]|] eqn:E2; [|discriminate B]. destruct (runs_more _ _ _ _ _ _ E2) as [s [x ->]]. cbn [bind] in *.
    destruct (mk_items db [(EndCollection, Some (VInt 0))]) as [e|]; [|discriminate B]. cbn [bind]. eauto.
  - rewrite stream_coll in *. destruct (mk_items db [(Usage, u); (Collection, Some k)]) as [o|]; [|discriminate B]. cbn [bind] in *.
    destruct (stream_members db st (ms ++ m' :: ns)) as [[s2 y]|] eqn:E2; [|discriminate B]. destruct (runs_in _ _ _ _ _ _ _ _ K E2) as [s [x ->]]. cbn [bind] in *.
    destruct (mk_items db [(EndCollection, Some (VInt 0))]) as [e|]; [|discriminate B]. cbn [bind]. eauto.
Qed.

Lemma c101_compiles db n t t' b' : goes_on n t t' -> compile db false t' = Ok b' ->
  exists p q, compile db false t = Ok (p ++ repeat 0xc0 n) /\ b' = p ++ q.
Proof.
  intros G C'. assert (X : exists b, compile db false t = Ok b).
  { unfold compile, stream_items in *. destruct (stream_tree db sst_init t') as [[s2 o2]|] eqn:E2; [|discriminate C'].
    destruct (goes_runs n t t' G _ _ _ _ E2) as [s1 [o1 E1]]. rewrite E1. cbn [bind] in *.
    destruct (goes_kept n t t' G _ _ _ _ _ _ E1 E2) as [p [c [q [-> [F [L ->]]]]]].
    destruct (ser_app _ _ _ C') as [x [y [X [_ _]]]]. rewrite serialize_both, X, (ser_closers c F). cbn [bind]. eauto. }
  destruct X as [b C]. destruct (c101 db n t t' b b' G C C') as [p [q [-> E]]]. exists p, q. auto.
Qed.
