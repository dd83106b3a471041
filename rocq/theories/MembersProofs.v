(* MembersProofs.v -- C88. *)
From Coq Require Import Lia ZifyBool.
From Verif Require Import Py Descriptor Members MembersSpec.
Local Open Scope list_scope.
Local Open Scope Z_scope.

Definition as_option (c : call_on) : option tree := match c with Append m => Some m | Pop => None end.

Lemma removelast_snoc {A} (l : list A) x : removelast (l ++ [x]) = l.
Proof. rewrite removelast_app by discriminate. apply app_nil_r. Qed.

Lemma container_call b c ms : container b ->
  t_call c (b ms) = match c with
                    | Append m => Ok (b (ms ++ [m]))
                    | Pop => match ms with [] => Err IndexError | _ => Ok (b (removelast ms)) end
                    end.
Proof. destruct 1, c; try reflexivity; destruct ms; reflexivity. Qed.

Lemma calls_app cs ds t : calls (cs ++ ds) t = let* t' := calls cs t in calls ds t'.
Proof.
  revert t. induction cs as [|c cs IH]; intros t; [reflexivity|]. cbn [calls app].
  destruct (t_call c t); cbn [bind]; [apply IH|reflexivity].
Qed.

Lemma map_split {A B} (f : A -> B) l : forall u v, map f l = u ++ v ->
  exists a b, l = a ++ b /\ map f a = u /\ map f b = v.
Proof.
  intros u. revert l. induction u as [|x u IH]; intros l v E; [exists [], l; auto|].
  destruct l as [|y l]; [discriminate|]. injection E as <- E.
  destruct (IH _ _ E) as [a [b [-> [<- <-]]]]. exists (y :: a), b. auto.
Qed.

Lemma undone_calls b w : container b -> undone w -> forall cs ms, map as_option cs = w ->
  calls cs (b ms) = Ok (b ms).
Proof.
  intros C. induction 1 as [|m u v _ IHu _ IHv]; intros cs ms E.
  - apply map_eq_nil in E. subst. reflexivity.
  - destruct cs as [|c cs]; [discriminate|]. cbn [map] in E. injection E as Ec E.
    destruct c as [m'|]; [|discriminate]. injection Ec as ->.
    destruct (map_split _ _ _ _ E) as [x [y [-> [X Y]]]].
    destruct y as [|d y]; [discriminate|]. cbn [map] in Y. injection Y as Yd Y. destruct d; [discriminate|].
    cbn [calls]. rewrite container_call by exact C. cbn [bind]. rewrite calls_app, (IHu _ _ X). cbn [bind calls].
    rewrite container_call by exact C.
    destruct (ms ++ [m]) eqn:Q; [destruct ms; discriminate|]. rewrite <- Q, removelast_snoc. cbn [bind].
    apply IHv. exact Y.
Qed.

Lemma leaves_calls b w l : container b -> leaves w l -> forall cs ms, map as_option cs = w ->
  calls cs (b ms) = Ok (b (ms ++ l)).
Proof.
  intros C. induction 1 as [u U|u m w l U _ IH]; intros cs ms E.
  - rewrite app_nil_r. apply (undone_calls b u); assumption.
  - destruct (map_split _ _ _ _ E) as [x [y [-> [X Y]]]].
    destruct y as [|d y]; [discriminate|]. cbn [map] in Y. injection Y as Yd Y.
    destruct d as [m'|]; [|discriminate]. injection Yd as ->.
    rewrite calls_app, (undone_calls b u C U _ _ X). cbn [bind calls].
    rewrite container_call by exact C. cbn [bind]. rewrite (IH _ _ Y), <- app_assoc. reflexivity.
Qed.

Lemma history_calls b w k l : container b -> history w k l -> forall cs ms, map as_option cs = w ->
  calls cs (b ms) = if (k <=? List.length ms)%nat then Ok (b (firstn (List.length ms - k) ms ++ l)) else Err IndexError.
Proof.
  intros C. induction 1 as [w l L|u w k l U _ IH]; intros cs ms E.
  - rewrite (leaves_calls b w l C L _ _ E). cbn [Nat.leb]. rewrite Nat.sub_0_r, firstn_all. reflexivity.
  - destruct (map_split _ _ _ _ E) as [x [y [-> [X Y]]]].
    destruct y as [|d y]; [discriminate|]. cbn [map] in Y. injection Y as Yd Y. destruct d; [discriminate|].
    rewrite calls_app, (undone_calls b u C U _ _ X). cbn [bind calls]. rewrite container_call by exact C.
    destruct ms as [|m0 ms0]; [reflexivity|].
    destruct (@exists_last _ (m0 :: ms0) ltac:(discriminate)) as [ms [z Q]]. rewrite Q, removelast_snoc. cbn [bind].
    rewrite (IH _ _ Y), app_length. cbn [List.length].
    replace (S k <=? List.length ms + 1)%nat with (k <=? List.length ms)%nat by lia.
    destruct (Nat.leb_spec k (List.length ms)); [|reflexivity].
    replace (List.length ms + 1 - S k)%nat with (List.length ms - k)%nat by lia.
    rewrite firstn_app. replace (List.length ms - k - List.length ms)%nat with 0%nat by lia.
    cbn [firstn]. rewrite app_nil_r. reflexivity.
Qed.

Lemma undone_app {A} (u v : list (option A)) : undone u -> undone v -> undone (u ++ v).
Proof.
  induction 1 as [|m u1 u2 U1 _ _ IH]; intros V; [exact V|].
  replace ((Some m :: u1 ++ None :: u2) ++ v) with (Some m :: u1 ++ None :: (u2 ++ v))
    by (cbn [app]; rewrite <- app_assoc; reflexivity).
  apply undone_pair; [exact U1|apply IH, V].
Qed.

Lemma history_undone {A} (u w : list (option A)) k l : undone u -> history w k l -> history (u ++ w) k l.
Proof.
  intros U. destruct 1 as [w l L|v w k l V H].
  - apply history_leaves. destruct L as [v V|v m w l V L].
    + apply leaves_none, undone_app; assumption.
    + rewrite app_assoc. apply leaves_some; [apply undone_app; assumption|exact L].
  - rewrite app_assoc. apply history_pop; [apply undone_app; assumption|exact H].
Qed.

Lemma history_exists {A} (w : list (option A)) : exists k l, history w k l.
Proof.
  induction w as [|[m|] w [k [l H]]].
  - exists 0%nat, []. apply history_leaves, leaves_none, undone_nil.
  - destruct H as [w l L|u w k l U H].
    + exists 0%nat, (m :: l). apply history_leaves. apply (leaves_some [] m w l); [apply undone_nil|exact L].
    + exists k, l. replace (Some m :: u ++ None :: w) with ((Some m :: u ++ None :: []) ++ w)
        by (cbn [app]; rewrite <- app_assoc; reflexivity).
      apply history_undone; [apply undone_pair; [exact U|apply undone_nil]|exact H].
  - exists (S k), l. apply (history_pop [] w k l); [apply undone_nil|exact H].
Qed.

(* --- in place --------------------------------------------------------- *)

Lemma child_members t k s : child t k s <-> nth_error (members_of t) k = Some s.
Proof.
  split; [destruct 1; assumption|]. destruct t; cbn [members_of]; intros H; try (constructor; exact H).
  destruct k; discriminate.
Qed.

Lemma has_members t n : has_children t n <-> (forall v, t <> TValue v) /\ List.length (members_of t) = n.
Proof.
  destruct t; cbn [has_children members_of]; split; intros H; try (split; [discriminate|exact H]); try apply H.
  - destruct H.
  - destruct H as [H _]. apply (H v). reflexivity.
Qed.

Lemma getitem_denotes t i s : t_getitem t i = Ok s <->
  exists n k, has_children t n /\ denotes i n k /\ child t k s /\
    Z.to_nat (if i <? 0 then i + Z.of_nat (List.length (members_of t)) else i) = k.
Proof.
  split.
  - intros H.
    assert (N : forall v, t <> TValue v) by (intros v ->; discriminate H).
    assert (P : py_index (members_of t) i = Ok s) by (destruct t; try exact H; discriminate H).
    unfold py_index in P. set (j := if i <? 0 then _ else _) in *.
    destruct (_ || _) eqn:B; [discriminate P|].
    destruct (nth_error _ _) as [x|] eqn:Q; [|discriminate P]. injection P as ->.
    exists (List.length (members_of t)), (Z.to_nat j). split; [apply has_members; auto|].
    split; [|split; [apply child_members; exact Q|reflexivity]].
    split; [apply nth_error_Some; rewrite Q; discriminate|]. subst j. destruct (i <? 0) eqn:I; lia.
  - intros [n [k [C [[K D] [S E]]]]]. apply has_members in C. destruct C as [N L]. apply child_members in S.
    assert (P : py_index (members_of t) i = Ok s).
    { unfold py_index. rewrite E, S. rewrite L in *. destruct (_ || _) eqn:B; [|reflexivity].
      exfalso. destruct (i <? 0) eqn:I; lia. }
    destruct t; try exact P. destruct (N v). reflexivity.
Qed.

Lemma become_same {A} (l : list A) k x y : nth_error l k = Some y -> nth_error (become l k x) k = Some x.
Proof. revert k. induction l as [|z l IH]; intros [|k] H; try discriminate; [reflexivity|]. apply IH, H. Qed.

Lemma become_other {A} (l : list A) k j x : j <> k -> nth_error (become l k x) j = nth_error l j.
Proof.
  revert k j. induction l as [|z l IH]; intros k j N; [destruct k; reflexivity|].
  destruct k, j; try reflexivity; [destruct (N eq_refl)|]. cbn. apply IH. intros ->. apply N. reflexivity.
Qed.

Lemma become_length {A} (l : list A) k x : List.length (become l k x) = List.length l.
Proof. revert k. induction l as [|z l IH]; intros [|k]; cbn; auto. Qed.

Lemma members_with t ms : (forall v, t <> TValue v) -> members_of (with_members t ms) = ms.
Proof. destruct t; intros N; try reflexivity. destruct (N v). reflexivity. Qed.

Lemma with_head t ms : same_head t (with_members t ms).
Proof. destruct t; cbn; auto. Qed.

Lemma head_sym a b : same_head a b -> same_head b a.
Proof. destruct a, b; cbn; try tauto; try congruence. intros [-> ->]. auto. Qed.

Lemma with_not t ms : (forall v, t <> TValue v) -> forall v, with_members t ms <> TValue v.
Proof. destruct t; intros N w; try discriminate. destruct (N v). reflexivity. Qed.

Lemma found_cons t k q x : found t (k :: q) x <-> exists s, child t k s /\ found s q x.
Proof. split; [inversion 1; subst; eauto|]. intros [s [C F]]. eapply found_below; eauto. Qed.

Lemma found_nil t x : found t [] x <-> x = t.
Proof. split; [inversion 1; reflexivity|]. intros ->. apply found_here. Qed.

Lemma prefix_cons j q k p : prefix (j :: q) (k :: p) <-> j = k /\ prefix q p.
Proof.
  split.
  - intros [r E]. injection E as -> ->. split; [reflexivity|]. exists r. reflexivity.
  - intros [-> [r ->]]. exists r. reflexivity.
Qed.

(** growth here *)
Lemma grown_here m t t' : (forall v, t <> TValue v) -> (forall v, t' <> TValue v) -> same_head t t' ->
  members_of t' = members_of t ++ [m] -> grown [] m t t'.
Proof.
  intros N N' S E. exists t, (List.length (members_of t)).
  split; [apply found_here|]. split; [apply has_members; auto|]. split; [|split].
  - exists t'. split; [apply found_here|]. apply has_members. split; [exact N'|]. rewrite E, app_length. cbn. lia.
  - intros q [r E']. destruct q; [|discriminate]. exists t, t'. repeat split; try apply found_here. exact S.
  - intros q x P. destruct q as [|k q]; [destruct P; exists []; reflexivity|]. clear P. rewrite !found_cons. split.
    + intros [s [C F]]. apply child_members in C. rewrite E in C.
      destruct (Nat.lt_ge_cases k (List.length (members_of t))) as [L|L].
      * rewrite nth_error_app1 in C by exact L. left. exists s. split; [apply child_members; exact C|exact F].
      * rewrite nth_error_app2 in C by exact L.
        destruct (k - List.length (members_of t))%nat as [|d] eqn:D; [|destruct d; discriminate C].
        injection C as <-. right. exists q. split; [cbn; f_equal; lia|exact F].
    + intros [[s [C F]]|[r [Q F]]].
      * apply child_members in C. exists s. split; [|exact F]. apply child_members. rewrite E, nth_error_app1; [exact C|].
        apply nth_error_Some. rewrite C. discriminate.
      * cbn in Q. injection Q as -> ->. exists m. split; [|exact F]. apply child_members. rewrite E, nth_error_app2 by lia.
        rewrite Nat.sub_diag. reflexivity.
Qed.

(** growth below *)
Lemma grown_below k p m t t' s s' : same_head t t' ->
  child t k s -> child t' k s' -> (forall j x, j <> k -> child t' j x <-> child t j x) ->
  grown p m s s' -> grown (k :: p) m t t'.
Proof.
  intros S C C' O [o [n [Fo [Ho [[o' [Fo' Ho']] [HP HN]]]]]]. exists o, n.
  split; [eapply found_below; eauto|]. split; [exact Ho|]. split; [|split].
  - exists o'. split; [eapply found_below; eauto|exact Ho'].
  - intros q P. destruct q as [|j q]; [exists t, t'; repeat split; try apply found_here; exact S|].
    apply prefix_cons in P. destruct P as [-> P]. destruct (HP q P) as [a [b [A [B H]]]].
    exists a, b. split; [eapply found_below; eauto|]. split; [eapply found_below; eauto|exact H].
  - intros q x P. destruct q as [|j q]; [destruct P; exists (k :: p); reflexivity|]. rewrite !found_cons.
    destruct (Nat.eq_dec j k) as [->|NE].
    + assert (P' : ~ prefix q p) by (intros Q; apply P, prefix_cons; auto).
      specialize (HN q x P'). apply child_members in C, C'. split.
      * intros [y [Y F]]. apply child_members in Y. rewrite C' in Y. injection Y as <-.
        apply HN in F. destruct F as [F|[r [-> F]]].
        -- left. exists s. split; [apply child_members, C|exact F].
        -- right. exists r. split; [reflexivity|exact F].
      * intros [[y [Y F]]|[r [Q F]]].
        -- apply child_members in Y. rewrite C in Y. injection Y as <-.
           exists s'. split; [apply child_members, C'|]. apply HN. left. exact F.
        -- cbn [app] in Q. injection Q as ->. exists s'. split; [apply child_members, C'|]. apply HN. right. eauto.
    + split.
      * intros [y [Y F]]. apply O in Y; [|exact NE]. left. eauto.
      * intros [[y [Y F]]|[r [Q F]]]; [|cbn [app] in Q; injection Q as E _; destruct (NE E)].
        exists y. split; [apply O; assumption|exact F].
Qed.

Lemma edit_step c i p t t' : edit c (i :: p) t = Ok t' ->
  exists n k s s', has_children t n /\ denotes i n k /\ child t k s /\ edit c p s = Ok s' /\
    same_head t t' /\ child t' k s' /\ forall j x, j <> k -> child t' j x <-> child t j x.
Proof.
  cbn [edit]. intros H. destruct (t_getitem t i) as [s|] eqn:G; [|discriminate H]. cbn [bind] in H.
  destruct (edit c p s) as [s'|] eqn:E; [|discriminate H]. cbn [bind] in H.
  apply getitem_denotes in G. destruct G as [n [k [C [D [S K]]]]]. rewrite K in H. injection H as <-.
  pose proof (proj1 (has_members _ _) C) as [N _].
  exists n, k, s, s'. split; [exact C|]. split; [exact D|]. split; [exact S|]. split; [exact E|].
  split; [apply with_head|]. apply child_members in S. split.
  - apply child_members. rewrite members_with by exact N. eapply become_same. exact S.
  - intros j x J. rewrite !child_members, members_with by exact N. rewrite become_other by exact J. reflexivity.
Qed.

Lemma call_append m t t' : t_call (Append m) t = Ok t' -> grown [] m t t'.
Proof.
  intros H. assert (N : forall v, t <> TValue v) by (intros v ->; discriminate H).
  assert (E : t' = with_members t (members_of t ++ [m])) by (destruct t; [discriminate H| | |]; injection H as <-; reflexivity). subst t'.
  apply grown_here; [exact N|apply with_not, N|apply with_head|apply members_with, N].
Qed.

Lemma call_pop t t' : t_call Pop t = Ok t' -> exists m, grown [] m t' t.
Proof.
  intros H. assert (N : forall v, t <> TValue v) by (intros v ->; discriminate H).
  assert (E : members_of t <> [] /\ t' = with_members t (removelast (members_of t)))
    by (destruct t as [v|i ms|ms|k u ms]; [discriminate H| | |]; destruct ms; try discriminate H;
        (split; [discriminate|]); injection H as <-; reflexivity).
  destruct E as [NE ->]. destruct (exists_last NE) as [ms [m E]]. exists m.
  apply grown_here; [apply with_not, N|exact N|apply head_sym, with_head|].
  rewrite members_with by exact N. rewrite E, removelast_snoc. reflexivity.
Qed.

Lemma edit_append m is : forall t t', edit (Append m) is t = Ok t' ->
  exists p o, leads t is p o /\ grown p m t t'.
Proof.
  induction is as [|i is IH]; intros t t' H.
  - exists [], t. split; [apply leads_here|]. apply call_append, H.
  - destruct (edit_step _ _ _ _ _ H) as [n [k [s [s' [C [D [S [E [HD [S' O]]]]]]]]]].
    destruct (IH _ _ E) as [p [o [L G]]]. exists (k :: p), o. split; [eapply leads_below; eauto|].
    eapply grown_below; eauto.
Qed.

Lemma edit_pop is : forall t t', edit Pop is t = Ok t' ->
  exists p o m, leads t is p o /\ grown p m t' t.
Proof.
  induction is as [|i is IH]; intros t t' H.
  - destruct (call_pop t t' H) as [m G]. exists [], t, m. split; [apply leads_here|exact G].
  - destruct (edit_step _ _ _ _ _ H) as [n [k [s [s' [C [D [S [E [HD [S' O]]]]]]]]]].
    destruct (IH _ _ E) as [p [o [m [L G]]]]. exists (k :: p), o, m. split; [eapply leads_below; eauto|].
    eapply grown_below; [apply head_sym, HD|exact S'|exact S| |exact G]. intros j x J. symmetry. apply O, J.
Qed.

Lemma denotes_index i n k t : has_children t n -> denotes i n k ->
  Z.to_nat (if i <? 0 then i + Z.of_nat (List.length (members_of t)) else i) = k.
Proof. intros C [K D]. apply has_members in C. destruct C as [_ ->]. destruct (i <? 0) eqn:I; lia. Qed.

Lemma edit_defined c is : forall t,
  (exists t', edit c is t = Ok t') <->
  exists p o n, leads t is p o /\ has_children o n /\ (c = Pop -> n <> 0%nat).
Proof.
  induction is as [|i is IH]; intros t.
  - split.
    + intros [t' H]. cbn [edit] in H. exists [], t, (List.length (members_of t)).
      split; [apply leads_here|]. split; [apply has_members; split; [intros v ->; discriminate H|reflexivity]|].
      intros -> Z0. destruct t as [v|j ms|ms|k u ms]; cbn in H, Z0; try discriminate H; destruct ms; discriminate.
    + intros [p [o [n [L [C P]]]]]. inversion L; subst. apply has_members in C. destruct C as [N L'].
      cbn [edit]. destruct o as [v|j ms|ms|k u ms]; [destruct (N v); reflexivity| | |];
        (destruct c as [m|]; [eexists; reflexivity|]); destruct ms; cbn in L'; subst n;
        try (destruct (P eq_refl); reflexivity); eexists; reflexivity.
  - split.
    + intros [t' H]. destruct (edit_step _ _ _ _ _ H) as [n [k [s [s' [C [D [S [E _]]]]]]]].
      destruct (proj1 (IH s) (ex_intro _ _ E)) as [p [o [n' [L [C' P]]]]].
      exists (k :: p), o, n'. split; [eapply leads_below; eauto|auto].
    + intros [p [o [n [L [C P]]]]]. inversion L as [|? ? ? k s p' ? n' C1 D1 S1 L1]; subst.
      destruct (proj2 (IH s) (ex_intro _ p' (ex_intro _ o (ex_intro _ n (conj L1 (conj C P)))))) as [s' E].
      assert (G : t_getitem t i = Ok s).
      { apply getitem_denotes. exists n', k. repeat (split; [assumption|]). eapply denotes_index; eauto. }
      eexists. cbn [edit]. rewrite G. cbn [bind]. rewrite E. cbn [bind]. reflexivity.
Qed.
