(* FormFacts.v -- the form of the optimised output *)
From Coq Require Import ZifyBool ZifyNat.
From Verif Require Import Py Usage Item Parser Optimizer Descriptor Converter HidSpec Spec StreamSpec StreamProofs OptSpec
  AllSpec TreeSpec ItemFacts ParserFacts OptFacts Skeleton PassFacts OptAll TreeOpt CodecProofs FormSpec.
Local Open Scope list_scope. Local Open Scope Z_scope.

Lemma main_kind c : main_tag c = ikind_eqb (kind_of c) Main.
Proof. destruct c; reflexivity. Qed.

Lemma watched c : to_watch c = describes c.
Proof. destruct c; reflexivity. Qed.

(** what counts for [counted_mains] and for [joined] *)
Definition cm_tag (c : icls) : bool := main_tag c || icls_eqb c ReportCount.
Definition jn_tag (c : icls) : bool := cm_tag c || describes c.

Lemma cm_sel l : forall n, counted_mains n (map cv l) = counted_mains n (sel cm_tag l).
Proof.
  unfold sel. change (cvs l) with (map cv l). induction (map cv l) as [|[c v] r IH]; intros n; [reflexivity|].
  cbn [counted_mains filter fst]. unfold cm_tag at 1.
  destruct (icls_eqb c ReportCount) eqn:E.
  - rewrite orb_true_r. cbn [counted_mains]. rewrite E. apply IH.
  - rewrite orb_false_r. destruct (main_tag c) eqn:M.
    + cbn [counted_mains]. rewrite E, M. destruct (data_tag c); f_equal; apply IH.
    + destruct (data_tag c) eqn:D; [destruct c; discriminate|]. apply IH.
Qed.

Lemma jn_sel l : forall g n o, joined g n o (map cv l) = joined g n o (sel jn_tag l).
Proof.
  unfold sel. change (cvs l) with (map cv l). induction (map cv l) as [|[c v] r IH]; intros g n o; [reflexivity|].
  cbn [filter fst]. destruct (jn_tag c) eqn:J.
  - cbn [joined]. destruct (icls_eqb c ReportCount); [apply IH|]. destruct (describes c); [destruct (g c =? v); [apply IH|f_equal; apply IH]|].
    destruct (data_tag c).
    + destruct o as [[x k]|]; [destruct (is_same (c, v) x)|]; cbn [app]; destruct (n =? 1); rewrite ?IH; reflexivity.
    + destruct (main_tag c); rewrite IH; reflexivity.
  - unfold jn_tag, cm_tag in J. cbn [joined]. destruct (main_tag c) eqn:M; [discriminate|]. destruct (icls_eqb c ReportCount) eqn:E; [discriminate|].
    cbn [orb] in J. rewrite J. destruct (data_tag c) eqn:D; [destruct c; discriminate|]. apply IH.
Qed.

Lemma joined_ext l : forall g h n o, (forall c, g c = h c) -> joined g n o l = joined h n o l.
Proof.
  induction l as [|[c v] r IH]; intros g h n o E; [reflexivity|]. cbn [joined]. rewrite <- E.
  destruct (icls_eqb c ReportCount); [apply IH, E|].
  destruct (describes c).
  - destruct (g c =? v); [apply IH, E|]. f_equal. apply IH. intros c'. unfold put. rewrite E. reflexivity.
  - destruct (data_tag c).
    + destruct o as [[x k]|]; [destruct (is_same (c, v) x)|]; cbn [app]; destruct (n =? 1); rewrite (IH g h) by exact E; reflexivity.
    + destruct (main_tag c); rewrite (IH g h) by exact E; reflexivity.
Qed.

(* ------------------------------------------------------------------ *)
(** MainMerge *)

(** the collections in a list *)
Definition marks (l : list item) : list (spec_item * Z) := map (fun x => (x, 0)) (sel main_tag l).

Definition no_data (l : list item) : Prop := Forall (fun i => is_data (ic i) = false) l.
Definition no_main (l : list item) : Prop := Forall (fun i => kind_of (ic i) <> Main) l.

Lemma marks_app a b : marks (a ++ b) = marks a ++ marks b.
Proof. unfold marks. rewrite sel_app, map_app. reflexivity. Qed.

Lemma no_main_marks l : no_main l -> marks l = [].
Proof.
  intros H. unfold marks. rewrite sel_none; [reflexivity|]. eapply Forall_impl; [|exact H]. intros i N. cbn beta.
  rewrite main_kind. destruct (kind_of (ic i)) eqn:K; try reflexivity. congruence.
Qed.

Lemma marks_norc l : marks (filter not_rc l) = marks l.
Proof.
  unfold marks. f_equal. apply (sel_filter main_tag). intros i E. unfold not_rc in E. apply negb_false_iff in E. apply icls_eqb_eq in E.
  rewrite E. reflexivity.
Qed.

Lemma marks_one i : main_tag (ic i) = true -> marks [i] = [(cv i, 0)].
Proof. intros M. unfold marks, sel, cvs. cbn [map filter]. unfold cv at 1. cbn [fst]. rewrite M. reflexivity. Qed.

Lemma marks_cons i l : marks (i :: l) = marks [i] ++ marks l.
Proof. exact (marks_app [i] l). Qed.

Lemma cm_no_data l r : no_data l -> forall n, exists n', counted_mains n (map cv l ++ r) = marks l ++ counted_mains n' r.
Proof.
  induction 1 as [|i l D _ IH]; intros n; [exists n; reflexivity|]. cbn [map app]. rewrite marks_cons.
  unfold cv at 1. cbn [counted_mains]. change (data_tag (ic i)) with (is_data (ic i)). rewrite D.
  destruct (icls_eqb (ic i) ReportCount) eqn:E.
  - apply icls_eqb_eq in E. rewrite (no_main_marks [i]) by (constructor; [rewrite E; discriminate|constructor]). apply IH.
  - destruct (main_tag (ic i)) eqn:M; destruct (IH n) as [n' H]; exists n'.
    + rewrite (marks_one i M), H. reflexivity.
    + rewrite (no_main_marks [i]); [exact H|]. constructor; [|constructor]. rewrite main_kind in M. intros X. rewrite X in M. discriminate M.
Qed.

Lemma cm_free l n : no_data l -> counted_mains n (map cv l) = marks l.
Proof. intros H. destruct (cm_no_data l [] H n) as [n' E]. rewrite !app_nil_r in E. exact E. Qed.

Definition run_of (s : mm_state) : option (spec_item * Z) :=
  match mm_mains s with [] => None | m :: _ => Some (cv m, mm_bcount s) end.

Record settled (s : mm_state) : Prop := {
  se_before : no_data (mm_before s);
  se_after : no_main (mm_after s);
  se_none : mm_mains s = [] -> mm_bcount s = 0;
  se_data : match mm_mains s with [] => True | m :: _ => is_data (ic m) = true end
}.

Lemma no_main_data l : no_main l -> no_data l.
Proof. intros H. eapply Forall_impl; [|exact H]. intros i N. cbn. destruct (is_data (ic i)) eqn:E; [|reflexivity]. exfalso. apply N. destruct (ic i); try discriminate; reflexivity. Qed.

Lemma no_data_filter f l : no_data l -> no_data (filter f l).
Proof. intros H. apply Forall_forall. intros x I. apply filter_In in I. eapply Forall_forall in H; [exact H|apply I]. Qed.

Lemma cm_app_split l n r (P : no_data l) X : (forall n', counted_mains n' r = X) -> counted_mains n (map cv l ++ r) = marks l ++ X.
Proof. intros H. destruct (cm_no_data l r P n) as [n' E]. rewrite E, H. reflexivity. Qed.

(** flushing emits what is held back before the last main item *)
Lemma flush_mains s r X : no_data (mm_before s) -> match mm_mains s with [] => True | m :: _ => is_data (ic m) = true end -> (forall n, counted_mains n r = X) ->
  forall n, counted_mains n (map cv (snd (mm_flush s)) ++ r) = marks (mm_before s) ++ ended (run_of s) ++ X.
Proof.
  intros S D H n. unfold mm_flush. cbn [snd]. rewrite map_app, <- app_assoc. rewrite <- marks_norc.
  apply cm_app_split; [apply no_data_filter, S|]. intros n'. unfold run_of.
  destruct (mm_mains s) as [|m q]; cbn [map app ended]; [apply H|].
  unfold rc_item. unfold cv at 1. cbn [ic]. cbn [counted_mains]. rewrite (proj2 (icls_eqb_eq ReportCount ReportCount) eq_refl).
  unfold cv at 1. cbn [counted_mains]. change (data_tag (ic m)) with (is_data (ic m)). rewrite D.
  replace (icls_eqb (ic m) ReportCount) with false by (destruct (ic m); try discriminate D; reflexivity).
  rewrite H. reflexivity.
Qed.

Lemma item_same i m : item_eqb i m = is_same (cv i) (cv m).
Proof.
  apply eq_true_iff_eq. rewrite item_eqb_spec. unfold is_same, cv. cbn [fst snd].
  rewrite andb_true_iff, icls_eqb_eq, Z.eqb_eq. reflexivity.
Qed.

Definition fin (s : mm_state) (l : list item) : Prop := match l with [] => mm_mains s = [] | _ => ends l end.

Lemma fin_next s s' i l : fin s (i :: l) -> (is_data (ic i) = false -> kind_of (ic i) = Main -> mm_mains s' = []) -> fin s' l.
Proof.
  intros [l' [j [E [K D]]]] H. destruct l as [|a l]; cbn [fin].
  - destruct l' as [|b l']; [|destruct l'; discriminate E]. injection E as <-. auto.
  - destruct l' as [|b l']; [discriminate E|]. injection E as <- E. exists l', j. auto.
Qed.

Lemma no_main_snoc l i : no_main l -> kind_of (ic i) <> Main -> no_main (l ++ [i]).
Proof. intros A B. apply Forall_app. split; [exact A|]. constructor; [exact B|constructor]. Qed.

Lemma joined_cv g count run i r : joined g count run (cv i :: r) =
  if icls_eqb (ic i) ReportCount then joined g (ival i) run r
  else if describes (ic i) then
    if g (ic i) =? ival i then joined g count run r else ended run ++ joined (put g (ic i) (ival i)) count None r
  else if data_tag (ic i) then
    let '(before, n) := match run with
                        | Some (x, n) => if is_same (cv i) x then ([], n) else ([(x, n)], 0)
                        | None => ([], 0)
                        end in
    before ++ (if count =? 1 then joined g count (Some (cv i, n + 1)) r
               else (cv i, n + count) :: joined g count None r)
  else if main_tag (ic i) then ended run ++ (cv i, 0) :: joined g count None r
  else joined g count run r.
Proof. reflexivity. Qed.

Lemma joined_other g n o i l : kind_of (ic i) <> Main -> ic i <> ReportCount -> describes (ic i) = false ->
  joined g n o (cv i :: l) = joined g n o l.
Proof.
  intros K N D. unfold cv. cbn [joined]. rewrite (proj2 (icls_eqb_neq _ _) N), D.
  destruct (data_tag (ic i)) eqn:DT; [exfalso; apply K; destruct (ic i); try discriminate; reflexivity|].
  rewrite main_kind. destruct (kind_of (ic i)) eqn:KI; try reflexivity. congruence.
Qed.

Definition rest (s : mm_state) (l : list item) : list item := let (s', o) := feed main_merge s l in o ++ mm_close s'.

Lemma rest_cons s i l s' o : mm_append s i = (s', o) -> rest s (i :: l) = o ++ rest s' l.
Proof.
  intros E. unfold rest. cbn [feed]. change (p_append main_merge s i) with (mm_append s i). rewrite E.
  destruct (feed main_merge s' l) as [s2 o2]. rewrite <- app_assoc. reflexivity.
Qed.

Lemma mm_joined l : forall s n, settled s -> fin s l ->
  counted_mains n (map cv (rest s l)) = marks (mm_before s) ++ joined (mm_props s) (mm_acount s) (run_of s) (map cv l).
Proof.
  induction l as [|i l IH]; intros s n S F.
  - cbn [map joined]. cbn [fin] in F. unfold rest. cbn [feed app]. unfold mm_close, run_of. rewrite F. cbn [app ended].
    rewrite cm_free; [rewrite marks_app, (no_main_marks (mm_after s)) by apply S; reflexivity|].
    apply Forall_app. split; [apply S|apply no_main_data, S].
  - destruct S as [S1 S2 S3 S4]. cbn [map]. destruct (kind_of (ic i)) eqn:K.
    + (* main *)
      assert (M : main_tag (ic i) = true) by (rewrite main_kind, K; reflexivity).
      assert (NR : icls_eqb (ic i) ReportCount = false) by (destruct (ic i); try discriminate; reflexivity).
      assert (ND : describes (ic i) = false) by (destruct (ic i); try discriminate; reflexivity).
      destruct (is_data (ic i)) eqn:D.
      * (* data *)
        pose (s1 := match mm_mains s with [] => s | m :: _ => if item_eqb i m then s else fst (mm_flush s) end).
        pose (o1 := match mm_mains s with [] => [] | m :: _ => if item_eqb i m then [] else snd (mm_flush s) end).
        pose (s2 := MM (mm_before s1 ++ mm_after s1) (mm_mains s1 ++ [i]) [] (mm_bcount s1 + mm_acount s1) (mm_acount s1) (mm_props s1)).
        assert (AC : mm_acount s1 = mm_acount s) by (unfold s1; destruct (mm_mains s); [reflexivity|destruct (item_eqb i _); reflexivity]).
        assert (PR : mm_props s1 = mm_props s) by (unfold s1; destruct (mm_mains s); [reflexivity|destruct (item_eqb i _); reflexivity]).
        assert (APP : mm_append s i = if mm_acount s =? 1 then (s2, o1) else (fst (mm_flush s2), o1 ++ snd (mm_flush s2))).
        { rewrite <- AC. unfold mm_append, ikd. rewrite K, D. cbn [negb].
          assert (E : match mm_mains s with [] => (s, []) | m :: _ => if item_eqb i m then (s, []) else mm_flush s end = (s1, o1)).
          { unfold s1, o1. destruct (mm_mains s); [reflexivity|]. destruct (item_eqb i _); [reflexivity|]. destruct (mm_flush s); reflexivity. }
          rewrite E. fold s2. destruct (mm_acount s1 =? 1); cbn [negb]; [reflexivity|]. destruct (mm_flush s2); reflexivity. }
        assert (B1 : no_data (mm_before s1)) by (unfold s1; destruct (mm_mains s); [exact S1|destruct (item_eqb i _); [exact S1|apply no_main_data, S2]]).
        assert (A1 : no_main (mm_after s1)) by (unfold s1; destruct (mm_mains s); [exact S2|destruct (item_eqb i _); [exact S2|constructor]]).
        assert (M1 : match mm_mains s1 with [] => mm_bcount s1 = 0 | m :: _ => cv m = cv i /\ is_data (ic m) = true end).
        { unfold s1. destruct (mm_mains s) as [|m q] eqn:Q; [rewrite Q; apply S3; reflexivity|]. destruct (item_eqb i m) eqn:E.
          - rewrite Q. split; [|exact S4]. apply item_eqb_spec in E. unfold cv. destruct E as [-> ->]. reflexivity.
          - cbn. reflexivity. }
        assert (D2 : match mm_mains s2 with [] => True | m :: _ => is_data (ic m) = true end).
        { cbn [s2 mm_mains]. destruct (mm_mains s1); [exact D|apply M1]. }
        assert (B2 : no_data (mm_before s2)) by (apply Forall_app; split; [exact B1|apply no_main_data, A1]).
        assert (MK : marks (mm_before s2) = marks (mm_before s1)) by (cbn [s2 mm_before]; rewrite marks_app, (no_main_marks (mm_after s1) A1), app_nil_r; reflexivity).
        assert (R2 : run_of s2 = Some (cv i, mm_bcount s1 + mm_acount s)).
        { unfold run_of. cbn [s2 mm_mains mm_bcount]. rewrite AC. destruct (mm_mains s1) as [|m q]; [reflexivity|]. cbn [app]. rewrite (proj1 M1). reflexivity. }
        assert (O1 : forall r X, (forall k, counted_mains k r = marks (mm_before s1) ++ X) -> forall k,
          counted_mains k (map cv o1 ++ r) = marks (mm_before s) ++
            (match run_of s with Some (x, m) => if is_same (cv i) x then [] else [(x, m)] | None => [] end) ++ X).
        { intros r X H k. unfold run_of, o1, s1 in *. destruct (mm_mains s) as [|m q] eqn:Q; [apply H|]. rewrite <- item_same. destruct (item_eqb i m) eqn:E; [apply H|].
          rewrite (flush_mains s r (marks (mm_after s) ++ X)); [|exact S1|rewrite Q; exact S4|exact H].
          rewrite (no_main_marks (mm_after s) S2). unfold run_of. rewrite Q. reflexivity. }
        assert (BC : mm_bcount s1 = match run_of s with Some (x, m) => if is_same (cv i) x then m else 0 | None => 0 end).
        { unfold run_of, s1. destruct (mm_mains s) as [|m q] eqn:Q; [apply S3; reflexivity|]. rewrite <- item_same. destruct (item_eqb i m); reflexivity. }
        assert (J : joined (mm_props s) (mm_acount s) (run_of s) (cv i :: map cv l) =
          (match run_of s with Some (x, m) => if is_same (cv i) x then [] else [(x, m)] | None => [] end) ++
          (if mm_acount s =? 1 then joined (mm_props s) (mm_acount s) (Some (cv i, mm_bcount s1 + mm_acount s)) (map cv l)
           else (cv i, mm_bcount s1 + mm_acount s) :: joined (mm_props s) (mm_acount s) None (map cv l))).
        { rewrite BC. rewrite joined_cv. rewrite NR, ND. change (data_tag (ic i)) with (is_data (ic i)). rewrite D. fold (cv i).
          destruct (run_of s) as [[x m]|]; [destruct (is_same (cv i) x)|]; destruct (mm_acount s =? 1) eqn:E1; try reflexivity;
            replace (mm_acount s) with 1 by lia; reflexivity. }
        rewrite J. destruct (mm_acount s =? 1) eqn:E1.
        -- rewrite (rest_cons s i l s2 o1 APP), map_app. apply O1. intros k. rewrite IH.
           ++ rewrite MK, R2. cbn [s2 mm_props mm_acount]. rewrite AC, PR. reflexivity.
           ++ constructor; auto; [constructor|]. cbn [s2 mm_mains]. destruct (mm_mains s1); discriminate.
           ++ eapply fin_next; [exact F|]. congruence.
        -- rewrite (rest_cons s i l _ _ APP), !map_app, <- app_assoc. apply O1. intros k.
           rewrite (flush_mains s2 _ (joined (mm_props s) (mm_acount s) None (map cv l)) B2 D2).
           ++ rewrite MK, R2. reflexivity.
           ++ intros k'. rewrite IH.
              ** cbn [mm_flush fst mm_before mm_props mm_acount run_of mm_mains s2]. rewrite AC, PR. reflexivity.
              ** constructor; cbn; auto; constructor.
              ** eapply fin_next; [exact F|]. congruence.
      * pose (s1 := MM (mm_before s) (mm_mains s) (mm_after s ++ [i]) (mm_bcount s) (mm_acount s) (mm_props s)).
        rewrite (rest_cons s i l (fst (mm_flush s1)) (snd (mm_flush s1))).
        2:{ unfold mm_append, ikd. rewrite K, D. reflexivity. }
        rewrite map_app. rewrite (flush_mains s1 _ (marks (mm_after s ++ [i]) ++ joined (mm_props s) (mm_acount s) None (map cv l)) S1 S4).
        -- rewrite marks_app, (no_main_marks (mm_after s) S2), (marks_one i M). rewrite joined_cv.
           rewrite NR, ND, M. change (data_tag (ic i)) with (is_data (ic i)). rewrite D. reflexivity.
        -- intros k. rewrite IH; [reflexivity|..].
           ++ constructor; cbn; auto; [|constructor]. apply Forall_app. split; [apply no_main_data, S2|constructor; [exact D|constructor]].
           ++ eapply fin_next; [exact F|]. reflexivity.
    + (* global *)
      assert (NM : main_tag (ic i) = false) by (rewrite main_kind, K; reflexivity).
      assert (ND : data_tag (ic i) = false) by (destruct (ic i); try discriminate; reflexivity).
      assert (A' : no_main (mm_after s ++ [i])) by (apply no_main_snoc; [exact S2|congruence]).
      assert (FN : forall s', fin s' l) by (intros s'; eapply fin_next; [exact F|congruence]).
      destruct (icls_eqb (ic i) ReportCount) eqn:R.
      * rewrite (rest_cons s i l (MM (mm_before s) (mm_mains s) (mm_after s ++ [i]) (mm_bcount s) (ival i) (mm_props s)) []).
        2:{ apply icls_eqb_eq in R. unfold mm_append, ikd. rewrite K, R. reflexivity. }
        cbn [app]. rewrite IH; [|constructor; cbn; auto|apply FN]. rewrite joined_cv. rewrite R. reflexivity.
      * assert (SK : forall a, match ic i with ReportCount => MM (mm_before a) (mm_mains a) (mm_after a) (mm_bcount a) (ival i) (mm_props a) | _ => a end = a)
          by (intros a; destruct (ic i); try reflexivity; discriminate R).
        destruct (describes (ic i) && negb (mm_props s (ic i) =? ival i)) eqn:W.
        -- pose (s1 := MM (mm_before s) (mm_mains s) (mm_after s ++ [i]) (mm_bcount s) (mm_acount s) (upd (mm_props s) (ic i) (ival i))).
           rewrite (rest_cons s i l (fst (mm_flush s1)) (snd (mm_flush s1))).
           2:{ unfold mm_append, ikd. rewrite K, watched, W. cbn [mm_before mm_mains mm_after mm_bcount mm_acount mm_props]. fold s1.
               rewrite (surjective_pairing (mm_flush s1)) at 1. rewrite SK. reflexivity. }
           rewrite map_app. rewrite (flush_mains s1 _ (marks (mm_after s ++ [i]) ++ joined (put (mm_props s) (ic i) (ival i)) (mm_acount s) None (map cv l)) S1 S4).
           ++ rewrite (no_main_marks _ A'). rewrite joined_cv. rewrite R. apply andb_true_iff in W. destruct W as [W1 W2].
              rewrite W1. apply negb_true_iff in W2. rewrite W2. reflexivity.
           ++ intros k. rewrite IH; [reflexivity| |apply FN]. constructor; cbn; auto; [apply no_main_data, A'|constructor].
        -- rewrite (rest_cons s i l (MM (mm_before s) (mm_mains s) (mm_after s ++ [i]) (mm_bcount s) (mm_acount s) (mm_props s)) []).
           2:{ unfold mm_append, ikd. rewrite K, watched, W. rewrite SK. reflexivity. }
           cbn [app]. rewrite IH; [|constructor; cbn; auto|apply FN]. rewrite joined_cv. rewrite R, ND, NM.
           destruct (describes (ic i)); [|reflexivity]. cbn [andb] in W. apply negb_false_iff in W. rewrite W. reflexivity.
    + (* local *)
      rewrite (rest_cons s i l (MM (mm_before s) (mm_mains s) (mm_after s ++ [i]) (mm_bcount s) (mm_acount s) (mm_props s)) []).
      2:{ unfold mm_append, ikd. rewrite K. reflexivity. }
      cbn [app]. rewrite joined_other; [|congruence|intros X; rewrite X in K; discriminate|destruct (ic i); try discriminate K; reflexivity].
      rewrite IH; [reflexivity|..].
      * constructor; cbn; auto. apply no_main_snoc; [exact S2|congruence].
      * eapply fin_next; [exact F|]. congruence.
Qed.

Lemma mm_form l : ends l -> forall n,
  counted_mains n (map cv (run_pass main_merge l)) = joined (fun _ => 0) 0 None (map cv l).
Proof.
  intros E n. change (run_pass main_merge l) with (rest mm_init l). rewrite mm_joined; [reflexivity|..].
  - constructor; cbn; auto; constructor.
  - destruct l as [|i l]; [|exact E]. destruct E as [l' [i [E _]]]. destruct l'; discriminate.
Qed.

(** GlobalMerge drops only ReportCount items that repeat the last one *)
Lemma gm_counted l : forall g n, (forall j, g ReportCount = Some j -> ic j = ReportCount /\ ival j = n) ->
  counted_mains n (map cv (snd (feed global_merge g l))) = counted_mains n (map cv l).
Proof.
  induction l as [|i l IH]; intros g n H; [reflexivity|].
  cbn [feed]. change (p_append global_merge g i) with (gm_append g i). unfold gm_append, ikd.
  assert (SKIP : ic i <> ReportCount -> forall g' keep, g' ReportCount = g ReportCount -> (keep = false -> main_tag (ic i) = false) ->
    counted_mains n (map cv ((if keep : bool then [i] else []) ++ snd (feed global_merge g' l))) = counted_mains n (map cv (i :: l))).
  { intros N g' keep E X. assert (Y := IH g' n ltac:(rewrite E; exact H)). cbn [map]. unfold cv at 2. cbn [counted_mains].
    rewrite (proj2 (icls_eqb_neq _ _) N). destruct keep; cbn [app map].
    - unfold cv at 1. cbn [counted_mains]. rewrite (proj2 (icls_eqb_neq _ _) N), Y. reflexivity.
    - rewrite (X eq_refl), Y. destruct (data_tag (ic i)) eqn:D; [|reflexivity]. specialize (X eq_refl). destruct (ic i); discriminate. }
  destruct (kind_of (ic i)) eqn:K.
  - specialize (SKIP ltac:(intros X; rewrite X in K; discriminate) g true eq_refl ltac:(discriminate)).
    destruct (feed global_merge g l). exact SKIP.
  - set (g' := upd g (ic i) (Some i)).
    set (keep := (match g (ic i) with Some j => negb (item_eqb j i) | None => true end || icls_eqb (ic i) Push || icls_eqb (ic i) Pop)).
    enough (Y : counted_mains n (map cv ((if keep then [i] else []) ++ snd (feed global_merge g' l))) = counted_mains n (map cv (i :: l)))
      by (destruct (feed global_merge g' l); exact Y).
    destruct (icls_eqb (ic i) ReportCount) eqn:R.
    + apply icls_eqb_eq in R.
      assert (Y := IH g' (ival i)).
      assert (G : forall j, g' ReportCount = Some j -> ic j = ReportCount /\ ival j = ival i).
      { intros j. unfold g', upd. rewrite R, (proj2 (icls_eqb_eq ReportCount ReportCount) eq_refl). intros [= <-]. auto. }
      specialize (Y G). cbn [map]. unfold cv at 2. cbn [counted_mains]. rewrite R, (proj2 (icls_eqb_eq ReportCount ReportCount) eq_refl), <- Y.
      destruct keep eqn:KP; cbn [app map].
      * unfold cv at 1. cbn [counted_mains]. rewrite R, (proj2 (icls_eqb_eq ReportCount ReportCount) eq_refl). reflexivity.
      * unfold keep in KP. rewrite R in KP. destruct (g ReportCount) as [j|] eqn:GJ; [|discriminate KP].
        destruct (H j eq_refl) as [_ <-]. apply orb_false_iff in KP. destruct KP as [KP _]. apply orb_false_iff in KP. destruct KP as [KP _].
        apply negb_false_iff in KP. apply item_eqb_spec in KP. destruct KP as [_ ->]. reflexivity.
    + apply SKIP; [apply icls_eqb_neq; exact R| |intros _; rewrite main_kind, K; reflexivity].
      unfold g', upd. destruct (icls_eqb ReportCount (ic i)) eqn:Q; [|reflexivity]. apply icls_eqb_eq in Q. apply icls_eqb_neq in R. congruence.
  - specialize (SKIP ltac:(intros X; rewrite X in K; discriminate) g true eq_refl ltac:(discriminate)).
    destruct (feed global_merge g l). exact SKIP.
Qed.

Lemma gm_form l n : counted_mains n (map cv (run_pass global_merge l)) = counted_mains n (map cv l).
Proof.
  unfold run_pass. pose proof (gm_counted l gm_init n ltac:(discriminate)) as H. change (p_init global_merge) with gm_init.
  destruct (feed global_merge gm_init l) as [s o]. change (p_close global_merge s) with (@nil item). rewrite app_nil_r. exact H.
Qed.

Lemma optimize_form db l : ends l -> forall n,
  counted_mains n (map cv (optimize db l)) = joined (fun _ => 0) 0 None (map cv l).
Proof.
  intros E n. rewrite optimize_all. cbn [passes map snd run_all fold_left].
  rewrite cm_sel, up_keep by reflexivity. unfold usage_merge, designator_merge, string_merge. rewrite !rm_keep by reflexivity.
  rewrite <- cm_sel, gm_form, cm_sel, pm_keep by reflexivity. rewrite <- cm_sel.
  rewrite mm_form by (apply du_ends; exact E). rewrite !jn_sel. f_equal. apply du_keep.
  intros c K. destruct c; try discriminate K; reflexivity.
Qed.
