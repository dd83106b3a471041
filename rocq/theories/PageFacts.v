(* PageFacts.v -- the UsagePage pass (C36) and hosts that bind the page at
   the main item. *)
From Coq Require Import ZifyBool ZifyNat.
From Verif Require Import Py Usage Item Optimizer HidSpec ItemFacts ParserFacts UsageProofs OptSpec OptFacts MainMergeFacts
  Skeleton PassFacts RangeFacts.
Ltac Zify.zify_post_hook ::= Z.div_mod_to_equations.
Local Open Scope Z_scope.

(* ------------------------------------------------------------------ *)
(** declarations up to the page they were written with *)

Definition rref (r : lref) : Z := resolve AtDecl 0 r.
Definition rdecl (d : ldecl) : Z * option Z :=
  match d with LOne r => (rref r, None) | LRange a b => (rref a, Some (rref b)) end.
Definition rtab (t : ltab) := (map rdecl (l_decls t), option_map rref (l_min t), option_map rref (l_max t)).

Lemma resolve_decl_pg pg r : resolve AtDecl pg r = rref r.
Proof. reflexivity. Qed.

Lemma values_rtab pg pg' t t' : rtab t = rtab t' -> values AtDecl pg t = values AtDecl pg' t'.
Proof.
  unfold rtab, values. destruct t as [d a b], t' as [d' a' b']. cbn [l_decls l_min l_max]. intros E. injection E as E _ _.
  revert d' E. induction d as [|x d IH]; intros [|y d'] E; try discriminate; auto.
  cbn [map] in E. injection E as E1 E2. cbn [flat_map]. rewrite (IH d' E2). f_equal.
  destruct x, y; cbn [rdecl] in E1; try discriminate; cbn [resolve_decl]; rewrite !resolve_decl_pg; congruence.
Qed.

Definition same_us (x y : locals) : Prop :=
  rtab (lo_us x) = rtab (lo_us y) /\ lo_ds x = lo_ds y /\ lo_ss x = lo_ss y /\ lo_dl x = lo_dl y.

Lemma same_us_refl x : same_us x x. Proof. repeat split. Qed.

Lemma rtab_one t t' r r' : rtab t = rtab t' -> rref r = rref r' -> rtab (add_one r t) = rtab (add_one r' t').
Proof.
  unfold rtab, add_one. destruct t as [d a b], t' as [d' a' b']. cbn [l_decls l_min l_max]. intros E R. injection E as E1 E2 E3.
  rewrite !map_app, E1, E2, E3. cbn [map rdecl]. rewrite R. reflexivity.
Qed.
Lemma rtab_min t t' r r' : rtab t = rtab t' -> rref r = rref r' -> rtab (add_min r t) = rtab (add_min r' t').
Proof.
  unfold rtab, add_min. destruct t as [d a b], t' as [d' a' b']. cbn [l_decls l_min l_max]. intros E R. injection E as E1 E2 E3.
  destruct b, b'; try discriminate; cbn [l_decls l_min l_max option_map]; rewrite ?map_app, E1; cbn [map rdecl option_map];
    cbn [option_map] in E3; rewrite R; [injection E3 as ->|]; reflexivity.
Qed.
Lemma rtab_max t t' r r' : rtab t = rtab t' -> rref r = rref r' -> rtab (add_max r t) = rtab (add_max r' t').
Proof.
  unfold rtab, add_max. destruct t as [d a b], t' as [d' a' b']. cbn [l_decls l_min l_max]. intros E R. injection E as E1 E2 E3.
  destruct a, a'; try discriminate; cbn [l_decls l_min l_max option_map]; rewrite ?map_app, E1; cbn [map rdecl option_map];
    cbn [option_map] in E2; rewrite R; [injection E2 as ->|]; reflexivity.
Qed.

Lemma same_usage c v v' e e' p p' x y : is_usage c = true -> rref (LR p e v) = rref (LR p' e' v') -> same_us x y ->
  same_us (lo_set c v e p x) (lo_set c v' e' p' y).
Proof.
  intros U R [S1 [S2 [S3 S4]]]. destruct x as [us ds ss dl], y as [us' ds' ss' dl']. cbn [lo_us lo_ds lo_ss lo_dl] in *. subst.
  destruct c; try discriminate U; cbn [lo_set]; repeat split; cbn [lo_us lo_ds lo_ss lo_dl];
    auto using rtab_one, rtab_min, rtab_max.
Qed.

Lemma same_other c v e p p' x y : is_usage c = false -> same_us x y -> same_us (lo_set c v e p x) (lo_set c v e p' y).
Proof.
  intros U [S1 [S2 [S3 S4]]]. destruct x as [us ds ss dl], y as [us' ds' ss' dl']. cbn [lo_us lo_ds lo_ss lo_dl] in *. subst.
  destruct c; try discriminate U; cbn [lo_set]; repeat split; cbn [lo_us lo_ds lo_ss lo_dl]; auto.
  assert (L : length (l_decls us) = length (l_decls us')).
  { unfold rtab in S1. injection S1 as S1 _ _. rewrite <- (map_length rdecl), S1, map_length. reflexivity. }
  rewrite L. reflexivity.
Qed.

(** tables equal but for the page *)
Definition but_page (g g' : gtab) : Prop := g_set UsagePage 0 g = g_set UsagePage 0 g'.

Lemma but_page_set c v g g' : but_page g g' -> but_page (g_set c v g) (g_set c v g').
Proof. unfold but_page. destruct g, g'. cbn [g_set]. intros E. injection E as -> -> -> -> -> -> -> -> ->. destruct c; reflexivity. Qed.
Lemma but_page_page v g : but_page g (g_set UsagePage v g).
Proof. unfold but_page. destruct g. reflexivity. Qed.
Lemma but_page_trans a b c : but_page a b -> but_page b c -> but_page a c.
Proof. unfold but_page. congruence. Qed.

Lemma but_page_obs g g' x y c v : but_page g g' -> same_us x y -> full_obs AtDecl g x c v = full_obs AtDecl g' y c v.
Proof.
  intros B [S1 [S2 [S3 S4]]]. unfold full_obs, data_events, mk_attrs.
  destruct g as [pg lm lx pm px ue un sz ri ct], g' as [pg' lm' lx' pm' px' ue' un' sz' ri' ct'].
  unfold but_page in B. cbn [g_set] in B. injection B as -> -> -> -> -> -> -> -> ->.
  cbn [g_page g_lmin g_lmax g_pmin g_pmax g_uexp g_unit g_size g_rid g_count].
  rewrite (values_rtab pg pg' _ _ S1), S2, S3, S4.
  rewrite (values_rtab pg pg' (lo_ds y) (lo_ds y) eq_refl), (values_rtab pg pg' (lo_ss y) (lo_ss y) eq_refl). reflexivity.
Qed.

(* ------------------------------------------------------------------ *)
(** the pass on one item *)

Lemma rebuild_good db c v : 0 <= py_int v -> (c = UsagePage \/ is_usage c = true) ->
  exists j, rebuild db c v = [j] /\ ic j = c /\ ival j = py_int v /\ constructed j.
Proof.
  intros P C.
  assert (NC : neg_collection c v = false) by (destruct C as [-> |C]; [|destruct c; try discriminate C]; reflexivity).
  destruct (proj2 (mk_item_accepts db c v NC)) as [j Hj].
  { split; [right; auto|]. destruct C as [-> |C]; [|destruct c; try discriminate C]; discriminate. }
  exists j. unfold rebuild. rewrite Hj. split; auto. split; [eapply mk_item_class; eauto|].
  split; [apply (mk_item_int _ _ _ _ NC Hj)|eapply mk_item_constructed; eauto].
Qed.

Definition new_page (page : option Z) (p : Z) : bool :=
  match page with None => true | Some q => negb (q =? p) end.

Lemma up_usage db page i : constructed i -> is_usage (ic i) = true ->
  exists pg u, ic pg = UsagePage /\ ival pg = ival i / 65536 /\ ic u = ic i /\ ival u = ival i mod 65536 /\
    constructed pg /\ constructed u /\
    up_append db page i = (Some (ival i / 65536), (if new_page page (ival i / 65536) then [pg] else []) ++ [u]).
Proof.
  intros C U.
  assert (P : 0 <= ival i).
  { destruct (constructed_facts i C) as [[Q|Q] _]; auto. destruct (ic i); discriminate. }
  destruct (c16 db (iv i)) as [_ [S1 S2]].
  destruct (rebuild_good db UsagePage (fst (split (lookup db (iv i))))) as [pg [R1 [R2 [R3 R4]]]]; auto.
  { rewrite S1. unfold ival in P. lia. }
  destruct (rebuild_good db (ic i) (snd (split (lookup db (iv i))))) as [u [Q1 [Q2 [Q3 Q4]]]]; auto.
  { rewrite S2. lia. }
  exists pg, u. unfold up_append. rewrite U. destruct (split (lookup db (iv i))) as [sp su]. cbn [fst snd] in *.
  change (ival i) with (py_int (iv i)) in *. rewrite R1, Q1.
  repeat split; auto; try congruence. unfold new_page. rewrite S1. destruct page as [q|]; cbn [negb]; auto.
  destruct (q =? py_int (iv i) / 65536) eqn:E; cbn [negb]; auto. f_equal. f_equal. lia.
Qed.

Lemma usage_tag_is c : usage_tag c = is_usage c. Proof. destruct c; reflexivity. Qed.

Lemma up_go {EV} (obs : gtab -> locals -> icls -> Z -> list EV)
  (OB : forall g g' x y c v, but_page g g' -> same_us x y -> obs g x c v = obs g' y c v) db l : Forall constructed l -> push_free l -> extended (map cv l) ->
  forall page g g' x y, but_page g g' -> same_us x y -> (forall p, page = Some p -> p = g_page g') ->
  snd (hrun obs (H g' [] y) (snd (feed (usage_page_pass db) page l))) =
  snd (hrun obs (H g [] x) l).
Proof.
  intros C P E. induction l as [|i l IH]; intros page g g' x y B S PG; auto.
  inversion C as [|? ? C1 C2]; subst. inversion P as [|? ? [P1 P2] P3]; subst. inversion E as [|? ? E1 E2]; subst.
  specialize (IH C2 P3 E2). cbn [cv fst snd] in E1.
  cbn [feed]. change (p_append (usage_page_pass db)) with (up_append db).
  destruct (is_usage (ic i)) eqn:U.
  - destruct (up_usage db page i C1 U) as [pg [u [U1 [U2 [U3 [U4 [U5 [U6 AP]]]]]]]]. rewrite AP.
    rewrite usage_tag_is in E1. specialize (E1 U).
    assert (KL : kind_of (ic i) = Local) by (destruct (ic i); try discriminate U; reflexivity).
    rewrite (hrun_local obs g [] x i l KL).
    assert (X : forall g1, but_page g g1 -> g_page g1 = ival i / 65536 ->
      same_us (lo_set (ic i) (ival i) (w_ext (wire i)) (g_page g) x) (lo_set (ic u) (ival u) (w_ext (wire u)) (g_page g1) y)).
    { intros g1 B1 PG1. rewrite U3. apply same_usage; auto.
      rewrite (ext_usage i C1 U), (ext_usage u U6) by (rewrite U3; auto). rewrite U4, PG1. unfold rref, resolve.
      cbn [lr_abs lr_page lr_val]. replace (65536 <=? ival i) with true by lia.
      replace (65536 <=? ival i mod 65536) with false by lia. lia. }
    destruct (new_page page (ival i / 65536)) eqn:NP.
    + specialize (IH (Some (ival i / 65536)) g (g_set UsagePage (ival i / 65536) g')
        (lo_set (ic i) (ival i) (w_ext (wire i)) (g_page g) x)
        (lo_set (ic u) (ival u) (w_ext (wire u)) (g_page (g_set UsagePage (ival i / 65536) g')) y)).
      destruct (feed (usage_page_pass db) (Some (ival i / 65536)) l) as [s2 o2]. cbn [app snd] in *.
      rewrite hrun_global by (rewrite U1; reflexivity). rewrite U1, U2. cbn [table_step fst snd].
      rewrite hrun_local by (rewrite U3; auto). apply IH.
      * eapply but_page_trans; [exact B|apply but_page_page].
      * apply X; [eapply but_page_trans; [exact B|apply but_page_page]|destruct g'; reflexivity].
      * intros p Q. injection Q as <-. destruct g'; reflexivity.
    + assert (PQ : page = Some (ival i / 65536)).
      { unfold new_page in NP. destruct page; [|discriminate]. f_equal. lia. }
      specialize (IH (Some (ival i / 65536)) g g'
        (lo_set (ic i) (ival i) (w_ext (wire i)) (g_page g) x)
        (lo_set (ic u) (ival u) (w_ext (wire u)) (g_page g') y)).
      destruct (feed (usage_page_pass db) (Some (ival i / 65536)) l) as [s2 o2]. cbn [app snd] in *.
      rewrite hrun_local by (rewrite U3; auto). apply IH; auto.
      * apply X; auto. symmetry. apply PG; auto.
      * intros p Q. injection Q as <-. apply PG; auto.
  - assert (AP : up_append db page i = (match ic i with UsagePage => Some (ival i) | _ => page end, [i])).
    { unfold up_append. rewrite U. reflexivity. }
    rewrite AP.
    set (page' := match ic i with UsagePage => Some (ival i) | _ => page end).
    destruct (kind_of (ic i)) eqn:K.
    + rewrite (hrun_main obs g [] x i l K).
      specialize (IH page' g g' lo_init lo_init B (same_us_refl _)).
      destruct (feed (usage_page_pass db) page' l) as [s2 o2]. cbn [app snd] in *.
      rewrite hrun_main by auto. cbn [snd]. rewrite <- (OB g g' x y) by auto. f_equal. apply IH.
      intros p Q. apply PG. unfold page' in Q. destruct (ic i); try discriminate K; auto.
    + rewrite (hrun_global obs g [] x i l K).
      assert (TS : forall g0, table_step (g0, []) (ic i) (ival i) = (g_set (ic i) (ival i) g0, [])).
      { intros g0. destruct (ic i); try contradiction; reflexivity. }
      rewrite TS. cbn [fst snd].
      specialize (IH page' (g_set (ic i) (ival i) g) (g_set (ic i) (ival i) g') x y (but_page_set _ _ _ _ B) S).
      destruct (feed (usage_page_pass db) page' l) as [s2 o2]. cbn [app snd] in *.
      rewrite hrun_global by auto. rewrite TS. cbn [fst snd]. apply IH.
      intros p Q. unfold page' in Q. destruct g' as [pg lm lx pm px ue un sz ri ct].
      destruct (ic i); try discriminate K; try discriminate U; cbn [g_set g_page] in *;
        try (apply PG; exact Q). injection Q as <-. reflexivity.
    + rewrite (hrun_local obs g [] x i l K).
      specialize (IH page' g g' (lo_set (ic i) (ival i) (w_ext (wire i)) (g_page g) x)
        (lo_set (ic i) (ival i) (w_ext (wire i)) (g_page g') y) B (same_other _ _ _ _ _ _ _ U S)).
      destruct (feed (usage_page_pass db) page' l) as [s2 o2]. cbn [app snd] in *.
      rewrite hrun_local by auto. apply IH.
      intros p Q. apply PG. unfold page' in Q. destruct (ic i); try discriminate K; auto.
Qed.

Lemma up_run_split db l : run_pass (usage_page_pass db) l = snd (feed (usage_page_pass db) None l).
Proof.
  unfold run_pass. change (p_init (usage_page_pass db)) with (@None Z).
  destruct (feed (usage_page_pass db) None l) as [s o].
  change (p_close (usage_page_pass db) s) with (@nil item). apply app_nil_r.
Qed.

Lemma up_view db l : Forall constructed l -> push_free l -> extended (map cv l) ->
  seen AtDecl (run_pass (usage_page_pass db) l) = seen AtDecl l.
Proof.
  intros C P E. rewrite up_run_split, !seen_hrun.
  apply (up_go (full_obs AtDecl) but_page_obs db l C P E None g_init g_init lo_init lo_init eq_refl (same_us_refl _)). discriminate.
Qed.

(* ------------------------------------------------------------------ *)
(** the pass on tags and numbers *)

Fixpoint ups (page : option Z) (l : list spec_item) : list spec_item :=
  match l with
  | [] => []
  | (c, v) :: r =>
      if usage_tag c
      then (if new_page page (v / 65536) then [(UsagePage, v / 65536)] else []) ++ (c, v mod 65536) :: ups (Some (v / 65536)) r
      else (c, v) :: ups (match c with UsagePage => Some v | _ => page end) r
  end.

Lemma up_ups db l : Forall constructed l -> forall page,
  map cv (snd (feed (usage_page_pass db) page l)) = ups page (map cv l).
Proof.
  induction 1 as [|i l C _ IH]; intros page; auto.
  cbn [feed map]. change (p_append (usage_page_pass db)) with (up_append db). unfold cv at 2. cbn [ups]. rewrite usage_tag_is.
  destruct (is_usage (ic i)) eqn:U.
  - destruct (up_usage db page i C U) as [pg [u [U1 [U2 [U3 [U4 [U5 [U6 AP]]]]]]]]. rewrite AP.
    specialize (IH (Some (ival i / 65536))). destruct (feed (usage_page_pass db) (Some (ival i / 65536)) l) as [s2 o2].
    cbn [snd] in *. rewrite !map_app, IH. rewrite <- app_assoc. cbn [map app]. unfold cv at 2. rewrite U3, U4.
    destruct (new_page page (ival i / 65536)); cbn [map app]; [unfold cv at 1; rewrite U1, U2|]; reflexivity.
  - assert (AP : up_append db page i = (match ic i with UsagePage => Some (ival i) | _ => page end, [i])).
    { unfold up_append. rewrite U. reflexivity. }
    rewrite AP. specialize (IH (match ic i with UsagePage => Some (ival i) | _ => page end)).
    destruct (feed (usage_page_pass db) (match ic i with UsagePage => Some (ival i) | _ => page end) l) as [s2 o2].
    cbn [snd app map] in *. rewrite IH. reflexivity.
Qed.

Lemma ups_strip l : forall page, no_pages (ups page l) = map strip (no_pages l).
Proof.
  unfold no_pages. induction l as [|[c v] l IH]; intros page; auto. cbn [ups filter map fst].
  destruct (usage_tag c) eqn:U.
  - replace (icls_eqb c UsagePage) with false by (destruct c; try discriminate U; reflexivity).
    cbn [negb map]. unfold strip at 1. cbn [fst snd]. rewrite U.
    destruct (new_page page (v / 65536)); cbn [app filter fst negb icls_eqb];
      replace (icls_eqb c UsagePage) with false by (destruct c; try discriminate U; reflexivity);
      cbn [negb]; rewrite IH; reflexivity.
  - cbn [filter fst]. destruct (icls_eqb c UsagePage); cbn [negb map]; rewrite IH; auto.
    unfold strip at 2. cbn [fst]. rewrite U. reflexivity.
Qed.

Lemma ups_change l : Forall (fun x => fst x <> UsagePage) l -> forall page k, (k UsagePage = page) ->
  no_repeats k (pages (ups page l)).
Proof.
  unfold pages. induction 1 as [|[c v] l N _ IH]; intros page k K; [exact I|]. cbn [fst] in N. cbn [ups].
  destruct (usage_tag c) eqn:U.
  - assert (CF : icls_eqb c UsagePage = false) by (destruct c; try discriminate U; reflexivity).
    destruct (new_page page (v / 65536)) eqn:NP; cbn [app filter fst].
    + change (icls_eqb UsagePage UsagePage) with true. rewrite CF. cbv iota. cbn [no_repeats]. 
      change (global_tag UsagePage) with true. cbv iota. split; [|apply IH; reflexivity].
      right. right. rewrite K. unfold new_page in NP. destruct page; [|discriminate]. intros Q. injection Q as ->. lia.
    + rewrite CF. apply IH. rewrite K. unfold new_page in NP. destruct page; [|discriminate]. f_equal. lia.
  - cbn [filter fst]. replace (icls_eqb c UsagePage) with false by (symmetry; apply icls_eqb_neq; auto).
    apply IH. destruct c; auto; contradiction.
Qed.

Lemma ups_quiet p l : Forall (fun x => page_tag (fst x) = false) l ->
  Forall (fun x => usage_tag (fst x) = true -> snd x / 65536 = p) l ->
  Forall (fun x => page_tag (fst x) = false) (ups (Some p) l).
Proof.
  induction 1 as [|[c v] l T _ IH]; intros F; [constructor|]. inversion F as [|? ? F1 F2]; subst. cbn [fst snd] in *. cbn [ups].
  destruct (usage_tag c) eqn:U.
  - rewrite (F1 eq_refl). unfold new_page. rewrite Z.eqb_refl. cbn [negb app]. constructor; auto.
  - constructor; auto. replace (match c with UsagePage => Some v | _ => Some p end) with (Some p); auto.
    destruct c; auto; discriminate T.
Qed.

Lemma ups_settled l : page_settled l -> one_page l -> forall page, page_settled (ups page l).
Proof.
  induction l as [|[c v] l IH]; intros PS [p F] page; [exact I|].
  inversion F as [|? ? F1 F2]; subst. destruct PS as [P1 P2]. cbn [fst snd] in *. cbn [ups].
  assert (IH' := IH P2 (ex_intro _ p F2)).
  destruct (usage_tag c) eqn:U.
  - specialize (P1 eq_refl). rewrite (F1 eq_refl).
    assert (Q : page_settled ((c, v mod 65536) :: ups (Some p) l)).
    { split; auto. intros _. apply ups_quiet; auto. }
    destruct (new_page page p); cbn [app]; auto. split; [discriminate|exact Q].
  - split; [rewrite U; discriminate|]. apply IH'.
Qed.

Lemma chunks_some l : exists c cs, chunks l = c :: cs.
Proof.
  destruct l as [|x l]; cbn [chunks]; eauto. destruct (main_tag (fst x)); eauto. destruct (chunks l); eauto.
Qed.

Lemma ups_chunks l : Forall (fun c => page_settled c /\ one_page c) (chunks l) -> forall page,
  exists cs, chunks (ups page l) = ups page (hd [] (chunks l)) :: cs /\ Forall page_settled cs.
Proof.
  induction l as [|[c v] l IH]; intros F page.
  - exists []. split; auto.
  - cbn [chunks fst] in *. cbn [ups]. destruct (main_tag c) eqn:M.
    + inversion F as [|? ? _ F2]; subst.
      assert (UT : usage_tag c = false) by (destruct c; try discriminate M; reflexivity).
      rewrite UT. cbn [chunks fst hd ups]. rewrite M.
      assert (PE : match c with UsagePage => Some v | _ => page end = page) by (destruct c; try discriminate M; reflexivity).
      rewrite PE. destruct (IH F2 page) as [cs [E1 E2]]. exists (chunks (ups page l)). split; auto. rewrite E1. constructor; auto.
      destruct (chunks_some l) as [c0 [cs0 E0]]. rewrite E0 in *. cbn [hd]. inversion F2 as [|? ? [S1 S2] _]; subst.
      apply ups_settled; auto.
    + destruct (chunks_some l) as [c0 [cs0 E0]]. rewrite E0 in *. cbn [hd].
      inversion F as [|? ? [S1 [p S2]] F2]; subst. destruct S1 as [_ S1]. inversion S2 as [|? ? _ S3]; subst.
      assert (FI : Forall (fun c => page_settled c /\ one_page c) (c0 :: cs0)) by (constructor; auto; split; [auto|exists p; auto]).
      cbn [ups]. destruct (usage_tag c) eqn:U.
      * destruct (IH FI (Some (v / 65536))) as [cs [E1 E2]]. exists cs. split; auto. cbn [hd] in E1.
        destruct (new_page page (v / 65536)); cbn [app chunks fst]; rewrite M, E1; reflexivity.
      * destruct (IH FI (match c with UsagePage => Some v | _ => page end)) as [cs [E1 E2]]. exists cs. split; auto. cbn [hd] in E1.
        cbn [chunks fst]. rewrite M, E1. reflexivity.
Qed.

Lemma up_settled db l : Forall constructed l -> Forall (fun c => page_settled c /\ one_page c) (chunks (map cv l)) ->
  Forall page_settled (chunks (map cv (run_pass (usage_page_pass db) l))).
Proof.
  intros C F. rewrite up_run_split, (up_ups db l C). destruct (ups_chunks (map cv l) F None) as [cs [E1 E2]].
  rewrite E1. constructor; auto. destruct (chunks_some (map cv l)) as [c0 [cs0 E0]]. rewrite E0 in *. cbn [hd].
  inversion F as [|? ? [S1 S2] _]; subst. apply ups_settled; auto.
Qed.

(* ------------------------------------------------------------------ *)
(** when no page changes between a usage and its main item, the moment of
    binding does not matter *)

Definition refs (t : ltab) : list lref :=
  flat_map (fun d => match d with LOne r => [r] | LRange a b => [a; b] end) (l_decls t)
  ++ match l_min t with Some r => [r] | None => [] end ++ match l_max t with Some r => [r] | None => [] end.

Definition bound (pg : Z) (r : lref) : Prop := lr_abs r = true \/ lr_page r = pg.

Lemma bound_resolve pg r : bound pg r -> resolve AtMain pg r = resolve AtDecl pg r.
Proof. unfold bound, resolve. destruct (lr_abs r); auto. intros [Q| ->]; [discriminate|reflexivity]. Qed.

Lemma bound_values pg t : Forall (bound pg) (refs t) -> values AtMain pg t = values AtDecl pg t.
Proof.
  unfold refs, values. intros F. apply Forall_app in F. destruct F as [F _].
  induction (l_decls t) as [|d ds IH]; auto. cbn [flat_map] in *. apply Forall_app in F. destruct F as [F1 F2].
  rewrite (IH F2). f_equal. destruct d; cbn [resolve_decl].
  - inversion F1; subst. rewrite bound_resolve; auto.
  - inversion F1 as [|? ? B1 F3]; subst. inversion F3; subst. rewrite !bound_resolve; auto.
Qed.

Lemma refs_one (Q : lref -> Prop) t r : Forall Q (refs t) -> Q r -> Forall Q (refs (add_one r t)).
Proof.
  unfold refs, add_one. cbn [l_decls l_min l_max]. rewrite flat_map_app, !Forall_app. cbn [flat_map app]. intros [A [B C]] D.
  repeat split; auto.
Qed.
Lemma refs_min (Q : lref -> Prop) t r : Forall Q (refs t) -> Q r -> Forall Q (refs (add_min r t)).
Proof.
  unfold refs, add_min. rewrite !Forall_app. intros [A [B C]] D. destruct (l_max t) as [b|]; cbn [l_decls l_min l_max].
  - inversion C; subst. rewrite flat_map_app, !Forall_app. cbn [flat_map app]. repeat split; auto.
  - repeat split; auto.
Qed.
Lemma refs_max (Q : lref -> Prop) t r : Forall Q (refs t) -> Q r -> Forall Q (refs (add_max r t)).
Proof.
  unfold refs, add_max. rewrite !Forall_app. intros [A [B C]] D. destruct (l_min t) as [b|]; cbn [l_decls l_min l_max].
  - inversion B; subst. rewrite flat_map_app, !Forall_app. cbn [flat_map app]. repeat split; auto.
  - repeat split; auto.
Qed.

Definition absolute (r : lref) : Prop := lr_abs r = true.

Lemma abs_bound pg t : Forall absolute (refs t) -> Forall (bound pg) (refs t).
Proof. apply Forall_impl. intros r A. left. exact A. Qed.

Definition tabs_ok (pg : Z) (x : locals) : Prop :=
  Forall (bound pg) (refs (lo_us x)) /\ Forall absolute (refs (lo_ds x)) /\ Forall absolute (refs (lo_ss x)).

Lemma tabs_init pg : tabs_ok pg lo_init.
Proof. repeat split; constructor. Qed.

Lemma tabs_set c v e pg x : tabs_ok pg x -> tabs_ok pg (lo_set c v e pg x).
Proof.
  intros [A [B C]]. destruct x as [us ds ss dl]. cbn [lo_us lo_ds lo_ss] in *.
  assert (BD : bound pg (LR pg e v)) by (right; reflexivity).
  assert (AB : absolute (LR 0 true v)) by reflexivity.
  destruct c; cbn [lo_set]; repeat split; cbn [lo_us lo_ds lo_ss]; auto using refs_one, refs_min, refs_max.
Qed.

Lemma tabs_obs g x c v : tabs_ok (g_page g) x -> full_obs AtMain g x c v = full_obs AtDecl g x c v.
Proof.
  intros [A [B C]]. unfold full_obs, data_events.
  rewrite (bound_values _ _ A), (bound_values _ _ (abs_bound _ _ B)), (bound_values _ _ (abs_bound _ _ C)). reflexivity.
Qed.

Lemma us_other c v e pg x : usage_tag c = false -> lo_us (lo_set c v e pg x) = lo_us x.
Proof. destruct x. destruct c; intros; try discriminate; reflexivity. Qed.

Lemma page_kept c v gs : page_tag c = false -> g_page (fst (table_step gs c v)) = g_page (fst gs).
Proof. destruct gs as [g sk]. destruct g. destruct c; intros; try discriminate; reflexivity. Qed.

Lemma bind_go {EV} (obs : binding -> gtab -> locals -> icls -> Z -> list EV)
  (OB : forall g x c v, tabs_ok (g_page g) x -> obs AtMain g x c v = obs AtDecl g x c v) l : forall g sk x, Forall page_settled (chunks (map cv l)) ->
  tabs_ok (g_page g) x -> (refs (lo_us x) <> [] -> Forall (fun x => page_tag (fst x) = false) (hd [] (chunks (map cv l)))) ->
  snd (hrun (obs AtMain) (H g sk x) l) = snd (hrun (obs AtDecl) (H g sk x) l).
Proof.
  induction l as [|i l IH]; intros g sk x F T N; auto.
  cbn [map chunks] in F, N. change (fst (cv i)) with (ic i) in F, N.
  destruct (chunks_some (map cv l)) as [c0 [cs0 E0]].
  destruct (kind_of (ic i)) eqn:K.
  - rewrite (proj2 (main_tag_kind _) K) in F, N. inversion F as [|? ? _ F2]; subst.
    rewrite !hrun_main by auto. cbn [snd]. rewrite OB by auto. f_equal. apply IH; auto using tabs_init.
    intros Q. contradiction Q. reflexivity.
  - assert (M : main_tag (ic i) = false) by (destruct (main_tag (ic i)) eqn:Q; auto; apply main_tag_kind in Q; congruence).
    rewrite M, E0 in F, N. inversion F as [|? ? F1 F2]; subst. destruct F1 as [_ F1].
    rewrite !hrun_global by auto. apply IH.
    + rewrite E0. constructor; auto.
    + destruct (refs (lo_us x)) eqn:R.
      * destruct T as [_ T]. split; [rewrite R; constructor|auto].
      * assert (PT : page_tag (ic i) = false) by (specialize (N ltac:(discriminate)); inversion N; auto).
        rewrite page_kept by auto. exact T.
    + rewrite E0. cbn [hd] in *. intros Q. specialize (N Q). inversion N; auto.
  - assert (M : main_tag (ic i) = false) by (destruct (main_tag (ic i)) eqn:Q; auto; apply main_tag_kind in Q; congruence).
    rewrite M, E0 in F, N. inversion F as [|? ? F1 F2]; subst. destruct F1 as [F0 F1].
    rewrite !hrun_local by auto. apply IH.
    + rewrite E0. constructor; auto.
    + apply tabs_set. auto.
    + rewrite E0. cbn [hd] in *. destruct (usage_tag (ic i)) eqn:U; [intros _; apply F0; auto|].
      rewrite us_other by auto. intros Q. specialize (N Q). inversion N; auto.
Qed.

Lemma binding_free l : Forall page_settled (chunks (map cv l)) -> seen AtMain l = seen AtDecl l.
Proof.
  intros F. rewrite !seen_hrun. apply (bind_go full_obs tabs_obs); auto using tabs_init. intros Q. contradiction Q. reflexivity.
Qed.

(** extended usages are bound anyway *)
Lemma ext_tabs i pg x : constructed i -> (usage_tag (ic i) = true -> 65536 <= ival i) ->
  Forall absolute (refs (lo_us x)) -> Forall absolute (refs (lo_us (lo_set (ic i) (ival i) (w_ext (wire i)) pg x))).
Proof.
  intros C E A. destruct (usage_tag (ic i)) eqn:U; [|rewrite us_other; auto]. specialize (E eq_refl).
  rewrite usage_tag_is in U. rewrite (ext_usage i C U). replace (65536 <=? ival i) with true by lia.
  assert (AB : absolute (LR pg true (ival i))) by reflexivity.
  destruct x as [us ds ss dl]. destruct (ic i); try discriminate U; cbn [lo_set lo_us] in *; auto using refs_one, refs_min, refs_max.
Qed.

Lemma ext_go {EV} (obs : binding -> gtab -> locals -> icls -> Z -> list EV)
  (OB : forall g x c v, tabs_ok (g_page g) x -> obs AtMain g x c v = obs AtDecl g x c v) l : Forall constructed l -> extended (map cv l) -> forall g sk x,
  (forall pg, tabs_ok pg x) -> Forall absolute (refs (lo_us x)) ->
  snd (hrun (obs AtMain) (H g sk x) l) = snd (hrun (obs AtDecl) (H g sk x) l).
Proof.
  induction 1 as [|i l C _ IH]; intros E g sk x T A; auto. inversion E as [|? ? E1 E2]; subst. cbn [cv fst snd] in E1.
  destruct (kind_of (ic i)) eqn:K.
  - rewrite !hrun_main by auto. cbn [snd]. rewrite OB by auto. f_equal. apply IH; auto using tabs_init. constructor.
  - rewrite !hrun_global by auto. apply IH; auto.
  - rewrite !hrun_local by auto. pose proof (ext_tabs i (g_page g) x C E1 A) as A'. apply IH; auto.
    intros pg. destruct (tabs_set (ic i) (ival i) (w_ext (wire i)) (g_page g) x (T _)) as [_ T2].
    split; auto. apply abs_bound; auto.
Qed.

Lemma ext_binding l : Forall constructed l -> extended (map cv l) -> seen AtMain l = seen AtDecl l.
Proof. intros C E. rewrite !seen_hrun. apply (ext_go full_obs tabs_obs); auto using tabs_init. constructor. Qed.

Lemma c36 db l : Forall constructed l -> push_free l -> extended (map cv l) ->
  let out := run_pass (usage_page_pass db) l in
  seen AtDecl out = seen AtDecl l /\
  no_pages (map cv out) = map strip (no_pages (map cv l)) /\
  (pages (map cv l) = [] -> no_repeats (fun _ => None) (pages (map cv out))) /\
  (Forall (fun c => page_settled c /\ one_page c) (chunks (map cv l)) -> seen AtMain out = seen AtMain l).
Proof.
  intros C P E out. unfold out. split; [apply up_view; auto|].
  split. { rewrite up_run_split, up_ups by auto. apply ups_strip. }
  split. { intros Q. rewrite up_run_split, up_ups by auto. apply ups_change; auto.
    apply Forall_forall. intros x I Q2. assert (I2 : In x (pages (map cv l))).
    { unfold pages. apply filter_In. split; auto. rewrite Q2. reflexivity. }
    rewrite Q in I2. destruct I2. }
  intros F. rewrite (binding_free _ (up_settled db l C F)), (up_view db l C P E). symmetry. apply ext_binding; auto.
Qed.
