(* OptBack.v -- optimised descriptors decompile to the fields of the tree
   (C65). *)
From Coq Require Import ZifyBool ZifyNat.
From Verif Require Import Py Usage Item Parser Optimizer Descriptor Extractor HidSpec Spec StreamSpec OptSpec AllSpec
  ItemFacts ParserFacts OptFacts MainMergeFacts Skeleton PassFacts RangeFacts GlobalFacts PageFacts MergeFacts PhysFacts DesigFacts
  OptAll TreeSpec StreamProofs PlainHost StreamTree TreeOpt PageSpec PageShift PageTree BackSpec ExtractSpec AcceptSpec ExtractFacts ExtractView ExtractAccept CodecProofs DumpCompile BytesBack OptBackSpec.
Import ListNotations.
Local Open Scope list_scope.
Local Open Scope Z_scope.

(* ------------------------------------------------------------------ *)
(** what a main item asks of the collections around it *)

Inductive mark := MOpen (k : Z) | MClose | MSpan | MBad.

Definition atmost1 (l : list Z) : bool := match l with _ :: _ :: _ => false | _ => true end.
Definition nozero (l : list Z) : bool := forallb (fun z => negb (z =? 0)) l.

Definition spanb (us : list Z) (lmin lmax : Z) : bool := Z.of_nat (length us) =? lmax - lmin + 1.

Definition goodb (us ds ss : list Z) (nodl : bool) (g : gtab) (f : Z) : bool :=
  nodl && nozero ds && nozero ss &&
  (if is_variable f
   then negb (is_buffered f) || (atmost1 us && atmost1 ds && atmost1 ss)
   else atmost1 ds && atmost1 ss &&
        (if (f =? 0) && spanb us (g_lmin g) (g_lmax g)
         then (g_unit g =? 0) && (g_uexp g =? 0) && (fst (eff g) =? g_lmin g) && (snd (eff g) =? g_lmax g) && (g_lmin g <=? g_lmax g)
         else atmost1 us)).

Definition mark_of (us ds ss : list Z) (nodl : bool) (g : gtab) (c : icls) (f : Z) : list mark :=
  match c with
  | Collection => [MOpen f]
  | EndCollection => [MClose]
  | Input | Output | Feature =>
      if is_constant f then []
      else (if (g_count g =? 1) && spanb us (g_lmin g) (g_lmax g) then [MSpan] else []) ++
           (if goodb us ds ss nodl g f then [] else [MBad])
  | _ => []
  end.

Definition nodl (x : locals) : bool := match lo_dl x with [] => true | _ => false end.

Definition mobs (m : binding) (g : gtab) (x : locals) (c : icls) (f : Z) : list mark :=
  mark_of (values m (g_page g) (lo_us x)) (values m (g_page g) (lo_ds x)) (values m (g_page g) (lo_ss x)) (nodl x) g c f.

Definition marked (m : binding) (l : list item) : list mark := snd (hrun (mobs m) (H g_init [] lo_init) l).

Lemma mobs_alike m g x y c v : alike m (g_page g) x y -> mobs m g x c v = mobs m g y c v.
Proof.
  intros [A1 A2]. unfold mobs, nodl.
  pose proof (A1 Usage ltac:(left; auto)) as U. pose proof (A1 DesignatorIndex ltac:(right; left; auto)) as D.
  pose proof (A1 StringIndex ltac:(right; right; auto)) as S. cbn [tab] in U, D, S.
  rewrite U, D, S, A2. reflexivity.
Qed.

Lemma mark_g us ds ss n g g' c f : g_count g = g_count g' -> g_lmin g = g_lmin g' -> g_lmax g = g_lmax g' ->
  g_unit g = g_unit g' -> g_uexp g = g_uexp g' -> eff g = eff g' -> mark_of us ds ss n g c f = mark_of us ds ss n g' c f.
Proof. intros A B C D E F. unfold mark_of, goodb. rewrite A, B, C, D, E, F. reflexivity. Qed.

Lemma mobs_np m g g' x c v : np g = np g' -> eff g = eff g' -> mobs m g x c v = mobs m g' x c v.
Proof.
  intros N F. unfold mobs. rewrite (np_page _ _ N).
  apply mark_g; auto; destruct g, g'; unfold np in N; cbn in N; injection N; intros; subst; reflexivity.
Qed.

Lemma mobs_page g g' x y c v : but_page g g' -> same_us x y -> mobs AtDecl g x c v = mobs AtDecl g' y c v.
Proof.
  intros B [S1 [S2 [S3 S4]]]. unfold mobs, nodl. rewrite (values_rtab (g_page g) (g_page g') _ _ S1), S2, S3, S4.
  assert (Q : forall t, values AtDecl (g_page g) t = values AtDecl (g_page g') t) by (intros t; apply values_rtab; reflexivity).
  rewrite !Q. apply mark_g; destruct g, g'; unfold but_page in B; cbn in B; injection B; intros; subst; reflexivity.
Qed.

Lemma mobs_bind g x c v : tabs_ok (g_page g) x -> mobs AtMain g x c v = mobs AtDecl g x c v.
Proof.
  intros [A [B C]]. unfold mobs.
  rewrite (bound_values _ _ A), (bound_values _ _ (abs_bound _ _ B)), (bound_values _ _ (abs_bound _ _ C)). reflexivity.
Qed.

(* ------------------------------------------------------------------ *)
(** the passes keep the marks *)

Lemma marked_machine m l : push_free l -> marked m l = snd (mrun (mobs m) (g_init, lo_init) l).
Proof.
  intros P. unfold marked, hrun, mrun. destruct (m_run_host (mobs m) (map wire l) g_init [] lo_init) as [st' E]; [apply Forall_map; exact P|].
  rewrite E. reflexivity.
Qed.

Lemma pm_marked m l : push_free l -> physical_ok (0, 0) (0, 0) (chunks (map cv l)) -> marked m (run_pass physical_merge l) = marked m l.
Proof.
  intros P OK. rewrite !marked_machine by (auto using pm_push_free).
  unfold run_pass. change (Optimizer.p_init physical_merge) with pm_init.
  pose proof (pm_go (mobs m) (mobs_np m) l [] pm_init g_init g_init lo_init (0, 0) (0, 0)) as G.
  destruct (feed physical_merge pm_init l) as [s o]. cbn [fst snd app] in G. apply G; auto.
  - repeat split; auto.
  - constructor.
  - repeat split; auto.
  - rewrite chunked_nil. exact OK.
Qed.

Lemma gm_marked m l : push_free l -> marked m (run_pass global_merge l) = marked m l.
Proof.
  intros P. rewrite gm_run_split. unfold marked.
  rewrite (gm_fresh (mobs m) l gm_init defaults g_init [] lo_init knows_init); [reflexivity|].
  apply push_free_fresh; auto. apply defaults_init.
Qed.

Lemma rm_marked db lk m l : single lk -> Forall constructed l ->
  (lk = Usage -> Forall plain_usages (chunks (map cv l))) ->
  marked m (run_pass (range_merge db lk (mn_of lk) (mx_of lk)) l) = marked m l.
Proof.
  intros SL C PU. unfold marked.
  assert (T0 : tracks lk rm_init []) by (intros _; cbn; auto).
  pose proof (rm_go (mobs m) db lk m (mobs_alike m) SL l rm_init [] [] g_init [] lo_init eq_refl (or_introl (conj eq_refl eq_refl)) T0
     (Forall_nil _) (Forall_nil _) C) as G.
  cbn [map] in G. rewrite chunked_nil in G. specialize (G PU). cbv zeta in G. cbn [app] in G. rewrite <- G.
  unfold run_pass. change (Optimizer.p_init (range_merge db lk (mn_of lk) (mx_of lk))) with rm_init.
  destruct (feed (range_merge db lk (mn_of lk) (mx_of lk)) rm_init l) as [s o]. reflexivity.
Qed.

Lemma up_marked db l : Forall constructed l -> push_free l -> extended (map cv l) ->
  marked AtDecl (run_pass (usage_page_pass db) l) = marked AtDecl l.
Proof.
  intros C P E. rewrite up_run_split. unfold marked.
  apply (up_go (mobs AtDecl) mobs_page db l C P E None g_init g_init lo_init lo_init eq_refl (same_us_refl _)). discriminate.
Qed.

Lemma bind_marked l : Forall page_settled (chunks (map cv l)) -> marked AtMain l = marked AtDecl l.
Proof. intros F. unfold marked. apply (bind_go mobs mobs_bind); auto using tabs_init. intros Q. contradiction Q. reflexivity. Qed.

(** items that MainMerge joins *)
Definition calm (e1 e2 : mstate) : Prop :=
  let '(g1, x1, c1, f1) := e1 in
  let '(g2, x2, c2, f2) := e2 in
  paired x1 /\
  (is_constant f1 = false ->
   is_variable f1 = true /\ is_buffered f1 = false /\ 1 <= g_count g2 /\
   mobs AtDecl g1 x1 c1 f1 = [] /\ mobs AtDecl g2 x2 c2 f2 = []).

Lemma values_decl pg pg' t : values AtDecl pg t = values AtDecl pg' t.
Proof. apply values_rtab. reflexivity. Qed.

Definition clean (x : locals) : Prop :=
  nodl x = true /\ nozero (values AtDecl 0 (lo_ds x)) = true /\ nozero (values AtDecl 0 (lo_ss x)) = true.

(** a variable that is no buffer *)
Lemma calm_marks g x c f : data_tag c = true -> is_constant f = false -> is_variable f = true -> is_buffered f = false ->
  mobs AtDecl g x c f = [] <->
  (g_count g <> 1 \/ spanb (values AtDecl 0 (lo_us x)) (g_lmin g) (g_lmax g) = false) /\ clean x.
Proof.
  intros D C V B. unfold mobs, mark_of, goodb, clean. rewrite C, V, B. cbn [negb orb]. rewrite andb_true_r.
  rewrite (values_decl _ 0 (lo_us x)), (values_decl _ 0 (lo_ds x)), (values_decl _ 0 (lo_ss x)).
  set (s := spanb _ _ _). destruct (nodl x), (nozero (values AtDecl 0 (lo_ds x))), (nozero (values AtDecl 0 (lo_ss x)));
    destruct c; try discriminate D; destruct (g_count g =? 1) eqn:E; destruct s; cbn [andb app];
    (split; [intros X; try discriminate X; repeat split; auto; left; lia|intros [[X|X] [Y [Z W]]]; first [reflexivity|discriminate|lia]]).
Qed.

Lemma nozero_app a b : nozero (a ++ b) = nozero a && nozero b.
Proof. apply forallb_app. Qed.

Lemma clean_app x y : clean x -> clean y -> clean (lapp x y).
Proof.
  intros [A1 [A2 A3]] [B1 [B2 B3]]. unfold clean, nodl in *. destruct x as [us ds ss dl], y as [us' ds' ss' dl'].
  cbn [lapp lo_us lo_ds lo_ss lo_dl] in *. rewrite !values_t_app, !nozero_app, A2, A3, B2, B3.
  destruct dl, dl'; try discriminate; repeat split; reflexivity.
Qed.

Lemma grp_calm lx n g x c f : grp lapp calm lx n (g, x, c, f) -> data_tag c = true -> is_constant f = false ->
  is_variable f = true -> is_buffered f = false -> mobs AtDecl g x c f = [] ->
  clean lx /\ 1 <= n /\ (n = 1 -> lx = x /\ g_count g = 1).
Proof.
  intros GR. remember (g, x, c, f) as e. revert g x c f Heqe.
  induction GR as [g0 x0 c0 f0 H|lx n e1 g0 x0 c0 f0 GR IH J RR H]; intros g x c f E D C V B M; injection E as <- <- <- <-.
  - apply calm_marks in M; auto. split; [apply M|]. split; [lia|]. auto.
  - destruct e1 as [[[g1 x1] c1] f1]. destruct J as [_ [-> [-> _]]]. destruct RR as [_ RR].
    destruct (RR C) as [_ [_ [_ [M1 _]]]]. destruct (IH _ _ _ _ eq_refl D C V B M1) as [CL [N _]].
    apply calm_marks in M; auto. split; [apply clean_app; tauto|]. split; lia.
Qed.

Lemma grp_pair lx n g x c f : grp lapp calm lx n (g, x, c, f) -> paired x -> paired lx.
Proof.
  intros GR. inversion GR; subst; auto. intros P. unfold paired in *. cbn [lapp lo_us lo_ds lo_ss t_app l_min l_max].
  inversion P as [|? ? P1 Q1]; subst. inversion Q1 as [|? ? P2 Q2]; subst. inversion Q2 as [|? ? P3 _]; subst.
  repeat constructor; tauto.
Qed.

Lemma mm_marked l : Forall constructed l -> push_free l -> ends l -> joins calm (main_states (map wire l)) ->
  marked AtDecl (run_pass main_merge l) = marked AtDecl l.
Proof.
  intros C P [l' [i [-> [K D]]]] J.
  assert (P2 : push_free (run_pass main_merge (l' ++ [i]))) by (apply mm_good; auto).
  rewrite !marked_machine by auto. unfold mrun.
  apply (main_merge_view lo_init lo_set (mobs AtDecl) lapp paired calm); auto.
  - intros. apply lapp_ls.
  - apply lapp_0.
  - intros g g' x c v KC DC E. unfold mobs, mark_of. destruct c; try discriminate; reflexivity.
  - intros lx n g1 x1 c f g2 x2 GR JJ [R1 R2]. split; [|exact (grp_pair _ _ _ _ _ _ GR R1)].
    destruct JJ as [DC [_ [_ [EW CT]]]].
    assert (DT : data_tag c = true) by (destruct c; try discriminate DC; reflexivity).
    destruct (is_constant f) eqn:CF.
    + unfold mobs, mark_of. rewrite CF. destruct c; try discriminate DT; reflexivity.
    + destruct (R2 eq_refl) as [V [B [N2 [M1 M2]]]].
      destruct (grp_calm _ _ _ _ _ _ GR DT CF V B M1) as [CL [N1 ONE]].
      rewrite M2, app_nil_r. pose proof (proj1 (calm_marks g2 x2 c f DT CF V B) M2) as [_ CL2].
      assert (A1 : mobs AtDecl (g_cnt n g1) lx c f = []).
      { apply calm_marks; auto. split; auto. destruct (Z.eq_dec n 1) as [->|NE].
        - destruct (ONE eq_refl) as [-> O]. apply calm_marks in M1; auto. destruct M1 as [[M1|M1] _]; [lia|]. right. destruct g1. exact M1.
        - left. destruct g1; cbn. exact NE. }
      rewrite A1. symmetry. apply calm_marks; auto. split; [left; destruct g2; cbn in *; lia|]. apply clean_app; auto.
  - intros t1 e1 e2 t2 E JJ. apply (J t1 e1 e2 t2).
    + etransitivity; [|exact E]. unfold main_states, itrace, h_init, start.
      destruct (m_run_host (fun g x c v => [(g, x, c, v)]) (map wire (l' ++ [i])) g_init [] lo_init) as [st' Q];
        [apply Forall_map; exact P|]. rewrite Q. reflexivity.
    + destruct e1 as [[[g1 x1] c1] v1], e2 as [[[g2 x2] c2] v2]. destruct JJ as [J1 J2]. split; [|exact J2].
      destruct c1; try discriminate J1; reflexivity.
Qed.

(* ------------------------------------------------------------------ *)
(** the marks of a tree *)

Fixpoint marks_ok (open : list Z) (ms : list mark) : Prop :=
  match ms with
  | [] => True
  | MOpen k :: r => marks_ok (k :: open) r
  | MClose :: r => marks_ok (tl open) r
  | MSpan :: r => (exists k o, open = k :: o /\ k <> 2 /\ k <> 4) /\ marks_ok open r
  | MBad :: _ => False
  end.

Definition pmobs (e : pmain) : list mark :=
  let '(s, c, f) := e in mark_of (p_us s) (p_ds s) (p_ss s) true (p_g s) c f.

Lemma hmain_marks g x c v e : hmain (g, x, c, v) e -> mobs AtDecl g x c v = pmobs e.
Proof.
  destruct e as [[s c'] v']. intros [-> [-> ST]]. destruct (ST AtDecl) as [G [PG [_ [US [DS [SS DL]]]]]]. cbn [h_g h_l] in *.
  unfold mobs, pmobs, nodl. rewrite G, PG, (proj1 US), (proj1 DS), (proj1 SS), DL. reflexivity.
Qed.

Lemma atmost1_spec l : atmost1 l = true <-> at_most_one l.
Proof. unfold at_most_one. destruct l as [|a [|b l]]; cbn; split; intros; try discriminate; auto; lia. Qed.

Lemma one_of_facts z : nozero (one_of z) = true /\ atmost1 (one_of z) = true.
Proof. unfold one_of. destruct (z =? 0) eqn:E; [split; reflexivity|]. cbn. rewrite E. split; reflexivity. Qed.

Lemma data_marks open r v e : StreamProofs.made v -> data_value v = true -> TreeOpt.data_of r v e -> comes_back (open, r, v) ->
  pmobs e = [] \/ (pmobs e = [MSpan] /\ v_count v = 1 /\ spanning v).
Proof.
  intros M DV DO CB. destruct e as [[s c] f]. destruct DO as [-> [-> [US [DS [SS [CT AT]]]]]].
  destruct (CB DV) as [BX [CP [_ CF]]].
  assert (C : is_constant (py_int (v_flags v)) = false).
  { unfold data_value in DV. destruct (v_kind v); try discriminate. destruct (is_constant _); [discriminate|auto]. }
  destruct (made_facts v M C) as [FA FN].
  pose proof (f_equal f_lmin AT) as L1. pose proof (f_equal f_lmax AT) as L2. pose proof (f_equal f_pmin AT) as P1. pose proof (f_equal f_pmax AT) as P2.
  pose proof (f_equal f_unit AT) as U1. pose proof (f_equal f_uexp AT) as U2.
  unfold mk_attrs, value_attrs in *. cbn in L1, L2, P1, P2, U1, U2.
  assert (SP : spanb (p_us s) (g_lmin (p_g s)) (g_lmax (p_g s)) = true <-> spanning v).
  { unfold spanb, spanning. rewrite US, L1, L2. lia. }
  assert (GOOD : goodb (p_us s) (p_ds s) (p_ss s) true (p_g s) (py_int (v_flags v)) = true).
  { unfold goodb. rewrite DS, SS. rewrite !(proj1 (one_of_facts _)), !(proj2 (one_of_facts _)). cbn [andb].
    assert (AM : is_array v = false -> atmost1 (p_us s) = true).
    { intros A. rewrite US. unfold field_usages. rewrite A. destruct (usage_list_cases (v_usage v)) as [E|[u E]]; rewrite E; reflexivity. }
    assert (AZ : is_array v = true -> py_int (v_flags v) = 0 /\ spanning v).
    { intros A. destruct (FA A) as [lo [X [Y Z]]]. unfold boxed in BX. rewrite A in BX. destruct (usage_list (v_usage v)); [|discriminate BX].
      split; auto. unfold spanning, field_usages. rewrite A, X, Y. cbn [or0]. lia. }
    destruct (is_variable (py_int (v_flags v))) eqn:V.
    - destruct (is_array v) eqn:A; [destruct (AZ eq_refl) as [Q _]; rewrite Q in V; discriminate V|]. rewrite AM by auto. apply orb_true_r.
    - destruct ((py_int (v_flags v) =? 0) && spanb (p_us s) (g_lmin (p_g s)) (g_lmax (p_g s))) eqn:B.
      + apply andb_true_iff in B. destruct B as [B1 B2]. apply SP in B2. destruct (CF ltac:(lia) B2) as [NE [UZ [EZ PH]]].
        assert (LL : or0 (v_lmin v) <= or0 (v_lmax v)).
        { unfold spanning in B2. destruct (field_usages v); [congruence|]. cbn [length] in B2. lia. }
        unfold eff. rewrite P1, P2, U1, U2, L1, L2. destruct (is_array v); [|destruct (PH eq_refl) as [-> ->]]; lia.
      + destruct (is_array v) eqn:A; [|auto]. destruct (AZ eq_refl) as [Q1 Q2]. apply SP in Q2. rewrite Q2, Q1 in B. discriminate B. }
  unfold pmobs, mark_of. rewrite C, GOOD.
  assert (W : data_tag (way_of v) = true) by (unfold way_of, way_class; destruct (_ =? 8); [reflexivity|]; destruct (_ =? 9); reflexivity).
  destruct (way_of v); try discriminate W;
  (destruct (g_count (p_g s) =? 1) eqn:E1; [|left; reflexivity]; destruct (spanb (p_us s) (g_lmin (p_g s)) (g_lmax (p_g s))) eqn:E2; [|left; reflexivity];
   right; split; [reflexivity|]; split; [lia|apply SP; reflexivity]).
Qed.

Definition mute (e : pmain) : Prop := let '(_, c, f) := e in data_tag c = true /\ is_constant f = true.
Lemma mute_marks e : mute e -> pmobs e = [].
Proof. destruct e as [[s c] f]. intros [D C]. unfold pmobs, mark_of. rewrite C. destruct c; try discriminate D; reflexivity. Qed.
Lemma mutes_marks t : Forall mute t -> flat_map pmobs t = [].
Proof. induction 1 as [|e t M F IH]; [reflexivity|]. cbn [flat_map]. rewrite (mute_marks e M), IH. reflexivity. Qed.

Lemma way_data v : data_tag (way_of v) = true.
Proof. unfold way_of, way_class; destruct (_ =? 8); [reflexivity|]; destruct (_ =? 9); reflexivity. Qed.

Lemma pad_mute v p s : Forall mute (p_trace s (pad_items (way_of v) p)).
Proof.
  unfold pad_items. destruct (p =? 0); [constructor|].
  rewrite (p_trace_main _ [(ReportCount, 1); (ReportSize, p)] (way_of v, 3) []); [|repeat constructor|apply way_main].
  constructor; [|constructor]. split; [apply way_data|reflexivity].
Qed.

Lemma value_front r v p s : StreamProofs.made v -> (p <> 0 \/ v_kind v = KValue -> data_cls (way_of v)) -> (data_value v = true -> boxed v = false) -> resting r s ->
  exists t, Forall mute t /\
    (p_trace s (pad_items (way_of v) p ++ val_items v) = t \/
     data_value v = true /\ exists e, p_trace s (pad_items (way_of v) p ++ val_items v) = t ++ [e] /\ TreeOpt.data_of r v e).
Proof.
  intros M D BX RS. destruct (pad_front v p s r ltac:(auto) RS) as [R1 _]. pose proof (pad_mute v p s) as D1. rewrite p_trace_app.
  set (s1 := fst (p_run s (pad_items (way_of v) p))) in *. set (t1 := p_trace s (pad_items (way_of v) p)) in *.
  clearbody s1 t1. clear RS s.
  unfold val_items. destruct (v_kind v) eqn:K.
  2,3: exists t1; split; [exact D1|]; left; apply app_nil_r.
  destruct R1 as [g [-> RG]].
  destruct (is_constant (py_int (v_flags v))) eqn:C.
  - rewrite val_end_split. rewrite p_trace_main; [|apply before_const_tags|apply way_main]. cbn [p_trace].
    eexists. split; [|left; reflexivity]. apply Forall_app. split; auto. constructor; [|constructor]. split; [apply way_data|exact C].
  - assert (DV : data_value v = true) by (unfold data_value; rewrite K, C; reflexivity). specialize (BX DV).
    rewrite val_end_split. exists t1. split; [exact D1|]. right. split; [exact DV|]. destruct (is_array v) eqn:A.
    + destruct (usage_list_cases (v_usage v)) as [U|[u U]]; [|unfold boxed in BX; rewrite A, U in BX; discriminate BX]. rewrite U. cbn [map us_items app].
      fold (us_items (array_usages (v_named v))).
      match goal with |- exists e, _ ++ p_trace _ ?l = _ /\ _ => replace l with
         (before_plain_array v ++ [(way_of v, py_int (v_flags v))])
         by (unfold before_plain_array; rewrite ?app_nil_r, <- !app_assoc; reflexivity) end.
      pose proof (state_plain_array g v C M A) as [S1 [S2 [S3 [S4 [S5 S6]]]]].
      rewrite p_trace_main; [|apply plain_array_tags|apply way_main]. cbn [p_trace fst snd].
      eexists. split; [reflexivity|]. unfold TreeOpt.data_of. repeat (split; [solve [auto]|]). split; [unfold field_usages; rewrite A; exact S1|].
      repeat (split; [solve [auto]|]). rewrite <- RG. auto.
    + match goal with |- exists e, _ ++ p_trace _ ?l = _ /\ _ => replace l with
        (before_value v (usage_list (v_usage v)) ++ [(way_of v, py_int (v_flags v))])
        by (unfold before_value; rewrite ?app_nil_r, <- !app_assoc; reflexivity) end.
      pose proof (state_value g v C M A) as [S1 [S2 [S3 [S4 [S5 S6]]]]].
      rewrite p_trace_main; [|apply value_tags|apply way_main]. cbn [p_trace fst snd].
      eexists. split; [reflexivity|]. unfold TreeOpt.data_of. repeat (split; [solve [auto]|]). split; [unfold field_usages; rewrite A; exact S1|].
      repeat (split; [solve [auto]|]). rewrite <- RG. auto.
Qed.

Definition kinds (open : BackSpec.place) : list Z := map (fun x => py_int (fst x)) open.

Lemma pieces_marks r ls o r' : pieces r ls o r' -> forall s open, resting r s -> Forall comes_back (located open ls) ->
  marks_ok (kinds open) (flat_map pmobs (p_trace s o)).
Proof.
  induction 1 as [r|r id ls o r' _ IH|r x ls o o' r' PC _ IH]; intros s open R CB.
  - exact I.
  - cbn [p_trace fst]. change (main_tag ReportID) with false. cbv iota. cbn [app]. apply IH; auto.
    destruct R as [g [-> R]]. exists (g_set ReportID id g). split; [reflexivity|destruct g; reflexivity].
  - rewrite p_trace_app, flat_map_app. destruct (piece_front _ _ _ _ PC R) as [R1 _].
    inversion PC as [r0 k u|r0|r0 v p M D]; subst.
    + cbn [located] in CB. destruct R as [g [-> R]].
      cbn [p_trace p_step hid_kind main_tag fst snd app flat_map pmobs mark_of]. cbn [marks_ok]. exact (IH _ _ R1 CB).
    + cbn [located] in CB. destruct R as [g [-> R]]. cbn [p_trace p_step hid_kind main_tag fst snd app flat_map pmobs mark_of]. cbn [marks_ok].
      replace (tl (kinds open)) with (kinds (tl open)) by (destruct open; reflexivity). exact (IH _ _ R1 CB).
    + cbn [located] in CB. inversion CB as [|? ? CB1 CB2]; subst.
      destruct (value_front r v p s M D) as [t [MU FR]]; [|exact R|].
      * intros DV. apply (CB1 DV).
      * destruct FR as [->|[DV [e [-> DO]]]].
        { rewrite mutes_marks by auto. exact (IH _ _ R1 CB2). }
        rewrite flat_map_app, mutes_marks by auto. cbn [app flat_map]. rewrite app_nil_r.
        destruct (data_marks open r v e M DV DO CB1) as [->|[-> [C1 SP]]]; [exact (IH _ _ R1 CB2)|].
        cbn [app marks_ok]. split; [|exact (IH _ _ R1 CB2)]. destruct (CB1 DV) as [_ [_ [X _]]]. destruct (X C1 SP) as [k [u [o2 [-> Y]]]].
        exists (py_int k), (kinds o2). auto.
Qed.

Lemma pieces_made r ls o r' : pieces r ls o r' -> forall q v, In (LVal q v) ls -> StreamProofs.made v.
Proof.
  induction 1 as [r|r id ls o r' _ IH|r x ls o o' r' PC _ IH]; intros q v I; [destruct I|eauto|].
  destruct I as [->|I]; [|eauto]. inversion PC; subst; auto.
Qed.

Lemma located_in ls : forall open r v, In (LVal r v) ls -> exists o, In (o, r, v) (located open ls).
Proof.
  induction ls as [|x ls IH]; intros open r v I; [destruct I|]. destruct I as [->|I].
  - exists open. left. reflexivity.
  - destruct x as [k u| |q w]; cbn [located]; [destruct (IH ((k, u) :: open) r v I) as [o X]|destruct (IH (tl open) r v I) as [o X]|destruct (IH open r v I) as [o X]]; exists o; auto.
    right. exact X.
Qed.

Lemma tree_calm ls o r' : pieces 0 ls (map cv o) r' -> uniform_leaves ls -> joinable_leaves ls -> Forall comes_back (located [] ls) ->
  joins calm (main_states (map wire o)).
Proof.
  intros P U JL CB.
  assert (PL : Forall (fun w => plain (w_cls w) = true) (map wire o)).
  { pose proof (pieces_items _ _ _ _ P) as F. apply Forall_map. rewrite Forall_map in F.
    eapply Forall_impl; [|exact F]. intros i [A _]. exact A. }
  pose proof (trace_states (map wire o) PlainHost.p_init h_init stands_init PL) as T.
  rewrite map_map in T. change (map (fun x => (w_cls (wire x), w_val (wire x))) o) with (map cv o) in T.
  pose proof (pieces_fronts _ _ _ _ P PlainHost.p_init ltac:(exists g_init; split; reflexivity)) as FR.
  intros l1 [[[g1 x1] c1] f1] [[[g2 x2] c2] f2] l2 E MJ. unfold main_states in E. rewrite E in T.
  apply Forall2_app_inv_two in T. destruct T as [q1 [p1 [p2 [q2 [EQ [H1 H2]]]]]].
  assert (PA : paired x1).
  { destruct p1 as [[s1 c1'] f1']. destruct H1 as [_ [_ S1]]. destruct (S1 AtDecl) as [_ [_ [_ [US1 [DS1 [SS1 _]]]]]]. cbn [h_l] in *.
    unfold paired. repeat constructor; try apply US1; try apply DS1; try apply SS1. }
  split; [exact PA|]. intros C. rewrite (hmain_marks _ _ _ _ _ H1), (hmain_marks _ _ _ _ _ H2).
  destruct MJ as [DT [<- [<- [GE CT]]]].
  destruct p1 as [[s1 c1'] f1'], p2 as [[s2 c2'] f2'].
  destruct H1 as [-> [-> S1]], H2 as [-> [-> S2]].
  destruct (S1 AtDecl) as [G1 _]. destruct (S2 AtDecl) as [G2 _]. cbn [h_g] in *. subst g1 g2.
  assert (ND : forall s, ~ dull (s, c1, f1)) by (intros s [X|[X _]]; congruence).
  destruct (fronts_pair _ _ FR _ _ _ _ EQ (ND s1) (ND s2)) as [a [r1 [v1 [mid [r2 [v2 [b [LS [PM [V1 V2]]]]]]]]]].
  pose proof (proj2 (proj2 V1)) as DO1. pose proof (proj2 (proj2 V2)) as DO2.
  destruct V1 as [D1 [B1 [W1 [F1 [X1 [Y1 [Z1 [K1 A1]]]]]]]].
  destruct V2 as [D2 [B2 [W2 [F2 [X2 [Y2 [Z2 [K2 A2]]]]]]]].
  assert (AE : value_attrs r1 v1 = value_attrs r2 v2) by (rewrite <- A1, <- A2; apply attrs_eqw; exact GE).
  assert (RE : r1 = r2) by (apply (f_equal f_rid) in AE; exact AE). subst r2.
  assert (NB : neighbours ls v1 v2).
  { exists a, r1, mid, b. repeat (split; [assumption|]). congruence. }
  destruct (JL v1 v2 NB) as [JV [JB JS]]. rewrite <- F1 in JV, JB.
  assert (I1 : In (LVal r1 v1) ls) by (rewrite LS; apply in_or_app; right; left; reflexivity).
  assert (I2 : In (LVal r1 v2) ls) by (rewrite LS; apply in_or_app; right; right; apply in_or_app; right; left; reflexivity).
  destruct (located_in ls [] r1 v1 I1) as [o1 L1]. destruct (located_in ls [] r1 v2 I2) as [o2 L2].
  rewrite Forall_forall in CB. pose proof (CB _ L1) as CB1. pose proof (CB _ L2) as CB2.
  assert (JS2 : ~ spanning v2).
  { intros SP. apply JS. pose proof (U v1 v2 NB) as EV. unfold even_values in EV. rewrite <- F1, JV in EV. destruct EV as [EV _].
    pose proof (f_equal f_lmin AE) as Q1. pose proof (f_equal f_lmax AE) as Q2. unfold value_attrs in Q1, Q2. cbn in Q1, Q2.
    unfold spanning in *. rewrite Q1, Q2. rewrite <- SP. f_equal. destruct EV as [[E1 E2]|[E1 E2]]; [|rewrite E1, E2; reflexivity].
    rewrite E1. assert (AR : is_array v2 = false).
    { destruct (is_array v2) eqn:AR; auto. exfalso. pose proof (pieces_made _ _ _ _ P _ _ I2) as M2.
      assert (C2 : is_constant (py_int (v_flags v2)) = false) by (rewrite <- F2; exact C).
      destruct (made_facts v2 M2 C2) as [FA _]. destruct (FA AR) as [lo [_ [_ Q]]]. unfold boxed in B2. rewrite AR in B2.
      destruct (usage_list (v_usage v2)); [|discriminate B2]. rewrite <- F2 in Q. rewrite Q in JV. discriminate JV. }
    unfold field_usages in E2 |- *. rewrite AR in *. destruct (usage_list_cases (v_usage v2)) as [Q|[u Q]]; rewrite Q in *; [congruence|reflexivity]. }
  split; [exact JV|]. split; [exact JB|]. split; [destruct (CB2 D2) as [_ [Q _]]; lia|].
  split.
  - destruct (data_marks _ _ _ _ (pieces_made _ _ _ _ P _ _ I1) D1 DO1 CB1) as [Q|[_ [_ Q]]]; [exact Q|contradiction].
  - destruct (data_marks _ _ _ _ (pieces_made _ _ _ _ P _ _ I2) D2 DO2 CB2) as [Q|[_ [_ Q]]]; [exact Q|contradiction].
Qed.

Lemma marked_states m l : push_free l -> marked m l = flat_map (obs_at (mobs m)) (main_states (map wire l)).
Proof.
  intros P. rewrite marked_machine by auto. unfold mrun. rewrite (proj1 (run_obs (mobs m) (map wire l) g_init lo_init)). f_equal.
  change (main_states (map wire l)) with (snd (h_run sees (H g_init [] lo_init) (map wire l))).
  destruct (m_run_host sees (map wire l) g_init [] lo_init) as [st' EH]; [apply Forall_map; exact P|]. rewrite EH. reflexivity.
Qed.

Lemma tree_marks ls o r' : push_free o -> pieces 0 ls (map cv o) r' -> Forall comes_back (located [] ls) -> marks_ok [] (marked AtDecl o).
Proof.
  intros PF P CB. rewrite marked_states by auto.
  assert (PL : Forall (fun w => plain (w_cls w) = true) (map wire o)).
  { pose proof (pieces_items _ _ _ _ P) as F. apply Forall_map. rewrite Forall_map in F.
    eapply Forall_impl; [|exact F]. intros i [A _]. exact A. }
  pose proof (trace_states (map wire o) PlainHost.p_init h_init stands_init PL) as T.
  rewrite map_map in T. change (map (fun x => (w_cls (wire x), w_val (wire x))) o) with (map cv o) in T.
  assert (E : flat_map (obs_at (mobs AtDecl)) (main_states (map wire o)) = flat_map pmobs (p_trace PlainHost.p_init (map cv o))).
  { unfold main_states. clear - T. induction T as [|[[[g x] c] v] e l1 l2 HM F IH]; [reflexivity|]. cbn [flat_map obs_at]. rewrite IH, (hmain_marks _ _ _ _ _ HM). reflexivity. }
  rewrite E. apply (pieces_marks 0 ls _ r' P PlainHost.p_init []); auto. exists g_init. split; reflexivity.
Qed.

(* ------------------------------------------------------------------ *)
(** the optimiser keeps the marks *)

Lemma before_marked db l : Forall plain_item l -> ends l -> joins calm (main_states (map wire l)) ->
  (no_physical (map cv l) \/ Forall own_physical (chunks (map cv l))) ->
  marked AtDecl (before_pages db l) = marked AtDecl l.
Proof.
  intros P E J PH. pose proof (proj1 (plain_split _) P) as [C [_ [_ PF]]].
  unfold before_pages. set (l1 := run_pass main_merge l).
  assert (S1 : marked AtDecl l1 = marked AtDecl l) by (apply mm_marked; auto).
  assert (P1 : Forall plain_item l1) by (apply mm_plain; auto).
  assert (O1 : physical_ok (0, 0) (0, 0) (chunks (map cv l1))).
  { destruct PH as [Z|O].
    - apply zeros_ok. unfold no_physical in *. rewrite Forall_map in *. cbn [cv fst snd] in *. unfold l1.
      assert (Q : Forall (fun i => constructed i /\ (physical_tag (ic i) = true -> ival i = 0)) (run_pass main_merge l)).
      { apply mm_each.
        - intros n H. split; [apply rc_built; auto|discriminate].
        - intros i [B _]. apply rc_nonneg; auto.
        - rewrite Forall_forall in *. auto. }
      eapply Forall_impl; [|exact Q]. intros i [_ H]. exact H.
    - apply owns_ok. apply mm_owns; auto. }
  set (l2 := run_pass physical_merge l1).
  assert (S2 : marked AtDecl l2 = marked AtDecl l) by (unfold l2; rewrite pm_marked; auto; apply plain_split in P1; tauto).
  assert (P2 : Forall plain_item l2) by (apply pm_each; auto).
  set (l3 := run_pass global_merge l2).
  assert (S3 : marked AtDecl l3 = marked AtDecl l) by (rewrite <- S2; apply gm_marked; apply plain_split in P2; tauto).
  assert (P3 : Forall plain_item l3) by (apply gm_each; auto).
  set (l4 := run_pass (string_merge db) l3).
  assert (S4 : marked AtDecl l4 = marked AtDecl l).
  { rewrite <- S3. apply (rm_marked db StringIndex); [right; right; reflexivity| |discriminate]. apply plain_split in P3. tauto. }
  assert (P4 : Forall plain_item l4) by (apply rm_plain; cbn [In]; auto).
  set (l5 := run_pass (designator_merge db) l4).
  assert (S5 : marked AtDecl l5 = marked AtDecl l).
  { rewrite <- S4. apply (rm_marked db DesignatorIndex); [right; left; reflexivity| |discriminate]. apply plain_split in P4. tauto. }
  assert (P5 : Forall plain_item l5) by (apply rm_plain; cbn [In]; auto).
  rewrite <- S5. apply plain_split in P5. destruct P5 as [C5 [X5 [D5 _]]].
  apply (rm_marked db Usage); [left; reflexivity|auto|]. intros _.
  assert (Q : Forall (fun x => fst x <> Delimiter /\ (usage_tag (fst x) = true -> 65536 <= snd x)) (map cv l5)).
  { unfold extended in X5. rewrite Forall_forall in *. auto. }
  apply chunks_each in Q. eapply Forall_impl; [|exact Q]. intros c H. unfold plain_usages.
  split; [|left]; (eapply Forall_impl; [|exact H]); intros x; cbn; tauto.
Qed.

Lemma optimize_marked db l : Forall constructed l -> push_free l -> ends l -> regular (map cv l) -> bare_usages (map cv l) ->
  joins (OptSpec.uniform AtDecl) (main_states (map wire l)) -> joins same_page (main_states (map wire l)) -> joins calm (main_states (map wire l)) ->
  Forall one_page (chunks (map cv l)) -> marked AtMain (optimize db l) = marked AtDecl l.
Proof.
  intros C P E R B J1 J2 J3 F.
  destruct (regular_split l C P R) as [PL [N PH]]. rewrite optimize_pages by auto.
  rewrite <- (before_marked db l PL E J3 PH). destruct (before_view db AtDecl l PL E J1 PH) as [PB _].
  assert (OP : Forall one_page (chunks (map cv (before_pages db l)))).
  { unfold before_pages. apply rm_pages.
    - assert (Q : forall lk mn mx l, Forall constructed l -> Forall constructed (run_pass (range_merge db lk mn mx) l))
        by (intros; apply rm_each; auto; intros; apply rebuild_built).
      apply Q, Q, gm_each, pm_each, mm_each; auto using rc_built, rc_nonneg.
    - apply (keep_pages _ (run_pass main_merge l)); [|apply mm_one_page; auto].
      unfold designator_merge, string_merge.
      rewrite rm_keep, rm_keep, gm_keep, pm_keep; try reflexivity. intros c K. destruct c; try discriminate K; reflexivity. }
  assert (PF : Forall (fun x => page_tag (fst x) = false) (map cv (before_pages db l))).
  { apply Forall_map.
    assert (Q : Forall (fun i => constructed i /\ page_tag (ic i) = false) (before_pages db l)).
    { apply before_pages_each.
      - intros n H. split; [apply rc_built; auto|reflexivity].
      - intros i [H _]. apply rc_nonneg; auto.
      - intros c v K. pose proof (rebuild_built db c v) as A1. pose proof (rebuild_class db c v) as A2.
        rewrite Forall_forall in *. intros i I. split; auto. rewrite (A2 i I). destruct c; try discriminate K; reflexivity.
      - unfold bare_usages, push_free in *. rewrite Forall_map in B. rewrite Forall_forall in *. intros i I. split; auto.
        specialize (B i I). specialize (P i I). cbn [cv fst] in B. destruct (ic i); try reflexivity; tauto. }
    eapply Forall_impl; [|exact Q]. intros i [_ H]. exact H. }
  apply plain_split in PB. destruct PB as [A1 [A2 [A3 A4]]].
  rewrite <- (up_marked db (before_pages db l) A1 A4 A2). apply bind_marked. apply up_settled; auto.
  apply chunks_each in PF. rewrite Forall_forall in *. intros c I. split; [|apply OP; auto].
  apply page_free_settled. apply PF. auto.
Qed.

(** usages of any page *)
Lemma mark_usages us ds ss n g c f : mark_of (map unsh us) ds ss n g c f = mark_of us ds ss n g c f.
Proof.
  assert (A : atmost1 (map unsh us) = atmost1 us) by (destruct us as [|? [|? ?]]; reflexivity).
  unfold mark_of, goodb, spanb. rewrite map_length, A. reflexivity.
Qed.

Lemma mobs_ustate e e' : ustate e e' -> obs_at (mobs AtDecl) e = obs_at (mobs AtDecl) e'.
Proof.
  destruct e as [[[g x] c] v], e' as [[[g' y] c'] v']. intros [B [[S1 [S2 [S3 S4]]] [-> ->]]]. cbn [obs_at]. unfold mobs, nodl.
  rewrite (values_utab (g_page g) (g_page g') _ _ S1), S2, S3, S4, mark_usages.
  rewrite (values_decl (g_page g) (g_page g') (lo_ds y)), (values_decl (g_page g) (g_page g') (lo_ss y)).
  unfold but_page in B. destruct g, g'. cbn [g_set] in B. injection B. intros. subst. apply mark_g; reflexivity.
Qed.

Lemma mobs_besides m e e' : besides e e' -> obs_at (mobs m) e = obs_at (mobs m) e'.
Proof.
  destruct e as [[[g x] c] v], e' as [[[g' y] c'] v']. intros [[k PS] [[A1 A2] [-> ->]]]. cbn [obs_at]. unfold mobs, nodl.
  rewrite (values_ps m _ _ _ _ _ PS). destruct PS as [B _ _ S2 S3 S4].
  rewrite S2, S3, S4, mark_usages, (values_atab m (g_page g) (g_page g') _ A1), (values_atab m (g_page g) (g_page g') _ A2).
  unfold but_page in B. destruct g, g'. cbn [g_set] in B. injection B. intros. subst. apply mark_g; reflexivity.
Qed.

Lemma states_marked (R : mstate -> mstate -> Prop) m a b : (forall e e', R e e' -> obs_at (mobs m) e = obs_at (mobs m) e') -> Forall2 R a b ->
  flat_map (obs_at (mobs m)) a = flat_map (obs_at (mobs m)) b.
Proof. intros E. induction 1 as [|x y a b Q F IH]; [reflexivity|]. cbn [flat_map]. rewrite IH, (E x y Q). reflexivity. Qed.

Lemma moved_calm a b : Forall2 ustate a b -> joins calm a -> joins calm b.
Proof.
  apply moved_rel. intros e1 e2 e1' e2' U1 U2 J. pose proof (mobs_ustate _ _ U1) as M1. pose proof (mobs_ustate _ _ U2) as M2.
  destruct e1 as [[[g1 x1] c1] v1], e2 as [[[g2 x2] c2] v2], e1' as [[[g1' y1] c1'] v1'], e2' as [[[g2' y2] c2'] v2'].
  cbn [obs_at] in M1, M2. destruct U1 as [B1 [[S1 [S2 [S3 S4]]] [-> ->]]], U2 as [B2 [_ [-> ->]]].
  assert (CT : g_count g2 = g_count g2').
  { unfold but_page in B2. destruct g2, g2'. cbn [g_set] in B2. injection B2. intros. subst. auto. }
  unfold calm in *. destruct J as [J1 J2]. rewrite M1, M2, CT in J2. split; [|exact J2].
  unfold paired in *. rewrite <- S2, <- S3. inversion J1 as [|? ? [Q1 Q2] J3]; subst. constructor; auto.
  destruct S1 as [_ [E2 E3]]. rewrite Q1 in E2. rewrite Q2 in E3. destruct (l_min (lo_us y1)), (l_max (lo_us y1)); try discriminate; auto.
Qed.

Lemma optimize_marked_any db l : Forall constructed l -> push_free l -> ends l -> orderly (map cv l) -> bare_usages (map cv l) ->
  joins (OptSpec.uniform AtDecl) (main_states (map wire l)) -> joins same_page (main_states (map wire l)) -> joins calm (main_states (map wire l)) ->
  Forall one_page (chunks (map cv l)) -> push_free (optimize db l) -> marked AtMain (optimize db l) = marked AtDecl l.
Proof.
  intros C P E O B J1 J2 J3 F PO. destruct (lift_tree db l C P E O B) as [m [D PM EM RG BM ST SE PG OU]].
  assert (POM : push_free (optimize db m)).
  { assert (GO : Forall good (optimize db m)).
    { apply c32_places; [|exact EM]. unfold push_free in PM. rewrite Forall_forall in *. intros i I. split; [auto|]. apply PM. exact I. }
    eapply Forall_impl; [|exact GO]; intros i [_ X]; exact X. }
  pose proof (optimize_marked db m D PM EM RG BM (moved_joins _ _ ST J1) (moved_same_page _ _ ST J2) (moved_calm _ _ ST J3) (PG F)) as X.
  rewrite marked_states in X by exact POM. rewrite marked_states in X by exact PM. rewrite !marked_states by assumption.
  rewrite (states_marked ustate AtDecl _ _ mobs_ustate ST), <- X.
  apply (states_marked besides AtMain); [apply mobs_besides|]. apply beside_all. exact OU.
Qed.

(* ------------------------------------------------------------------ *)
(** local items of the optimised stream: single ones or one range *)

Definition famof (lk : icls) (c : list spec_item) : list spec_item := filter (fun x => fam lk (fst x)) c.
Definition unranged (lk : icls) (c : list spec_item) : Prop := Forall (fun x => fst x <> mn_of lk /\ fst x <> mx_of lk) c.
Definition neat (lk : icls) (c : list spec_item) : Prop :=
  unranged lk c \/ exists a b, famof lk c = [(mn_of lk, a); (mx_of lk, b)].

Lemma unranged_fam lk c : unranged lk c <-> unranged lk (famof lk c).
Proof.
  unfold unranged, famof. rewrite !Forall_forall. split.
  - intros H x I. apply filter_In in I. apply H, I.
  - intros H x I. destruct (fam lk (fst x)) eqn:F; [apply H, filter_In; auto|]. unfold fam in F.
    apply orb_false_iff in F. destruct F as [F F3]. apply orb_false_iff in F. destruct F as [_ F2].
    split; intros Q; rewrite Q in *; rewrite icls_eqb_refl in *; discriminate.
Qed.

Lemma neat_fam lk c c' : famof lk c = famof lk c' -> neat lk c -> neat lk c'.
Proof. intros E [H|[a [b H]]]; [left; apply unranged_fam; rewrite <- E; apply (proj1 (unranged_fam lk c)); exact H|right; exists a, b; congruence]. Qed.

Lemma famof_keep lk K c : (forall d, fam lk d = true -> K d = true) -> famof lk (keep K c) = famof lk c.
Proof.
  intros HK. unfold famof, keep. induction c as [|x c IH]; auto. cbn [filter]. destruct (K (fst x)) eqn:E; cbn [filter].
  - destruct (fam lk (fst x)); rewrite IH; reflexivity.
  - destruct (fam lk (fst x)) eqn:F; [rewrite (HK _ F) in E; discriminate|exact IH].
Qed.

Lemma neats_keep lk K l : (forall d, fam lk d = true -> K d = true) -> (forall c, main_tag c = true -> K c = true) ->
  Forall (neat lk) (chunks (keep K l)) <-> Forall (neat lk) (chunks l).
Proof.
  intros H1 H2. rewrite chunks_keep, Forall_map by auto. split; apply Forall_impl; intros c; apply neat_fam; [|symmetry]; apply famof_keep; auto.
Qed.

Lemma neats_sel lk K a b : (forall d, fam lk d = true -> K d = true) -> (forall c, main_tag c = true -> K c = true) ->
  sel K a = sel K b -> Forall (neat lk) (chunks (map cv a)) -> Forall (neat lk) (chunks (map cv b)).
Proof.
  intros H1 H2 E F. apply (neats_keep lk K) in F; auto. apply (neats_keep lk K); auto.
  change (keep K (map cv b)) with (sel K b). rewrite <- E. exact F.
Qed.

Lemma main_not_fam lk c : single lk -> main_tag c = true -> fam lk c = false.
Proof. intros [-> | [-> | ->]] M; destruct c; try discriminate M; reflexivity. Qed.

Lemma fam_self lk : single lk -> fam lk lk = true /\ fam lk (mn_of lk) = true /\ fam lk (mx_of lk) = true.
Proof. intros [-> | [-> | ->]]; repeat split; reflexivity. Qed.
Lemma fam_apart lk : single lk -> lk <> mn_of lk /\ lk <> mx_of lk.
Proof. intros [-> | [-> | ->]]; split; discriminate. Qed.
Lemma fam_local lk : single lk -> kind_of lk = Local /\ kind_of (mn_of lk) = Local /\ kind_of (mx_of lk) = Local.
Proof. intros [-> | [-> | ->]]; repeat split; reflexivity. Qed.

Section Neat.
  Context (db : udb) (lk : icls) (SL : single lk).
  Let mn := mn_of lk.
  Let mx := mx_of lk.
  Let PP := range_merge db lk mn mx.

  Definition unr (i : item) : Prop := ic i <> mn /\ ic i <> mx.
  Definition known (o : option pval) : Prop := forall v, o = Some v -> exists i, constructed i /\ ic i = lk /\ iv i = v.

  Lemma flush_neat st seg : rm_pending st = seg -> Forall unr seg -> known (rm_min st) -> known (rm_max st) ->
    neat lk (map cv (rm_flush db lk mn mx st)).
  Proof.
    intros P U K1 K2.
    assert (SAME : forall l, Forall unr l -> neat lk (map cv l)) by (intros l F; left; apply Forall_map; exact F).
    assert (PEND : neat lk (map cv (rm_pending st))) by (rewrite P; auto).
    unfold rm_flush. destruct (rm_min st) as [a|] eqn:EA; auto. destruct (rm_max st) as [b|] eqn:EB; auto.
    destruct (truthy a && truthy b && rm_merging st); auto. clear PEND.
    destruct (K1 a eq_refl) as [i [CI [II VI]]]. destruct (K2 b eq_refl) as [j [CJ [IJ VJ]]]. subst a b.
    match goal with |- context [filter ?f _] => set (k := f) end.
    assert (UK : Forall unr (filter k (rm_pending st))) by (rewrite P; apply Forall_forall; intros x I; apply filter_In in I; rewrite Forall_forall in U; apply U, I).
    assert (FN : famof lk (map cv (filter k (rm_pending st))) = []).
    { assert (KQ : forall q, filter (fun x => fam lk (fst x)) (map cv (filter k q)) = []); [|apply KQ]. induction q as [|x q IH]; auto. cbn [filter]. destruct (k x) eqn:E; [|exact IH].
      cbn [map filter cv fst]. unfold k in E. apply negb_true_iff in E. change (fam lk (ic x) = false) in E. rewrite E. exact IH. }
    assert (FL : fam lk lk = true /\ fam lk mn = true /\ fam lk mx = true) by (apply fam_self; exact SL).
    assert (LU : lk <> mn /\ lk <> mx) by (apply fam_apart; exact SL).
    destruct FL as [F1 [F2 F3]].
    destruct (rebuild_ok db lk lk i CI SL II F1) as [i1 [-> [I1 _]]]. destruct (rebuild_ok db lk mn i CI SL II F2) as [i2 [-> [I2 _]]].
    destruct (rebuild_ok db lk lk j CJ SL IJ F1) as [j1 [-> [J1 _]]]. destruct (rebuild_ok db lk mx j CJ SL IJ F3) as [j2 [-> [J2 _]]].
    destruct (py_int (iv i) =? py_int (iv j)); [|destruct (1 <? py_int (iv j) - py_int (iv i))].
    - apply SAME. apply Forall_app. split; auto. constructor; [|constructor]. unfold unr. rewrite I1. exact LU.
    - right. exists (ival i2), (ival j2). rewrite map_app. unfold famof in *. rewrite filter_app, FN. cbn [app map filter cv fst]. rewrite I2, J2, F2, F3. unfold cv. rewrite I2, J2. reflexivity.
    - apply SAME. apply Forall_app. split; auto. constructor; [|constructor; [|constructor]]; unfold unr; rewrite ?I1, ?J1; exact LU.
  Qed.

  Lemma note_known st i : constructed i -> known (rm_min st) -> known (rm_max st) ->
    known (rm_min (rm_note lk mn mx st i)) /\ known (rm_max (rm_note lk mn mx st i)).
  Proof.
    intros C K1 K2. unfold rm_note. destruct (_ && _); auto. destruct (_ || _); auto. destruct (icls_eqb (ic i) lk) eqn:E; auto.
    apply icls_eqb_eq in E.
    assert (KI : known (Some (iv i))) by (intros v Q; injection Q as <-; exists i; auto).
    destruct (rm_max st) as [b|] eqn:EB; [|split; exact KI]. destruct (_ =? _); cbn [rm_min rm_max]; [split; [exact K1|exact KI]|].
    split; [exact K1|exact K2].
  Qed.

  Lemma chunks_quiet l : Forall not_main l -> chunks (map cv l) = [map cv l].
  Proof.
    induction 1 as [|i l N F IH]; [reflexivity|]. cbn [map chunks]. rewrite IH.
    destruct (main_tag (fst (cv i))) eqn:M; [|reflexivity]. apply main_tag_kind in M. contradiction.
  Qed.

  Lemma flush_quiet st : Forall not_main (rm_pending st) -> Forall not_main (rm_flush db lk mn mx st).
  Proof.
    intros F. unfold rm_flush. destruct (rm_min st) as [a|]; auto. destruct (rm_max st) as [b|]; auto. destruct (_ && _ && _); auto.
    apply Forall_app. split; [apply Forall_forall; intros x I; apply filter_In in I; rewrite Forall_forall in F; apply F, I|].
    assert (R : forall c v, kind_of c = Local -> Forall not_main (rebuild db c v)).
    { intros c v K. pose proof (rebuild_class db c v) as X. eapply Forall_impl; [|exact X]. intros x E. unfold not_main. rewrite E, K. discriminate. }
    assert (KK : kind_of lk = Local /\ kind_of mn = Local /\ kind_of mx = Local) by (apply fam_local; exact SL).
    destruct KK as [KA [KB KC]]. destruct (_ =? _); [auto|]. destruct (_ <? _); apply Forall_app; auto.
  Qed.

  Lemma chunks_front seg x l : Forall not_main seg -> main_tag (fst x) = true -> chunks (map cv seg ++ x :: l) = map cv seg :: chunks l.
  Proof.
    intros N M. induction N as [|i seg K F IH]; [cbn [map app chunks]; rewrite M; reflexivity|].
    cbn [map app chunks]. rewrite IH. destruct (main_tag (fst (cv i))) eqn:Q; [|reflexivity]. apply main_tag_kind in Q. contradiction.
  Qed.

  Lemma neat_go l : forall st hd seg, rm_pending st = hd ++ seg -> (hd = [] \/ exists i, hd = [i] /\ kind_of (ic i) = Main) ->
    Forall not_main seg -> Forall unr seg -> known (rm_min st) -> known (rm_max st) -> Forall constructed l -> Forall unr l ->
    exists X, snd (feed PP st l) ++ p_close PP (fst (feed PP st l)) = hd ++ X /\ Forall (neat lk) (chunks (map cv X)).
  Proof.
    assert (FLUSH : forall st hd seg, rm_pending st = hd ++ seg -> (hd = [] \/ exists i, hd = [i] /\ kind_of (ic i) = Main) ->
      Forall not_main seg -> Forall unr seg -> known (rm_min st) -> known (rm_max st) ->
      exists X, rm_flush db lk mn mx st = hd ++ X /\ neat lk (map cv X) /\ Forall not_main X).
    { intros st hd seg P HD NM U K1 K2. exists (rm_flush db lk mn mx (with_pending st seg)). split; [|split].
      - destruct HD as [->|[i [-> KI]]]; cbn [app] in *; [rewrite <- P; destruct st; reflexivity|]. exact (flush_hd db lk st i seg SL KI P).
      - apply (flush_neat (with_pending st seg) seg); auto.
      - apply flush_quiet. exact NM. }
    induction l as [|i l IH]; intros st hd seg P HD NM U K1 K2 C UL.
    - cbn [feed fst snd app]. change (p_close PP st) with (rm_flush db lk mn mx st).
      destruct (FLUSH st hd seg P HD NM U K1 K2) as [X [E [N Q]]]. exists X. split; [exact E|]. rewrite chunks_quiet by auto. constructor; [exact N|constructor].
    - inversion C as [|? ? C1 C2]; subst. inversion UL as [|? ? U1 U2]; subst. cbn [feed].
      change (p_append PP) with (rm_append db lk mn mx). unfold rm_append, ikd.
      assert (NEXT : kind_of (ic i) <> Main -> exists X,
         snd (feed PP (with_pending (rm_note lk mn mx st i) (rm_pending st ++ [i])) l) ++ p_close PP (fst (feed PP (with_pending (rm_note lk mn mx st i) (rm_pending st ++ [i])) l)) = hd ++ X
         /\ Forall (neat lk) (chunks (map cv X))).
      { intros K. destruct (note_known st i C1 K1 K2) as [N1 N2]. apply (IH _ hd (seg ++ [i])); auto.
        - cbn [with_pending rm_pending]. rewrite P, app_assoc. reflexivity.
        - apply Forall_app. split; auto.
        - apply Forall_app. split; auto. }
      assert (NP : rm_pending (rm_note lk mn mx st i) = rm_pending st) by apply note_pending.
      destruct (kind_of (ic i)) eqn:K.
      + assert (NT : rm_note lk mn mx st i = st) by (unfold rm_note, ikd; rewrite K, andb_false_r; reflexivity). rewrite NT.
        destruct (FLUSH st hd seg P HD NM U K1 K2) as [X [E [N Q]]]. rewrite E.
        destruct (IH (RM true None None [i]) [i] [] eq_refl) as [Y [EY NY]]; auto; try (intros v W; discriminate W).
        { right. exists i. auto. }
        destruct (feed PP (RM true None None [i]) l) as [s2 o2]. cbn [fst snd] in *.
        exists (X ++ i :: Y). split; [rewrite <- !app_assoc; do 2 f_equal; exact EY|].
        rewrite map_app. cbn [map]. rewrite chunks_front; [constructor; auto|exact Q|apply main_tag_kind; exact K].
      + unfold with_pending in NEXT. rewrite NP. destruct (feed PP _ l) as [s2 o2]. cbn [fst snd app] in *. apply NEXT. discriminate.
      + unfold with_pending in NEXT. rewrite NP. destruct (feed PP _ l) as [s2 o2]. cbn [fst snd app] in *. apply NEXT. discriminate.
  Qed.

  Lemma rm_neat l : Forall constructed l -> Forall unr l -> Forall (neat lk) (chunks (map cv (run_pass PP l))).
  Proof.
    intros C U. destruct (neat_go l rm_init [] [] eq_refl) as [X [E N]]; auto; try (intros v W; discriminate W).
    unfold run_pass. change (Optimizer.p_init PP) with rm_init. destruct (feed PP rm_init l) as [s o]. cbn [fst snd app] in *. rewrite E. exact N.
  Qed.
End Neat.

Definition unr3 (i : item) : Prop := unr Usage i /\ unr DesignatorIndex i /\ unr StringIndex i.

Lemma rebuild_unr db lk c v : single lk -> c <> mn_of lk -> c <> mx_of lk -> Forall (unr lk) (rebuild db c v).
Proof.
  intros SL N1 N2. pose proof (rebuild_class db c v) as X. eapply Forall_impl; [|exact X]. intros i E. unfold unr. rewrite E. auto.
Qed.

Lemma rm_unr db lk k l : single lk -> single k -> k <> lk -> Forall (unr k) l -> Forall (unr k) (run_pass (range_merge db lk (mn_of lk) (mx_of lk)) l).
Proof.
  intros SL SK N F. apply rm_each; auto. intros i c _ _ Q. apply rebuild_unr; auto;
    destruct SL as [-> | [-> | ->]]; destruct SK as [-> | [-> | ->]]; try congruence; destruct Q as [-> | [-> | ->]]; discriminate.
Qed.

Lemma neat_strip lk c : neat lk c -> neat lk (map strip c).
Proof.
  assert (FS : forall x, fst (strip x) = fst x) by (intros [a v]; unfold strip; cbn [fst]; destruct (usage_tag a); reflexivity).
  intros [U|[a [b E]]].
  - left. unfold unranged in *. rewrite Forall_map. eapply Forall_impl; [|exact U]. intros x H. rewrite FS. exact H.
  - right. unfold famof in *.
    assert (EQ : filter (fun x => fam lk (fst x)) (map strip c) = map strip (filter (fun x => fam lk (fst x)) c)).
    { clear E. induction c as [|x c IH]; auto. cbn [map filter]. rewrite FS. destruct (fam lk (fst x)); cbn [map]; rewrite IH; reflexivity. }
    rewrite EQ, E. cbn [map].
    destruct (strip (mn_of lk, a)) as [c1 v1] eqn:E1. destruct (strip (mx_of lk, b)) as [c2 v2] eqn:E2.
    pose proof (FS (mn_of lk, a)) as F1. pose proof (FS (mx_of lk, b)) as F2. rewrite E1 in F1. rewrite E2 in F2. cbn [fst] in F1, F2.
    subst. exists v1, v2. reflexivity.
Qed.

Lemma chunks_strip l : chunks (map strip l) = map (map strip) (chunks l).
Proof.
  assert (FS : forall x, fst (strip x) = fst x) by (intros [a v]; unfold strip; cbn [fst]; destruct (usage_tag a); reflexivity).
  induction l as [|x l IH]; [reflexivity|]. cbn [map chunks]. rewrite FS, IH. destruct (main_tag (fst x)); [reflexivity|].
  destruct (chunks l); reflexivity.
Qed.

Definition lkm (k : icls) (c : icls) : bool := fam k c || main_tag c.

Lemma lkm_ok k : (forall d, fam k d = true -> lkm k d = true) /\ (forall c, main_tag c = true -> lkm k c = true).
Proof. unfold lkm. split; intros c H; rewrite H; auto using orb_true_r. Qed.

Lemma lkm_out lk k c : single lk -> single k -> k <> lk -> fam lk c = true -> lkm k c = false.
Proof. intros [-> | [-> | ->]] [-> | [-> | ->]] N F; try congruence; destruct c; try discriminate F; reflexivity. Qed.

Lemma neats_rm db lk k l : single lk -> single k -> k <> lk ->
  Forall (neat k) (chunks (map cv l)) -> Forall (neat k) (chunks (map cv (run_pass (range_merge db lk (mn_of lk) (mx_of lk)) l))).
Proof.
  intros SL SK N. destruct (fam_self lk SL) as [F1 [F2 F3]]. apply (neats_sel k (lkm k)); try apply lkm_ok.
  symmetry. apply rm_keep; apply (lkm_out lk k); auto.
Qed.

Lemma neats_up db k l : single k -> Forall constructed l -> Forall (neat k) (chunks (map cv l)) ->
  Forall (neat k) (chunks (map cv (run_pass (usage_page_pass db) l))).
Proof.
  intros SK C F. rewrite up_run_split, (up_ups db l C).
  assert (A1 : forall d, fam k d = true -> negb (icls_eqb d UsagePage) = true) by (destruct SK as [-> | [-> | ->]]; intros d H; destruct d; try discriminate H; reflexivity).
  assert (A2 : forall c, main_tag c = true -> negb (icls_eqb c UsagePage) = true) by (intros d H; destruct d; try discriminate H; reflexivity).
  apply (neats_keep k (fun c => negb (icls_eqb c UsagePage))); auto.
  change (keep (fun c => negb (icls_eqb c UsagePage)) ?x) with (no_pages x).
  match goal with |- Forall _ (chunks ?x) => change x with (no_pages (ups None (map cv l))) end.
  rewrite ups_strip, chunks_strip, Forall_map. apply (neats_keep k (fun c => negb (icls_eqb c UsagePage))) in F; auto.
  eapply Forall_impl; [|exact F]. intros c. apply neat_strip.
Qed.

Lemma optimize_neat db l : Forall constructed l -> Forall unr3 l -> optimize db l = run_pass (usage_page_pass db) (before_pages db l) ->
  forall k, single k -> Forall (neat k) (chunks (map cv (optimize db l))).
Proof.
  intros C U E k SK.
  assert (RMC : forall lk mn mx q, Forall constructed q -> Forall constructed (run_pass (range_merge db lk mn mx) q))
    by (intros; apply rm_each; auto; intros; apply rebuild_built).
  assert (C3 : Forall constructed (run_pass global_merge (run_pass physical_merge (run_pass main_merge l))))
    by (apply gm_each, pm_each, mm_each; auto using rc_built, rc_nonneg).
  assert (U3 : Forall unr3 (run_pass global_merge (run_pass physical_merge (run_pass main_merge l)))).
  { assert (Q : Forall (fun i => constructed i /\ unr3 i) (run_pass global_merge (run_pass physical_merge (run_pass main_merge l)))).
    { apply gm_each, pm_each, mm_each.
      - intros n H. split; [apply rc_built; auto|]. repeat split; discriminate.
      - intros i [H _]. apply rc_nonneg; auto.
      - rewrite Forall_forall in *. auto. }
    eapply Forall_impl; [|exact Q]. intros i [_ H]. exact H. }
  rewrite E. unfold before_pages, string_merge, designator_merge, usage_merge in *.
  set (l3 := run_pass global_merge (run_pass physical_merge (run_pass main_merge l))) in *.
  change (range_merge db StringIndex StringMinimum StringMaximum) with (range_merge db StringIndex (mn_of StringIndex) (mx_of StringIndex)) in *.
  change (range_merge db DesignatorIndex DesignatorMinimum DesignatorMaximum) with (range_merge db DesignatorIndex (mn_of DesignatorIndex) (mx_of DesignatorIndex)) in *.
  change (range_merge db Usage UsageMinimum UsageMaximum) with (range_merge db Usage (mn_of Usage) (mx_of Usage)) in *.
  assert (S1 : single Usage) by (left; reflexivity). assert (S2 : single DesignatorIndex) by (right; left; reflexivity).
  assert (S3 : single StringIndex) by (right; right; reflexivity).
  assert (UU : Forall (unr Usage) l3) by (eapply Forall_impl; [|exact U3]; intros i H; apply H).
  assert (UD : Forall (unr DesignatorIndex) l3) by (eapply Forall_impl; [|exact U3]; intros i H; apply H).
  assert (US : Forall (unr StringIndex) l3) by (eapply Forall_impl; [|exact U3]; intros i H; apply H).
  apply neats_up; auto.
  destruct SK as [-> | [-> | ->]].
  - apply rm_neat; auto. apply rm_unr; auto; try discriminate. apply rm_unr; auto; discriminate.
  - apply neats_rm; auto; try discriminate. apply rm_neat; auto. apply rm_unr; auto; discriminate.
  - apply neats_rm; auto; try discriminate. apply neats_rm; auto; try discriminate. apply rm_neat; auto.
Qed.

(* ------------------------------------------------------------------ *)
(** what a host collects from neat local items *)

Definition flag (lk : icls) : bool := match lk with Usage => false | _ => true end.

Definition holds (lk : icls) (seg : list spec_item) (t : ltab) : Prop :=
  (unranged lk seg /\ Forall (fun d => match d with LOne _ => True | LRange _ _ => False end) (l_decls t) /\
   l_min t = None /\ l_max t = None /\ (famof lk seg = [] -> l_decls t = [])) \/
  (exists a r, famof lk seg = [(mn_of lk, a)] /\ t = L [] (Some r) None /\ lr_abs r = flag lk) \/
  (exists a b r r', famof lk seg = [(mn_of lk, a); (mx_of lk, b)] /\ t = L [LRange r r'] None None /\ lr_abs r = flag lk /\ lr_abs r' = flag lk).

Lemma holds_simple lk seg t : holds lk seg t -> neat lk seg -> simple_tab t.
Proof.
  intros [[_ [F _]]|[[a [r [E [-> A]]]]|[a [b [r [r' [E [-> [A B]]]]]]]]] N.
  - left. exact F.
  - left. constructor.
  - right. exists r, r'. cbn. repeat split; congruence.
Qed.

Lemma famof_app lk a b : famof lk (a ++ b) = famof lk a ++ famof lk b.
Proof. apply filter_app. Qed.

Lemma fam_cases lk c : fam lk c = true -> c = lk \/ c = mn_of lk \/ c = mx_of lk.
Proof.
  unfold fam. intros F. apply orb_true_iff in F. destruct F as [F|F]; [apply orb_true_iff in F; destruct F as [F|F]|];
    apply icls_eqb_eq in F; auto.
Qed.

Lemma refer_flag lk pg v : single lk -> (lk = Usage -> v < 65536) -> lr_abs (refer lk pg v) = flag lk.
Proof.
  intros [-> | [-> | ->]] H; cbn [refer lr_abs flag]; auto. specialize (H eq_refl). lia.
Qed.

Lemma holds_step lk seg c i g x : single lk -> constructed i -> (is_usage (ic i) = true -> ival i < 65536) ->
  neat lk (seg ++ cv i :: c) -> holds lk seg (tab lk x) -> fam lk (ic i) = true ->
  holds lk (seg ++ [cv i]) (tab lk (lo_set (ic i) (ival i) (w_ext (wire i)) (g_page g) x)).
Proof.
  intros SL C SM N HO F. destruct (fam_self lk SL) as [F1 [F2 F3]]. destruct (fam_apart lk SL) as [NE1 NE2].
  assert (NE3 : mn_of lk <> mx_of lk) by (destruct SL as [-> | [-> | ->]]; discriminate).
  assert (RF : lr_abs (refer lk (g_page g) (ival i)) = flag lk).
  { apply refer_flag; auto. intros ->. apply SM. destruct (ic i); try discriminate F; reflexivity. }
  assert (FC : famof lk [cv i] = [cv i]) by (unfold famof; cbn [filter cv fst]; rewrite F; reflexivity).
  assert (SPLIT : famof lk (seg ++ cv i :: c) = famof lk seg ++ cv i :: famof lk c).
  { rewrite famof_app. f_equal. change (cv i :: c) with ([cv i] ++ c). rewrite famof_app, FC. reflexivity. }
  destruct (fam_cases lk _ F) as [K|[K|K]].
  - rewrite (lo_set_lk lk i _ _ SL C K).
    destruct N as [U|[a [b E]]].
    + assert (US : unranged lk seg) by (apply Forall_app in U; apply U).
      destruct HO as [[_ [H1 [H2 [H3 H4]]]]|[[a [r [E _]]]|[a [b [r [r' [E _]]]]]]].
      * left. split; [|split; [|split; [|split]]]; auto.
        -- apply Forall_app. split; [exact US|]. constructor; [|constructor]. cbn [cv fst]. rewrite K. auto.
        -- cbn [add_one l_decls]. apply Forall_app. auto.
        -- rewrite famof_app, FC. intros Q. destruct (famof lk seg); discriminate Q.
      * exfalso. apply unranged_fam in US. rewrite E in US. apply Forall_inv in US. cbn in US. tauto.
      * exfalso. apply unranged_fam in US. rewrite E in US. apply Forall_inv in US. cbn in US. tauto.
    + exfalso. rewrite SPLIT in E. assert (I : In (cv i) [(mn_of lk, a); (mx_of lk, b)]) by (rewrite <- E; apply in_or_app; right; left; reflexivity).
      destruct I as [Q|[Q|[]]]; apply (f_equal fst) in Q; cbn [cv fst] in Q; congruence.
  - rewrite (lo_set_mn lk i _ _ SL C K).
    destruct N as [U|[a [b E]]].
    + exfalso. apply Forall_app in U. destruct U as [_ U]. apply Forall_inv in U. cbn [cv fst] in U. tauto.
    + rewrite SPLIT in E. destruct (famof lk seg) as [|y q] eqn:EF.
      2:{ exfalso. destruct q as [|y2 [|y3 q]]; cbn [app] in E; [|discriminate E..].
          assert (Q : cv i = (mx_of lk, b)) by congruence. apply (f_equal fst) in Q. cbn [cv fst] in Q. congruence. }
      destruct HO as [[_ [H1 [H2 [H3 H4]]]]|[[a' [r [E' _]]]|[a' [b' [r [r' [E' _]]]]]]]; [|rewrite EF in E'; discriminate E'..].
      right. left. exists (ival i), (refer lk (g_page g) (ival i)). split; [|split; [|exact RF]].
      * rewrite famof_app, FC, EF. unfold cv. rewrite K. reflexivity.
      * unfold add_min. rewrite H3, (H4 EF). reflexivity.
  - rewrite (lo_set_mx lk i _ _ SL C K).
    destruct N as [U|[a [b E]]].
    + exfalso. apply Forall_app in U. destruct U as [_ U]. apply Forall_inv in U. cbn [cv fst] in U. tauto.
    + rewrite SPLIT in E. destruct (famof lk seg) as [|y q] eqn:EF.
      { exfalso. cbn [app] in E. assert (Q : cv i = (mn_of lk, a)) by congruence. apply (f_equal fst) in Q. cbn [cv fst] in Q. congruence. }
      cbn [app] in E. injection E as -> E. destruct q as [|y2 q]; [|exfalso; cbn [app] in E; injection E as _ E; destruct q; discriminate E].
      destruct HO as [[U [H1 [H2 [H3 H4]]]]|[[a' [r [E' [-> A]]]]|[a' [b' [r [r' [E' _]]]]]]].
      * exfalso. apply unranged_fam in U. rewrite EF in U. apply Forall_inv in U. cbn in U. tauto.
      * right. right. exists a, (ival i), r, (refer lk (g_page g) (ival i)). split; [|split; [|split]]; auto.
        rewrite famof_app, FC, EF. unfold cv. rewrite K. reflexivity.
      * rewrite EF in E'. discriminate E'.
Qed.

Lemma holds_skip lk seg i t : fam lk (ic i) = false -> holds lk seg t -> holds lk (seg ++ [cv i]) t.
Proof.
  intros F HO. assert (E : famof lk (seg ++ [cv i]) = famof lk seg).
  { rewrite famof_app. unfold famof at 2. cbn [filter cv fst]. rewrite F. apply app_nil_r. }
  unfold holds. rewrite E. destruct HO as [[U H]|HO]; [left; split; [|exact H]|right; exact HO].
  apply unranged_fam. rewrite E. apply (proj1 (unranged_fam lk seg)). exact U.
Qed.

Definition tidy (e : mstate) : Prop :=
  let '(_, x, c, _) := e in main_tag c = true /\ simple_tab (lo_us x) /\ simple_tab (lo_ds x) /\ simple_tab (lo_ss x).

Definition small_usage (i : item) : Prop := is_usage (ic i) = true -> ival i < 65536.

Lemma tidy_go l : forall g x seg, Forall constructed l -> Forall small_usage l -> (forall k, single k -> holds k seg (tab k x)) ->
  (forall k, single k -> exists c cs, chunks (map cv l) = c :: cs /\ neat k (seg ++ c) /\ Forall (neat k) cs) ->
  Forall tidy (snd (m_run lo_init lo_set sees (g, x) (map wire l))).
Proof.
  induction l as [|i l IH]; intros g x seg C SU HO CH; [constructor|].
  inversion C as [|? ? C1 C2]; subst. inversion SU as [|? ? S1 S2]; subst. cbn [map m_run]. unfold m_step.
  change (w_cls (wire i)) with (ic i). change (w_val (wire i)) with (ival i).
  destruct (hid_kind (ic i)) eqn:K.
  - assert (M : main_tag (fst (cv i)) = true) by (cbn [cv fst]; destruct (ic i); try discriminate K; reflexivity).
    assert (HERE : forall k, single k -> simple_tab (tab k x)).
    { intros k SK. destruct (CH k SK) as [c [cs [E [N _]]]]. cbn [map chunks] in E. rewrite M in E. injection E as <- _.
      rewrite app_nil_r in N. apply (holds_simple k seg); auto. }
    specialize (IH g lo_init [] C2 S2).
    destruct (m_run lo_init lo_set sees (g, lo_init) (map wire l)) as [s2 o2]. cbn [fst snd app sees] in *.
    constructor.
    + split; [exact M|]. split; [apply (HERE Usage); left; reflexivity|]. split; [apply (HERE DesignatorIndex); right; left; reflexivity|apply (HERE StringIndex); right; right; reflexivity].
    + apply IH.
      * intros k SK. left. split; [constructor|]. destruct SK as [-> | [-> | ->]]; repeat split; constructor.
      * intros k SK. destruct (CH k SK) as [c [cs [E [_ N]]]]. cbn [map chunks] in E. rewrite M in E. injection E as _ E.
        destruct (chunks_some (map cv l)) as [c0 [cs0 E0]]. rewrite E0 in *. subst cs. inversion N; subst. exists c0, cs0. auto.
  - assert (M : main_tag (fst (cv i)) = false) by (cbn [cv fst]; destruct (ic i); try discriminate K; reflexivity).
    specialize (IH (g_set (ic i) (ival i) g) x (seg ++ [cv i]) C2 S2).
    destruct (m_run lo_init lo_set sees (g_set (ic i) (ival i) g, x) (map wire l)) as [s2 o2]. cbn [fst snd app] in *. apply IH.
    + intros k SK. apply holds_skip; auto. destruct SK as [-> | [-> | ->]]; destruct (ic i); try discriminate K; reflexivity.
    + intros k SK. destruct (CH k SK) as [c [cs [E [N1 N2]]]]. cbn [map chunks] in E. rewrite M in E.
      destruct (chunks_some (map cv l)) as [c0 [cs0 E0]]. rewrite E0 in *. injection E as <- <-. exists c0, cs0. rewrite <- app_assoc. auto.
  - assert (M : main_tag (fst (cv i)) = false) by (cbn [cv fst]; destruct (ic i); try discriminate K; reflexivity).
    specialize (IH g (lo_set (ic i) (ival i) (w_ext (wire i)) (g_page g) x) (seg ++ [cv i]) C2 S2).
    destruct (m_run lo_init lo_set sees (g, lo_set (ic i) (ival i) (w_ext (wire i)) (g_page g) x) (map wire l)) as [s2 o2].
    cbn [fst snd app] in *. apply IH.
    + intros k SK. destruct (CH k SK) as [c [cs [E [N1 N2]]]]. cbn [map chunks] in E. rewrite M in E.
      destruct (chunks_some (map cv l)) as [c0 [cs0 E0]]. rewrite E0 in *. injection E as <- <-.
      destruct (fam k (ic i)) eqn:F; [apply (holds_step k seg c0); auto|].
      apply holds_skip; auto.
      replace (tab k (lo_set (ic i) (ival i) (w_ext (wire i)) (g_page g) x)) with (tab k x); auto.
      destruct x as [us ds ss dl]. destruct SK as [-> | [-> | ->]]; destruct (ic i); try discriminate F; reflexivity.
    + intros k SK. destruct (CH k SK) as [c [cs [E [N1 N2]]]]. cbn [map chunks] in E. rewrite M in E.
      destruct (chunks_some (map cv l)) as [c0 [cs0 E0]]. rewrite E0 in *. injection E as <- <-. exists c0, cs0. rewrite <- app_assoc. auto.
Qed.

Lemma tidy_states l : Forall constructed l -> push_free l -> Forall small_usage l -> (forall k, single k -> Forall (neat k) (chunks (map cv l))) ->
  Forall tidy (main_states (map wire l)).
Proof.
  intros C P SU N. change (main_states (map wire l)) with (snd (h_run sees (H g_init [] lo_init) (map wire l))).
  destruct (m_run_host sees (map wire l) g_init [] lo_init) as [st' EH]; [apply Forall_map; exact P|]. rewrite EH. cbn [snd].
  apply (tidy_go l g_init lo_init []); auto.
  - intros k SK. left. split; [constructor|]. destruct SK as [-> | [-> | ->]]; repeat split; constructor.
  - intros k SK. destruct (chunks_some (map cv l)) as [c [cs E]]. specialize (N k SK). rewrite E in N. inversion N; subst. exists c, cs. auto.
Qed.

Lemma up_small db l : Forall constructed l -> Forall small_usage (run_pass (usage_page_pass db) l).
Proof.
  intros C. rewrite up_run_split. pose proof (up_ups db l C None) as E. set (o := snd (feed (usage_page_pass db) None l)) in *.
  pose proof (ups_strip (map cv l) None) as S. rewrite <- E in S. apply Forall_forall. intros i I U.
  assert (J : In (cv i) (no_pages (map cv o))).
  { unfold no_pages. apply filter_In. split; [apply in_map; exact I|]. cbn [cv fst]. destruct (ic i); try discriminate U; reflexivity. }
  rewrite S in J. apply in_map_iff in J. destruct J as [[c v] [Q _]]. unfold strip in Q. cbn [fst snd] in Q.
  destruct (usage_tag c) eqn:T.
  - apply (f_equal snd) in Q. cbn [cv snd] in Q. rewrite <- Q. apply Z.mod_pos_bound. lia.
  - apply (f_equal fst) in Q. cbn [cv fst] in Q. subst c. rewrite usage_tag_is in T. congruence.
Qed.

(* ------------------------------------------------------------------ *)
(** the streams the decompiler accepts and keeps *)

Lemma nozero_spec l : nozero l = true -> nonzero l.
Proof. intros H. unfold nozero in H. rewrite forallb_forall in H. apply Forall_forall. intros z I. specialize (H z I). lia. Qed.

Lemma mark_data open c us ds ss n g f r : data_tag c = true -> is_constant f = false -> marks_ok open (mark_of us ds ss n g c f ++ r) ->
  (g_count g = 1 -> spanb us (g_lmin g) (g_lmax g) = true -> exists k o, open = k :: o /\ k <> 2 /\ k <> 4) /\
  goodb us ds ss n g f = true /\ marks_ok open r.
Proof.
  intros D K H. unfold mark_of in H.
  assert (Q : marks_ok open (((if (g_count g =? 1) && spanb us (g_lmin g) (g_lmax g) then [MSpan] else []) ++
           (if goodb us ds ss n g f then [] else [MBad])) ++ r)) by (destruct c; try discriminate D; rewrite K in H; exact H).
  clear H. destruct ((g_count g =? 1) && spanb us (g_lmin g) (g_lmax g)) eqn:S; destruct (goodb us ds ss n g f); cbn [app marks_ok] in Q; try tauto.
  split; [|tauto]. intros E1 E2. rewrite E2 in S. lia.
Qed.

Lemma marks_streams es : forall open, Forall tidy es -> marks_ok open (flat_map (obs_at (mobs AtMain)) es) ->
  plain_stream open es /\ clear_stream open es.
Proof.
  induction es as [|[[[g x] c] f] es IH]; intros open T M; [split; exact I|].
  inversion T as [|? ? T0 TS]; subst. unfold tidy in T0. destruct T0 as [MT [T1 [T2 T3]]]. cbn [flat_map obs_at] in M.
  assert (DATA : data_tag c = true -> (plain_data open (g, x, c, f) /\ plain_stream open es) /\ (clear_data open (g, x, c, f) /\ clear_stream open es)).
  { intros D. destruct (is_constant f) eqn:K.
    - assert (MM : marks_ok open (flat_map (obs_at (mobs AtMain)) es)).
      { unfold mobs, mark_of in M. destruct c; try discriminate D; rewrite K in M; exact M. }
      destruct (IH open TS MM) as [A B]. unfold plain_data, clear_data. rewrite K. repeat split; auto; discriminate.
    - unfold mobs in M. destruct (mark_data open c _ _ _ _ g f _ D K M) as [G1 [G2 G3]]. destruct (IH open TS G3) as [A B].
      set (us := values AtMain (g_page g) (lo_us x)) in *. set (ds := values AtMain (g_page g) (lo_ds x)) in *.
      set (ss := values AtMain (g_page g) (lo_ss x)) in *.
      unfold goodb in G2. apply andb_true_iff in G2. destruct G2 as [G2 GV]. apply andb_true_iff in G2. destruct G2 as [G2 Z2].
      apply andb_true_iff in G2. destruct G2 as [ND Z1].
      assert (SP : Z.of_nat (length us) = g_lmax g - g_lmin g + 1 <-> spanb us (g_lmin g) (g_lmax g) = true) by (unfold spanb; lia).
      assert (AM : forall q, atmost1 q = true -> at_most_one q) by (intros q; apply atmost1_spec).
      split; split; auto; unfold plain_data, clear_data; cbn zeta; fold us ds ss; intros _.
      + split; [exact T1|]. split; [exact T2|]. split; [exact T3|]. split; [unfold nodl in ND; destruct (lo_dl x); [reflexivity|discriminate]|].
        split; [apply nozero_spec; exact Z1|]. split; [apply nozero_spec; exact Z2|]. split; [intros E1 E2; apply G1; auto; apply SP; exact E2|].
        destruct (is_variable f).
        * intros BU. rewrite BU in GV. cbn [negb orb] in GV. repeat (apply andb_true_iff in GV; destruct GV as [GV ?]). auto.
        * apply andb_true_iff in GV. destruct GV as [GV GX]. apply andb_true_iff in GV. destruct GV as [GA GB].
          split; auto. split; auto. split.
          -- intros E1 E2. apply SP in E2. rewrite E2, E1 in GX. cbn [Z.eqb andb] in GX. unfold eff in GX.
             destruct (effective (g_pmin g) (g_pmax g) (g_lmin g) (g_lmax g)) as [p q]. cbn [fst snd] in GX.
             repeat (apply andb_true_iff in GX; destruct GX as [GX ?]). repeat split; try lia. f_equal; lia.
          -- intros N. destruct ((f =? 0) && spanb us (g_lmin g) (g_lmax g)) eqn:Q; auto.
             exfalso. apply N. apply andb_true_iff in Q. destruct Q as [Q1 Q2]. split; [lia|apply SP; exact Q2].
      + split; [exact T1|]. intros E2. apply SP in E2. split; [intros E1; apply G1; auto|].
        intros -> _. cbn in GV. rewrite E2 in GV. repeat (apply andb_true_iff in GV; destruct GV as [GV ?]). lia. }
  destruct c; try discriminate MT; try (apply DATA; reflexivity).
  - cbn [mobs mark_of app] in M. change (marks_ok (f :: open) (flat_map (obs_at (mobs AtMain)) es)) in M.
    destruct (IH _ TS M). cbn [plain_stream clear_stream]. auto.
  - change (marks_ok (tl open) (flat_map (obs_at (mobs AtMain)) es)) in M. destruct (IH _ TS M). cbn [plain_stream clear_stream]. auto.
Qed.

(* ------------------------------------------------------------------ *)
(** the optimised stream closes its last collection *)

Lemma collapse_last d l : last (collapse l) d = last l d.
Proof.
  induction l as [|x l IH]; [reflexivity|]. cbn [collapse]. destruct (collapse l) as [|y r] eqn:E.
  - destruct l as [|z l]; [reflexivity|]. cbn [collapse] in E. destruct (collapse l); [discriminate|destruct (repeats z s); discriminate].
  - assert (N : l <> []) by (intros ->; discriminate E). destruct l as [|z l]; [congruence|].
    change (last (x :: z :: l) d) with (last (z :: l) d). rewrite <- IH. destruct (repeats x y); reflexivity.
Qed.

Lemma mains_last l : mains l = [] \/ exists a x b, l = a ++ x :: b /\ main_tag (fst x) = true /\ Forall (fun y => main_tag (fst y) = false) b /\ forall d, last (mains l) d = x.
Proof.
  induction l as [|y l IH] using rev_ind; [left; reflexivity|]. unfold mains in *. rewrite filter_app. cbn [filter].
  destruct (main_tag (fst y)) eqn:M.
  - right. exists l, y, []. repeat split; auto. intros d. apply last_last.
  - rewrite app_nil_r. destruct IH as [IH|[a [x [b [-> [E1 [E2 E3]]]]]]]; [left; exact IH|]. right. exists a, x, (b ++ [y]).
    split; [rewrite <- app_assoc; reflexivity|]. split; [exact E1|]. split; [|exact E3]. apply Forall_app. auto.
Qed.

Lemma nest_quiet l d : Forall (fun c => main_tag c = false) l -> nest d l = Some d.
Proof. induction 1 as [|c l M F IH]; [reflexivity|]. destruct c; try discriminate M; exact IH. Qed.

Lemma closes_last o : balanced (map ic o) -> data_tag (fst (last (mains (map cv o)) (Input, 0))) = false -> closes (map ic o).
Proof.
  intros B D. destruct (mains_last (map cv o)) as [E|[a [x [b [E [M [N L]]]]]]]; [rewrite E in D; discriminate D|]. rewrite L in D.
  split; [exact B|]. assert (EI : map ic o = map fst a ++ fst x :: map fst b).
  { change (map ic o) with (map (fun i => fst (cv i)) o). rewrite <- map_map, E, map_app. reflexivity. }
  assert (NB : Forall (fun c => main_tag c = false) (map fst b)) by (apply Forall_map; exact N).
  exists (map fst a), (map fst b). split; [|exact NB]. rewrite EI. f_equal. f_equal.
  unfold balanced in B. rewrite EI, ExtractFacts.nest_app in B. destruct (nest 0 (map fst a)) as [d|]; [|discriminate B].
  destruct (fst x); try discriminate M; try discriminate D; [|reflexivity].
  cbn [nest] in B. rewrite nest_quiet in B by auto. discriminate B.
Qed.

Lemma ends_last l : ends l -> data_tag (fst (last (mains (map cv l)) (Input, 0))) = false.
Proof.
  intros [l' [i [-> [K D]]]]. rewrite map_app. unfold mains. rewrite filter_app. cbn [map filter].
  replace (main_tag (fst (cv i))) with true; [|cbn [cv fst]; destruct (ic i); try discriminate K; reflexivity].
  rewrite last_last. cbn [cv fst]. destruct (ic i); try discriminate D; reflexivity.
Qed.

(* ------------------------------------------------------------------ *)
(** C65 *)

Lemma same_items l l' : Forall constructed l -> Forall constructed l' -> map cv l' = map cv l -> Forall2 same_wire (map wire l') (map wire l).
Proof.
  intros C. revert l'. induction C as [|i l CI C IH]; intros [|j l'] C' E; try discriminate E; [constructor|].
  inversion C' as [|? ? CJ C2]; subst. cbn [map] in *. unfold cv at 1 3 in E. injection E as E1 E2 E3. constructor; [|apply IH; auto].
  split; [exact E1|]. split; [exact E2|]. intros U. cbn [wire w_cls] in U.
  assert (U1 : is_usage (ic j) = true) by (destruct (ic j); try discriminate U; reflexivity).
  assert (U2 : is_usage (ic i) = true) by congruence.
  rewrite (ext_usage j CJ U1), (ext_usage i CI U2). congruence.
Qed.

Lemma c65 db db' t b : well_formed t -> closed_tree t ->
  scaling_ok (fst (threaded 0 t)) -> uniform_leaves (fst (threaded 0 t)) ->
  same_pages (fst (threaded 0 t)) -> joinable_leaves (fst (threaded 0 t)) -> Forall comes_back (located [] (fst (threaded 0 t))) ->
  compile db true t = Ok b ->
  exists t' ev fl, decompile db' b = Ok t' /\ reads_as b ev /\ follows any_gap [] (fst (threaded 0 t)) ev /\
    drawn fl ev /\ prunes fl (scoped 0 t') /\ no_empty (scoped 0 t').
Proof.
  intros WF CL SC UN SP JO CB H. pose proof SP as [SP1 SP2].
  destruct (c42_tree db t b WF CL SC UN SP H) as [ev [RA FO]].
  unfold compile in H. destruct (stream_items db t) as [l|] eqn:E; [|discriminate]. cbn [bind] in H.
  destruct (tree_orderly db t l WF CL E SC) as [C [PF [EN [RG [BU P]]]]].
  destruct (tree_joins _ _ _ P UN) as [J1 J2']. pose proof (J2' SP2) as JJ. clear J2'.
  assert (J2 : joins same_page (main_states (map wire l))) by (intros t1 e1 e2 t2 EQ MJ; apply (JJ t1 e1 e2 t2 EQ MJ)).
  pose proof (tree_calm _ _ _ P UN JO CB) as J3.
  pose proof (tree_marks _ _ _ PF P CB) as MK.
  assert (GO : Forall good (optimize db l)).
  { apply c32_places; [|exact EN]. unfold push_free in PF. rewrite Forall_forall in *. intros i I. split; [auto|]. apply PF. exact I. }
  rewrite <- (optimize_marked_any db l C PF EN RG BU J1 J2 J3 (pieces_pages _ _ _ _ SP1 P)) in MK
    by (eapply Forall_impl; [|exact GO]; intros i [_ X]; exact X).
  assert (N : noz (map cv l)) by (destruct RG as [OD _]; eapply Forall_impl; [|exact OD]; cbn; tauto).
  pose proof (optimize_pages db l N EN) as OP.
  set (o := optimize db l) in *.
  assert (CO : Forall constructed o) by (eapply Forall_impl; [|exact GO]; intros i [X _]; exact X).
  assert (PO : push_free o) by (eapply Forall_impl; [|exact GO]; intros i [_ X]; exact X).
  assert (UNR : Forall unr3 l).
  { pose proof (pieces_items _ _ _ _ P) as F. rewrite Forall_map in F. eapply Forall_impl; [|exact F]. intros i [A _]. cbn [cv fst] in A.
    unfold unr3, unr. repeat split; intros Q; rewrite Q in A; discriminate A. }
  assert (CB5 : Forall constructed (before_pages db l)).
  { apply before_built. exact C. }
  assert (TD : Forall tidy (main_states (map wire o))).
  { apply tidy_states; auto.
    - rewrite OP. apply up_small. exact CB5.
    - apply (optimize_neat db l C UNR OP). }
  rewrite marked_states in MK by exact PO.
  destruct (marks_streams _ _ TD MK) as [PS CS].
  assert (CLO : closes (map ic o)).
  { apply closes_last; [apply (c23_optimised db t l E)|]. rewrite <- collapse_last. unfold o. rewrite c31, collapse_last. apply ends_last. exact EN. }
  destruct (parse_good db' 0 b _ (serialize_means o b H) (constructed_zero o CO)) as [l' [PA [M C']]].
  rewrite wire_cv in M. pose proof (same_items o l' CO C' M) as SW.
  pose proof (wires_classes _ _ SW) as WC. rewrite !map_map in WC. change (map ic l' = map ic o) in WC.
  assert (MS : main_states (map wire l') = main_states (map wire o)) by (unfold main_states; rewrite (h_run_same _ _ _ SW); reflexivity).
  assert (PF' : push_free l').
  { unfold push_free. apply (Forall_map ic (fun c => c <> Push /\ c <> Pop)). rewrite WC. apply Forall_map. exact PO. }
  rewrite <- WC in CLO. rewrite <- MS in PS, CS.
  destruct (c54 db' l' C' PF' CLO CS) as [t' X]. destruct (c47 db' l' t' C' PF' CLO PS X) as [fl [D [PR NE]]].
  assert (EV : host_view AtMain (map wire l') = ev).
  { rewrite (host_view_same AtMain _ _ SW). apply (RA AtMain). exists (map wire o). split; [apply serialize_means; exact H|reflexivity]. }
  rewrite EV in D. exists t', ev, fl. split; [|auto 10].
  unfold decompile. rewrite blob_parse_from, PA. cbn [finished appended bind]. exact X.
Qed.
