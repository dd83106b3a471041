(* PageTree.v -- C40 and C42 for trees with any usages, of page 0 too.

   As in PageShift.v the stream is compared with the one in which 65536 is
   added to every usage; the optimised streams then differ by 1 in their
   usage pages. *)
From Coq Require Import ZifyBool ZifyNat.
From Verif Require Import Py Usage Item Parser Optimizer Descriptor Converter HidSpec Spec ItemFacts ParserFacts CodecProofs UsageProofs StreamSpec
  StreamProofs StreamTree OptSpec AllSpec TreeSpec OptFacts PassFacts MainMergeFacts Skeleton RangeFacts PageFacts MergeFacts DesigFacts OptAll TreeOpt NameFacts PageSpec PageShift.
Ltac Zify.zify_post_hook ::= Z.div_mod_to_equations.
Local Open Scope Z_scope.

(* ------------------------------------------------------------------ *)
(** streams that differ by 1 in their pages *)

Definition next (r : lref) : lref := LR (lr_page r + 1) false (lr_val r).
Definition next_decl (d : ldecl) : ldecl := match d with LOne r => LOne (next r) | LRange a b => LRange (next a) (next b) end.
Definition brief (r : lref) : Prop := lr_abs r = false.
Definition brief_decl (d : ldecl) : Prop := match d with LOne r => brief r | LRange a b => brief a /\ brief b end.
Record ptab (t t' : ltab) : Prop := {
  pt_decls : l_decls t' = map next_decl (l_decls t);
  pt_min : l_min t' = option_map next (l_min t);
  pt_max : l_max t' = option_map next (l_max t);
  pt_brief : Forall brief_decl (l_decls t);
  pt_bmin : forall r, l_min t = Some r -> brief r;
  pt_bmax : forall r, l_max t = Some r -> brief r
}.

Lemma resolve_next mm p r : brief r -> resolve mm p r = unsh (resolve mm (p + 1) (next r)).
Proof. destruct r as [pg [] v]; [discriminate|]. intros _. unfold resolve, next, unsh. cbn [lr_abs lr_page lr_val]. destruct mm; lia. Qed.

Lemma values_ptab mm p t t' : ptab t t' -> values mm p t = map unsh (values mm (p + 1) t').
Proof.
  intros [E _ _ B _ _]. unfold values. rewrite E. clear E. induction B as [|d l D B IH]; [reflexivity|]. cbn [flat_map map]. rewrite map_app, <- IH. f_equal.
  destruct d as [r|a b]; cbn [next_decl resolve_decl map].
  - rewrite (resolve_next mm p r D). reflexivity.
  - destruct D as [D1 D2]. rewrite (resolve_next mm p a D1), (resolve_next mm p b D2). apply upto_unsh.
Qed.

Lemma ptab_empty : ptab l_empty l_empty.
Proof. constructor; try reflexivity; [constructor|discriminate|discriminate]. Qed.

Lemma ptab_one p v t t' : ptab t t' -> ptab (add_one (LR p false v) t) (add_one (LR (p + 1) false v) t').
Proof.
  intros [E1 E2 E3 B1 B2 B3]. unfold add_one. constructor; cbn [l_decls l_min l_max]; auto.
  - rewrite E1, map_app. reflexivity.
  - apply Forall_app. split; auto. repeat constructor.
Qed.
Lemma ptab_min p v t t' : ptab t t' -> ptab (add_min (LR p false v) t) (add_min (LR (p + 1) false v) t').
Proof.
  intros [E1 E2 E3 B1 B2 B3]. unfold add_min. rewrite E3. destruct (l_max t) as [b|] eqn:M; cbn [option_map];
    constructor; cbn [l_decls l_min l_max]; auto; try discriminate.
  - rewrite E1, map_app. reflexivity.
  - apply Forall_app. split; auto. constructor; [|constructor]. split; [reflexivity|auto].
  - intros r Q. injection Q as <-. reflexivity.
Qed.
Lemma ptab_max p v t t' : ptab t t' -> ptab (add_max (LR p false v) t) (add_max (LR (p + 1) false v) t').
Proof.
  intros [E1 E2 E3 B1 B2 B3]. unfold add_max. rewrite E2. destruct (l_min t) as [b|] eqn:M; cbn [option_map];
    constructor; cbn [l_decls l_min l_max]; auto; try discriminate.
  - rewrite E1, map_app. reflexivity.
  - apply Forall_app. split; auto. constructor; [|constructor]. split; [auto|reflexivity].
  - intros r Q. injection Q as <-. reflexivity.
Qed.

(** [k]: a page has been declared *)
Inductive beside : bool -> list witem -> list witem -> Prop :=
| be_nil k : beside k [] []
| be_page k v e e' l m : beside true l m -> beside k (W UsagePage v e :: l) (W UsagePage (v + 1) e' :: m)
| be_usage c v l m : usage_tag c = true -> beside true l m -> beside true (W c v false :: l) (W c v false :: m)
| be_same k c v e e' l m : usage_tag c = false -> c <> UsagePage -> c <> Push -> c <> Pop -> beside k l m -> beside k (W c v e :: l) (W c v e' :: m).

Record pstate (k : bool) (g g' : gtab) (x y : locals) : Prop := {
  ps_globals : but_page g g';
  ps_page : if k then g_page g' = g_page g + 1 else lo_us x = l_empty;
  ps_us : ptab (lo_us x) (lo_us y);
  ps_ds : lo_ds y = lo_ds x;
  ps_ss : lo_ss y = lo_ss x;
  ps_dl : lo_dl y = lo_dl x
}.

Lemma values_ps mm k g g' x y : pstate k g g' x y -> values mm (g_page g) (lo_us x) = map unsh (values mm (g_page g') (lo_us y)).
Proof.
  intros [_ P U _ _ _]. destruct k; [rewrite P; apply values_ptab; exact U|].
  pose proof (pt_decls _ _ U) as D. rewrite P in D |- *. unfold values. rewrite D. reflexivity.
Qed.

(** designators and strings do not depend on pages *)
Definition absolute (r : lref) : Prop := lr_abs r = true.
Definition abs_decl (d : ldecl) : Prop := match d with LOne r => absolute r | LRange a b => absolute a /\ absolute b end.
Definition atab (t : ltab) : Prop := Forall abs_decl (l_decls t) /\ (forall r, l_min t = Some r -> absolute r) /\ (forall r, l_max t = Some r -> absolute r).
Definition aloc (x : locals) : Prop := atab (lo_ds x) /\ atab (lo_ss x).

Lemma values_atab mm p q t : atab t -> values mm p t = values mm q t.
Proof.
  intros [A _]. unfold values. induction A as [|d l D A IH]; [reflexivity|]. cbn [flat_map]. rewrite IH. f_equal.
  destruct d as [r|a b]; cbn [resolve_decl]; unfold resolve; [rewrite D|destruct D as [-> ->]]; reflexivity.
Qed.
Lemma atab_one v t : atab t -> atab (add_one (LR 0 true v) t).
Proof. intros [A [B C]]. split; [|auto]. apply Forall_app. split; [exact A|repeat constructor]. Qed.
Lemma atab_min v t : atab t -> atab (add_min (LR 0 true v) t).
Proof.
  intros [A [B C]]. unfold add_min. destruct (l_max t) eqn:M; split; cbn [l_decls l_min l_max]; auto; try (split; [|discriminate]).
  - apply Forall_app. split; [exact A|]. constructor; [|constructor]. split; [reflexivity|auto].
  - discriminate.
  - intros r Q. injection Q as <-. reflexivity.
Qed.
Lemma atab_max v t : atab t -> atab (add_max (LR 0 true v) t).
Proof.
  intros [A [B C]]. unfold add_max. destruct (l_min t) eqn:M; split; cbn [l_decls l_min l_max]; auto; try (split; [discriminate|]).
  - apply Forall_app. split; [exact A|]. constructor; [|constructor]. split; [auto|reflexivity].
  - discriminate.
  - intros r Q. injection Q as <-. reflexivity.
Qed.
Lemma aloc_set c v e p x : aloc x -> aloc (lo_set c v e p x).
Proof.
  intros [A B]. destruct x as [us ds ss dl]. cbn [lo_ds lo_ss] in *.
  destruct c; cbn [lo_set]; split; cbn [lo_ds lo_ss]; auto using atab_one, atab_min, atab_max.
Qed.
Lemma aloc_init : aloc lo_init.
Proof. split; (split; [constructor|split; discriminate]). Qed.

Lemma beside_obs mm k g g' x y c v : pstate k g g' x y -> aloc x -> full_obs mm g x c v = map lower (full_obs mm g' y c v).
Proof.
  intros PS [A1 A2]. pose proof (values_ps mm _ _ _ _ _ PS) as VU. destruct PS as [B _ _ S2 S3 S4]. unfold full_obs, data_events, mk_attrs.
  rewrite VU, S2, S3, S4, (values_atab mm (g_page g) (g_page g') _ A1), (values_atab mm (g_page g) (g_page g') _ A2).
  destruct g as [pg lm lx pm px ue un sz ri ct], g' as [pg' lm' lx' pm' px' ue' un' sz' ri' ct'].
  unfold but_page in B. cbn [g_set] in B. injection B as -> -> -> -> -> -> -> -> ->.
  cbn [g_page g_lmin g_lmax g_pmin g_pmax g_uexp g_unit g_size g_rid g_count].
  set (us := values mm pg' (lo_us y)). set (ds := values mm pg' (lo_ds x)). set (ss := values mm pg' (lo_ss x)).
  destruct c; try reflexivity.
  all: destruct (is_constant v); [rewrite map_repeat; reflexivity|]; destruct (is_variable v).
  all: try (rewrite map_map; apply map_ext; intros n; cbn [lower]; rewrite nth_last_map; reflexivity).
  all: rewrite map_repeat; cbn [lower]; rewrite firstn_map; reflexivity.
Qed.

Definition besides (a b : mstate) : Prop :=
  let '(g, x, c, v) := a in
  let '(g', y, c', v') := b in
  (exists k, pstate k g g' x y) /\ aloc x /\ c = c' /\ v = v'.

Lemma beside_states k l m : beside k l m -> forall g g' st st' x y, pstate k g g' x y -> aloc x ->
  Forall2 besides (states (H g st x) l) (states (H g' st' y) m).
Proof.
  assert (CONS : forall s w l, states s (w :: l) = snd (h_step (fun g x c v => [(g, x, c, v)]) s w) ++ states (fst (h_step (fun g x c v => [(g, x, c, v)]) s w)) l).
  { intros s w r. unfold states. cbn [h_run]. destruct (h_step _ s w) as [s1 o1]. cbn [fst snd]. destruct (h_run _ s1 r). reflexivity. }
  induction 1 as [k|k v e e' l m B IH|c v l m U B IH|k c v e e' l m U N1 N2 N3 B IH]; intros g g' st st' x y PS AL; [constructor| | |].
  - rewrite !CONS. cbn [h_step w_cls w_val hid_kind h_g h_stack h_l fst snd app]. apply IH; auto. destruct PS as [P1 P2 P3 P4 P5 P6].
    constructor; auto.
    + unfold but_page in *. destruct g, g'. cbn [g_set] in *. injection P1. intros. subst. reflexivity.
    + destruct g, g'. reflexivity.
  - rewrite !CONS. unfold h_step. cbn [w_cls w_val w_ext]. assert (K : hid_kind c = KLocal) by (destruct c; try discriminate U; reflexivity).
    rewrite K. cbn [h_g h_stack h_l fst snd app]. apply IH; [|apply aloc_set; exact AL]. destruct PS as [P1 P2 P3 P4 P5 P6]. rewrite P2.
    destruct x as [us ds ss dl], y as [us' ds' ss' dl']. cbn [lo_us lo_ds lo_ss lo_dl] in *. subst.
    destruct c; try discriminate U; cbn [lo_set]; constructor; cbn [lo_us lo_ds lo_ss lo_dl]; auto using ptab_one, ptab_min, ptab_max.
  - destruct (hid_kind c) eqn:K.
    + rewrite !CONS. unfold h_step. cbn [w_cls w_val w_ext h_g h_stack h_l]. rewrite K. cbn [fst snd app]. constructor.
      * split; [exists k; exact PS|auto].
      * apply IH; [|apply aloc_init]. destruct PS as [P1 P2 P3 P4 P5 P6]. constructor; auto; [destruct k; auto|apply ptab_empty].
    + assert (GL : forall h s z b, h_step (fun g x c v => [(g, x, c, v)]) (H h s z) (W c v b) = (H (g_set c v h) s z, @nil mstate)).
      { intros h s z b. unfold h_step. cbn [w_cls w_val w_ext h_g h_stack h_l]. rewrite K. destruct c; try discriminate K; try contradiction; reflexivity. }
      rewrite !CONS, !GL. cbn [fst snd app]. apply IH; [|exact AL]. destruct PS as [P1 P2 P3 P4 P5 P6]. constructor; auto.
      * apply but_page_set. exact P1.
      * destruct k; auto. destruct g, g', c; try discriminate K; try contradiction; exact P2.
    + rewrite !CONS. unfold h_step. cbn [w_cls w_val w_ext h_g h_stack h_l]. rewrite K. cbn [fst snd app]. apply IH; [|apply aloc_set; exact AL].
      destruct PS as [P1 P2 P3 P4 P5 P6].
      assert (LN : length (l_decls (lo_us y)) = length (l_decls (lo_us x))) by (rewrite (pt_decls _ _ P3), map_length; reflexivity).
      destruct x as [us ds ss dl], y as [us' ds' ss' dl']. cbn [lo_us lo_ds lo_ss lo_dl] in *. subst.
      destruct c; try discriminate K; try discriminate U; cbn [lo_set]; constructor; cbn [lo_us lo_ds lo_ss lo_dl]; auto; rewrite LN; reflexivity.
Qed.

Lemma beside_all l m : beside false l m -> Forall2 besides (main_states l) (main_states m).
Proof.
  intros B. unfold main_states, h_init. apply (beside_states false l m B); [|apply aloc_init]. constructor; try reflexivity. apply ptab_empty.
Qed.

Lemma beside_view mm l m : beside false l m -> host_view mm l = map lower (host_view mm m).
Proof.
  intros B. pose proof (beside_all l m B) as F. unfold host_view. rewrite !run_states. unfold main_states in F. fold (states h_init l) (states h_init m) in F.
  induction F as [|[[[g x] c] v] [[[g' y] c'] v'] a b [[k PS] [AL [-> ->]]] F IH]; [reflexivity|].
  cbn [flat_map]. rewrite map_app, IH. f_equal. apply (beside_obs mm k); auto.
Qed.

Lemma up_beside db l m : moveds l m -> Forall constructed l -> Forall constructed m -> Forall (fun i => page_tag (ic i) = false) l ->
  forall page, beside (match page with Some _ => true | None => false end) (map wire (snd (feed (usage_page_pass db) page l)))
    (map wire (snd (feed (usage_page_pass db) (option_map (Z.add 1) page) m))).
Proof.
  induction 1 as [|i j l m M F IH]; intros C D P page; [constructor|].
  inversion C as [|? ? C1 C2]; subst. inversion D as [|? ? D1 D2]; subst. inversion P as [|? ? P1 P2]; subst.
  specialize (IH C2 D2 P2). rewrite !up_step. pose proof (mv_class _ _ M) as MC.
  destruct (is_usage (ic i)) eqn:U.
  - assert (UJ : is_usage (ic j) = true) by congruence.
    destruct (up_usage db page i C1 U) as [pg [u [U1 [U2 [U3 [U4 [U5 [U6 AP]]]]]]]]. rewrite AP. cbn [fst snd].
    destruct (up_usage db (option_map (Z.add 1) page) j D1 UJ) as [pg' [u' [V1 [V2 [V3 [V4 [V5 [V6 AQ]]]]]]]]. rewrite AQ. cbn [fst snd].
    destruct (moved_abs i j C1 D1 M U) as [_ V].
    assert (NN : 0 <= ival i).
    { destruct (constructed_facts i C1) as [[Q|Q] _]; auto. destruct (ic i); discriminate. }
    assert (DV : ival j / 65536 = 1 + ival i / 65536) by lia. assert (MD : ival j mod 65536 = ival i mod 65536) by lia.
    assert (NP : new_page (option_map (Z.add 1) page) (ival j / 65536) = new_page page (ival i / 65536)).
    { rewrite DV. unfold new_page. destruct page; cbn [option_map]; [|reflexivity]. lia. }
    rewrite NP. specialize (IH (Some (ival i / 65536))). cbn [option_map] in IH. rewrite <- DV in IH.
    set (o := snd (feed (usage_page_pass db) (Some (ival i / 65536)) l)) in *. set (o' := snd (feed (usage_page_pass db) (Some (ival j / 65536)) m)) in *.
    clearbody o o'.
    assert (B : beside true (wire u :: map wire o) (wire u' :: map wire o')).
    { pose proof (ext_usage u U6 ltac:(rewrite U3; exact U)) as XU. pose proof (ext_usage u' V6 ltac:(rewrite V3; exact UJ)) as XV.
      rewrite U4 in XU. rewrite V4 in XV. replace (65536 <=? ival i mod 65536) with false in XU by lia. replace (65536 <=? ival j mod 65536) with false in XV by lia.
      unfold wire in XU, XV |- *. cbn [w_ext] in XU, XV. rewrite XU, XV, U3, V3, MC, U4, V4, MD. apply be_usage; [exact U|exact IH]. }
    destruct (new_page page (ival i / 65536)) eqn:N; cbn [app map].
    + assert (W1 : wire pg = W UsagePage (ival i / 65536) (w_ext (wire pg))) by (unfold wire; rewrite U1, U2; reflexivity).
      assert (W2 : wire pg' = W UsagePage (ival i / 65536 + 1) (w_ext (wire pg'))) by (unfold wire; rewrite V1, V2, DV, Z.add_comm; reflexivity).
      rewrite W1, W2. apply be_page. exact B.
    + destruct page as [q|]; [|discriminate N]. exact B.
  - assert (UJ : is_usage (ic j) = false) by congruence.
    assert (N1 : ic i <> UsagePage /\ ic i <> Push /\ ic i <> Pop) by (repeat split; intros Q; rewrite Q in P1; discriminate P1).
    assert (AP : up_append db page i = (page, [i])).
    { unfold up_append. rewrite U. destruct (ic i); try reflexivity. destruct N1 as [N1 _]. contradiction. }
    assert (AQ : up_append db (option_map (Z.add 1) page) j = (option_map (Z.add 1) page, [j])).
    { unfold up_append. rewrite UJ, MC. destruct (ic i); try reflexivity. destruct N1 as [N1 _]. contradiction. }
    rewrite AP, AQ. cbn [fst snd app map].
    assert (W1 : wire i = W (ic i) (ival i) (w_ext (wire i))) by reflexivity.
    assert (W2 : wire j = W (ic i) (ival i) (w_ext (wire j))) by (unfold wire; rewrite MC, (mv_other _ _ M U); reflexivity).
    rewrite W1, W2.
    destruct N1 as [N1 [N2 N3]]. apply be_same; auto.
Qed.

(* ------------------------------------------------------------------ *)
(** C40 and C42 on items *)

Lemma unpaged_bare l : bare_usages (map cv l) -> unpaged (map wire l) = map wire l.
Proof.
  intros B. unfold bare_usages in B. rewrite Forall_map in B. induction B as [|i l [_ [_ N]] B IH]; [reflexivity|].
  unfold unpaged in *. cbn [map filter]. rewrite IH. unfold wire at 1. cbn [w_cls]. cbn [cv fst] in N.
  destruct (icls_eqb (ic i) UsagePage) eqn:E; [apply icls_eqb_eq in E; contradiction|reflexivity].
Qed.

Lemma c40_any db l : Forall constructed l -> push_free l -> ends l -> orderly (map cv l) -> bare_usages (map cv l) ->
  joins (uniform AtDecl) (main_states (map wire l)) -> seen AtDecl (optimize db l) = seen AtDecl l.
Proof.
  intros C P E O B J. pose proof (pages_always db l (map wire l)) as X. rewrite (unpaged_bare l B) in X. apply X; auto. apply wire_cv.
Qed.

Lemma moved_rel (R R' : mstate -> mstate -> Prop) a b :
  (forall e1 e2 e1' e2', ustate e1 e1' -> ustate e2 e2' -> R e1 e2 -> R' e1' e2') -> Forall2 ustate a b -> joins R a -> joins R' b.
Proof.
  intros RR F J l1 e1 e2 l2 E MJ. subst b.
  apply Forall2_app_inv_r in F. destruct F as [k1 [k2 [_ [F ->]]]].
  inversion F as [|d1 ? k3 ? U1 F2]; subst. inversion F2 as [|d2 ? k4 ? U2 F3]; subst.
  apply (RR d1 d2 e1 e2 U1 U2). apply (J k1 d1 d2 k4 eq_refl).
  destruct d1 as [[[g1 x1] c1] v1], d2 as [[[g2 x2] c2] v2], e1 as [[[g1' y1] c1'] v1'], e2 as [[[g2' y2] c2'] v2'].
  destruct U1 as [B1 [_ [-> ->]]], U2 as [B2 [_ [-> ->]]].
  assert (CT : g_count g1 = g_count g1').
  { unfold but_page in B1. destruct g1, g1'. cbn [g_set] in B1. injection B1. intros. subst. auto. }
  assert (BC : forall g g', but_page g g' -> g_set UsagePage 0 (g_set ReportCount 0 g) = g_set UsagePage 0 (g_set ReportCount 0 g')).
  { intros g g' Q. unfold but_page in Q. destruct g, g'. cbn [g_set] in *. injection Q. intros. subst. reflexivity. }
  unfold may_join in *. rewrite (BC _ _ B1), (BC _ _ B2), CT. exact MJ.
Qed.

Lemma moved_same_page a b : Forall2 ustate a b -> joins same_page a -> joins same_page b.
Proof.
  apply moved_rel. intros e1 e2 e1' e2' U1 U2 J.
  destruct e1 as [[[g1 x1] c1] v1], e2 as [[[g2 x2] c2] v2], e1' as [[[g1' y1] c1'] v1'], e2' as [[[g2' y2] c2'] v2'].
  destruct U1 as [B1 [[S1 _] [-> ->]]], U2 as [B2 [[T1 _] [-> ->]]].
  unfold same_page in *. destruct J as [[p Q] J2].
  rewrite (values_utab (g_page g1) (g_page g1') _ _ S1), (values_utab (g_page g2) (g_page g2') _ _ T1) in Q, J2.
  split.
  - exists (p + 1). rewrite <- map_app, Forall_map in Q. eapply Forall_impl; [|exact Q]. unfold unsh. cbn. intros u. lia.
  - destruct (values AtDecl (g_page g1') (lo_us y1)), (values AtDecl (g_page g2') (lo_us y2)); cbn [map] in J2; split; auto; try discriminate.
    + intros _. pose proof (proj1 J2 eq_refl) as X. discriminate X.
    + intros _. pose proof (proj2 J2 eq_refl) as X. discriminate X.
Qed.

Lemma moved_one_page l m : moveds l m -> Forall one_page (chunks (map cv l)) -> Forall one_page (chunks (map cv m)).
Proof.
  intros M O. pose proof (moved_chunks l m M) as F. induction F as [|c c' r r' G1 G2 IH]; [constructor|]. inversion O as [|? ? [p O1] O2]; subst.
  constructor; auto. exists (p + 1). clear - O1 G1. induction G1 as [|x y c c' [E1 E2] G IH]; [constructor|]. inversion O1 as [|? ? H1 H2]; subst.
  constructor; auto. intros U. rewrite E1 in U. specialize (H1 U). rewrite E2. unfold dv. rewrite usage_tag_is in U. rewrite U. lia.
Qed.

(** a stream of single usages beside one in which all usages have a page *)
Record lifted (db : udb) (l m : list item) : Prop := {
  lf_built : Forall constructed m;
  lf_free : push_free m;
  lf_ends : ends m;
  lf_regular : regular (map cv m);
  lf_bare : bare_usages (map cv m);
  lf_states : Forall2 ustate (main_states (map wire l)) (main_states (map wire m));
  lf_seen : seen AtDecl l = map lower (seen AtDecl m);
  lf_pages : Forall one_page (chunks (map cv l)) -> Forall one_page (chunks (map cv m));
  lf_out : beside false (map wire (optimize db l)) (map wire (optimize db m))
}.

Lemma lift_tree db l : Forall constructed l -> push_free l -> ends l -> orderly (map cv l) -> bare_usages (map cv l) -> exists m, lifted db l m.
Proof.
  intros C P EN O B. destruct (lift l C) as [m [M D]]. exists m.
  destruct (moved_conditions l m M C D P EN O) as [PM [EM RG]].
  pose proof (unpaged_below (map wire l) l m 0 (wire_cv l) M C D P) as BL. rewrite (unpaged_bare l B) in BL.
  assert (BM : bare_usages (map cv m)).
  { apply (moved_cv l m M (fun x => fst x <> UsageMinimum /\ fst x <> UsageMaximum /\ fst x <> UsagePage)); auto. }
  split; auto.
  - exact (below_states _ _ _ _ BL g_init g_init [] [] lo_init lo_init eq_refl eq_refl eq_refl uloc_init).
  - apply below_view. exact BL.
  - apply moved_one_page. exact M.
  - destruct RG as [_ [ODM _]]. destruct O as [OD _].
    rewrite (optimize_pages db l ltac:(eapply Forall_impl; [|exact OD]; cbn; tauto) EN), (optimize_pages db m ltac:(eapply Forall_impl; [|exact ODM]; cbn; tauto) EM).
    rewrite !up_run_split. pose proof (before_moveds db l m C M) as MB.
    assert (GB : forall k, Forall constructed k -> push_free k -> bare_usages (map cv k) ->
       Forall (fun i => constructed i /\ page_tag (ic i) = false) (before_pages db k)).
    { intros k CK PK BK. apply before_pages_each.
      - intros n H. split; [apply rc_built; auto|reflexivity].
      - intros i [H _]. apply rc_nonneg; auto.
      - intros c v K. pose proof (rebuild_built db c v) as A1. pose proof (rebuild_class db c v) as A2.
        rewrite Forall_forall in *. intros i I. split; auto. rewrite (A2 i I). destruct c; try discriminate K; reflexivity.
      - unfold bare_usages, push_free in *. rewrite Forall_map in BK. rewrite Forall_forall in *. intros i I. split; auto.
        specialize (BK i I). specialize (PK i I). cbn [cv fst] in BK. destruct (ic i); try reflexivity; tauto. }
    apply (up_beside db _ _ MB) with (page := None).
    + eapply Forall_impl; [|apply (GB l C P B)]. intros i [Q _]. exact Q.
    + eapply Forall_impl; [|apply (GB m D PM BM)]. intros i [Q _]. exact Q.
    + eapply Forall_impl; [|apply (GB l C P B)]. intros i [_ Q]. exact Q.
Qed.

Lemma c42_any db l : Forall constructed l -> push_free l -> ends l -> orderly (map cv l) -> bare_usages (map cv l) ->
  joins (fun e1 e2 => uniform AtDecl e1 e2 /\ same_page e1 e2) (main_states (map wire l)) ->
  Forall one_page (chunks (map cv l)) ->
  forall m, seen m (optimize db l) = seen AtDecl l.
Proof.
  intros C P EN O B J F mm. destruct (lift_tree db l C P EN O B) as [m [D PM EM RG BM ST SE PG OU]].
  assert (J1 : joins (uniform AtDecl) (main_states (map wire l))) by (intros t1 e1 e2 t2 EQ MJ; apply (J t1 e1 e2 t2 EQ MJ)).
  assert (J2 : joins same_page (main_states (map wire l))) by (intros t1 e1 e2 t2 EQ MJ; apply (J t1 e1 e2 t2 EQ MJ)).
  pose proof (moved_joins _ _ ST J1) as K1. pose proof (moved_same_page _ _ ST J2) as K2.
  assert (JM : joins (fun e1 e2 => uniform AtDecl e1 e2 /\ same_page e1 e2) (main_states (map wire m))).
  { intros t1 e1 e2 t2 EQ MJ. split; [apply (K1 t1 e1 e2 t2 EQ MJ)|apply (K2 t1 e1 e2 t2 EQ MJ)]. }
  rewrite SE, <- (c42_items db m D PM EM RG BM JM (PG F) mm). apply beside_view. exact OU.
Qed.

(* ------------------------------------------------------------------ *)
(** C40 and C42 *)

Lemma tree_orderly db t l : well_formed t -> closed_tree t -> stream_items db t = Ok l -> scaling_ok (fst (threaded 0 t)) ->
  Forall constructed l /\ push_free l /\ ends l /\ orderly (map cv l) /\ bare_usages (map cv l) /\
  pieces 0 (fst (threaded 0 t)) (map cv l) (snd (threaded 0 t)).
Proof.
  intros WF CL H SC. unfold stream_items in H.
  destruct (stream_tree db sst_init t) as [[st' o]|] eqn:E; [|discriminate]. cbn [bind] in H. injection H as <-.
  pose proof (stream_pieces db t _ _ _ 0 WF E) as P. pose proof (pieces_items _ _ _ _ P) as F.
  split; [eapply stream_constructed; eauto|].
  split. { unfold push_free. rewrite Forall_map in F. eapply Forall_impl; [|exact F]. intros i [A _]. cbn [cv fst] in A. split; intros Q; rewrite Q in A; discriminate A. }
  split; [eapply closed_ends; eauto|]. split; [split|split; [|exact P]].
  - eapply Forall_impl; [|exact F]. intros [c z] [A [_ B]]. cbn [fst snd] in *. split; [intros ->; discriminate A|exact B].
  - destruct SC as [S|S]; [left; eapply pieces_unscaled; eauto|right; eapply pieces_scaled; eauto].
  - eapply Forall_impl; [|exact F]. intros [c z] [A _]. cbn [fst snd] in *. split; [|split]; intros ->; discriminate A.
Qed.

Lemma c40_tree db t b : well_formed t -> closed_tree t -> scaling_ok (fst (threaded 0 t)) -> uniform_leaves (fst (threaded 0 t)) ->
  compile db true t = Ok b ->
  exists ev, reads_bound AtDecl b ev /\ follows any_gap [] (fst (threaded 0 t)) ev.
Proof.
  intros WF CL SC UN H. unfold compile in H.
  destruct (stream_items db t) as [l|] eqn:E; [|discriminate]. cbn [bind] in H.
  destruct (tree_orderly db t l WF CL E SC) as [C [PF [EN [RG [BU P]]]]].
  destruct (stream_seen db t l WF E) as [ev [SE F]]. exists ev. split; [|exact F].
  rewrite <- (SE AtDecl). rewrite <- (c40_any db l C PF EN RG BU (proj1 (tree_joins _ _ _ P UN))).
  apply serialized_reads. exact H.
Qed.

Lemma c42_tree db t b : well_formed t -> closed_tree t -> scaling_ok (fst (threaded 0 t)) -> uniform_leaves (fst (threaded 0 t)) ->
  same_pages (fst (threaded 0 t)) -> compile db true t = Ok b ->
  exists ev, reads_as b ev /\ follows any_gap [] (fst (threaded 0 t)) ev.
Proof.
  intros WF CL SC UN [SP1 SP2] H. unfold compile in H.
  destruct (stream_items db t) as [l|] eqn:E; [|discriminate]. cbn [bind] in H.
  destruct (tree_orderly db t l WF CL E SC) as [C [PF [EN [RG [BU P]]]]].
  destruct (stream_seen db t l WF E) as [ev [SE F]]. exists ev. split; [|exact F].
  intros m. rewrite <- (SE AtDecl).
  rewrite <- (c42_any db l C PF EN RG BU (proj2 (tree_joins _ _ _ P UN) SP2) (pieces_pages _ _ _ _ SP1 P) m).
  apply serialized_reads. exact H.
Qed.

(** the optimised output means the same as the unoptimised one *)
Lemma c40_same_tree db t b b0 ev : well_formed t -> closed_tree t -> scaling_ok (fst (threaded 0 t)) -> uniform_leaves (fst (threaded 0 t)) ->
  compile db true t = Ok b -> compile db false t = Ok b0 -> reads_as b0 ev -> reads_bound AtDecl b ev.
Proof.
  intros WF CL SC UN H H0 R. unfold compile in H, H0.
  destruct (stream_items db t) as [l|] eqn:E; [|discriminate]. cbn [bind] in H, H0.
  destruct (tree_orderly db t l WF CL E SC) as [C [PF [EN [RG [BU P]]]]].
  assert (Q : ev = seen AtDecl l).
  { symmetry. apply (R AtDecl). exists (map wire l). split; [apply serialize_means; exact H0|reflexivity]. }
  rewrite Q, <- (c40_any db l C PF EN RG BU (proj1 (tree_joins _ _ _ P UN))). apply serialized_reads. exact H.
Qed.
