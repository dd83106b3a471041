(* HeedProofs.v -- the Extractor heeds single labels, or else the last bounds
   (C83), and what follows for all streams (C45, C47, C54). *)
From Verif Require Import Py Usage Item Parser Optimizer Descriptor Extractor HidSpec Spec StreamSpec OptSpec ExtractSpec StackSpec
  ItemFacts ParserFacts OptFacts PassFacts StreamTree ExtractFacts ExtractView ExtractPrefix HeedSpec.
Import ListNotations.
Local Open Scope list_scope.
Local Open Scope Z_scope.

(** another value of self.locals *)
Definition rel (s : xst) (f : icls -> option pval) : xst :=
  XST (x_globals s) (x_usages s) (x_strings s) (x_designators s) f (x_stack s) (x_current s) (x_innamed s) (x_root s).

Lemma add_values_rel l f : forall s, add_values (rel s f) l = rmap (fun s' => rel s' f) (add_values s l).
Proof.
  induction l as [|[v|e] l IH]; intros s; [reflexivity| |reflexivity]. cbn [add_values bind].
  change (add_value (rel s f) v) with (rel (add_value s v) f). apply IH.
Qed.

Lemma leave_rel s f k : x_leave (rel s f) k = rmap (fun s' => rel s' f) (x_leave s k).
Proof. unfold x_leave. cbn [rel x_stack]. destruct (x_stack s); reflexivity. Qed.

Lemma handle_rel db s f i : handle_data db (rel s f) i = rmap (fun s' => rel s' f) (handle_data db s i).
Proof.
  unfold handle_data.
  change (gval (rel s f)) with (gval s). change (x_usages (rel s f)) with (x_usages s). change (x_current (rel s f)) with (x_current s).
  change (in_named_collection db (rel s f) i) with (in_named_collection db s i). change (named_of_usages db (rel s f)) with (named_of_usages db s).
  change (plain_value db (rel s f) i) with (plain_value db s i). change (named_value db (rel s f) i) with (named_value db s i).
  destruct (negb (Z.land (ival i) fl_Constant =? 0)).
  - destruct (mk_padding _ _) as [v|e]; reflexivity.
  - set (m := Z.of_nat _ =? _). destruct (if _ && m then _ else _) as [inn|e]; [|reflexivity]. cbn [bind]. destruct inn.
    + rewrite leave_rel. destruct (x_leave s false) as [s1|e] eqn:EL; [|reflexivity]. cbn [bind rmap].
      destruct (lv_members (x_current s)) as [|? ?]; [|reflexivity]. destruct (lv_head (x_current s)) as [[k u]|]; [|reflexivity].
      destruct (named_value db s i u (named_of_usages db s)) as [v|e]; reflexivity.
    + destruct ((ival i =? 0) && m); [apply add_values_rel|].
      destruct (negb (Z.land (ival i) fl_BufferedBytes =? 0)); [|apply add_values_rel].
      destruct (plain_value db s i 0 (gval s ReportCount)) as [v|e]; reflexivity.
Qed.

Lemma main_rel db s f i : kind_of (ic i) = Main ->
  (forall t, expand (rel s f) UsageMinimum UsageMaximum t = expand s UsageMinimum UsageMaximum t \/ t <> x_usages s) ->
  (forall t, expand (rel s f) StringMinimum StringMaximum t = expand s StringMinimum StringMaximum t \/ t <> x_strings s) ->
  (forall t, expand (rel s f) DesignatorMinimum DesignatorMaximum t = expand s DesignatorMinimum DesignatorMaximum t \/ t <> x_designators s) ->
  x_append db (rel s f) i = x_append db s i.
Proof.
  intros K U S D. unfold x_append, ikd. rewrite K.
  assert (E : expand_ranges (rel s f) = rel (expand_ranges s) f).
  { unfold expand_ranges. cbn [x_usages x_strings x_designators rel x_globals x_locals x_stack x_current x_innamed x_root].
    destruct (U (x_usages s)) as [->|X]; [|congruence]. destruct (S (x_strings s)) as [->|X]; [|congruence].
    destruct (D (x_designators s)) as [->|X]; [|congruence]. reflexivity. }
  rewrite E. set (s0 := expand_ranges s).
  assert (HD : forall r : result xst, (let* s1 := rmap (fun s' => rel s' f) r in Ok (locals_clear s1)) = (let* s1 := r in Ok (locals_clear s1)))
    by (intros [?|?]; reflexivity).
  destruct (ic i); try (rewrite handle_rel; apply HD).
  - reflexivity.
  - change (x_innamed (rel s0 f)) with (x_innamed s0). destruct (x_innamed s0).
    + cbn [bind]. unfold set_levels. cbn [rel x_stack]. destruct (x_stack s0); reflexivity.
    + rewrite leave_rel. destruct (x_leave s0 true) as [s1|e]; [|reflexivity].
      cbn [bind rmap rel x_stack]. destruct (x_stack s1); reflexivity.
Qed.

(* ------------------------------------------------------------------ *)
(** the state after a run of global and local items *)

Definition gl (R : list item) (g : icls -> pval) : icls -> pval :=
  fold_left (fun g i => match kind_of (ic i) with Global => upd g (ic i) (iv i) | _ => g end) R g.
Definition vals (c : icls) (R : list item) : list pval := map iv (filter (of_class ic c) R).
Definition bound_class (c : icls) : bool :=
  match kind_of c with Local => match c with Usage | StringIndex | DesignatorIndex => false | _ => true end | _ => false end.
Definition lo (R : list item) (f : icls -> option pval) : icls -> option pval :=
  fold_left (fun f i => if bound_class (ic i) then upd f (ic i) (Some (iv i)) else f) R f.

Definition after (R : list item) (s : xst) : xst :=
  XST (gl R (x_globals s)) (x_usages s ++ vals Usage R) (x_strings s ++ vals StringIndex R) (x_designators s ++ vals DesignatorIndex R)
      (lo R (x_locals s)) (x_stack s) (x_current s) (x_innamed s) (x_root s).

Lemma run_after db R : Forall (fun i => kind_of (ic i) <> Main) R -> forall s, x_run db s R = Ok (after R s).
Proof.
  induction 1 as [|i R K _ IH]; intros s.
  - cbn [x_run]. unfold after, vals. cbn. rewrite !app_nil_r. destruct s; reflexivity.
  - cbn [x_run]. unfold x_append, ikd. destruct (kind_of (ic i)) eqn:KI; [congruence| |].
    + cbn [bind]. rewrite IH. unfold after. cbn [x_globals x_usages x_strings x_designators x_locals x_stack x_current x_innamed x_root].
      unfold gl, lo, vals, of_class, bound_class. cbn [fold_left filter]. rewrite KI.
      destruct (ic i); try discriminate KI; reflexivity.
    + cbn [bind]. rewrite IH. unfold after. unfold gl, lo, vals, of_class, bound_class. cbn [fold_left filter]. rewrite KI.
      destruct (ic i); try discriminate KI; cbn [x_globals x_usages x_strings x_designators x_locals x_stack x_current x_innamed x_root icls_eqb map];
        rewrite <- ?app_assoc; reflexivity.
Qed.

(** what is left when items of a bound class go *)
Definition dropped (c : icls) : Prop := bound_class c = true.

Lemma gl_filter c1 c2 R : dropped c1 -> dropped c2 -> forall g, gl (filter (fun a => negb (of_class ic c1 a || of_class ic c2 a)) R) g = gl R g.
Proof.
  intros D1 D2. unfold gl. induction R as [|i R IH]; intros g; [reflexivity|]. cbn [filter].
  destruct (of_class ic c1 i || of_class ic c2 i) eqn:E; cbn [negb fold_left]; rewrite IH; [|reflexivity].
  assert (K : kind_of (ic i) = Local).
  { unfold of_class in E. apply orb_true_iff in E. destruct E as [E|E]; apply icls_eqb_eq in E; rewrite E;
      unfold dropped, bound_class in *; [destruct (kind_of c1)|destruct (kind_of c2)]; congruence. }
  rewrite K. reflexivity.
Qed.

Lemma vals_filter c1 c2 c R : c <> c1 -> c <> c2 -> vals c (filter (fun a => negb (of_class ic c1 a || of_class ic c2 a)) R) = vals c R.
Proof.
  intros N1 N2. unfold vals. f_equal. induction R as [|i R IH]; [reflexivity|]. cbn [filter].
  destruct (of_class ic c1 i || of_class ic c2 i) eqn:E; cbn [negb filter]; rewrite IH; [|reflexivity].
  assert (O : of_class ic c i = false).
  { unfold of_class in *. apply icls_eqb_neq. apply orb_true_iff in E. destruct E as [E|E]; apply icls_eqb_eq in E; congruence. }
  rewrite O. reflexivity.
Qed.

Lemma lo_ext c R : forall f f', f c = f' c -> lo R f c = lo R f' c.
Proof.
  unfold lo. induction R as [|i R IH]; intros f f' E; [exact E|]. cbn [fold_left]. apply IH.
  destruct (bound_class (ic i)); [|exact E]. unfold upd. destruct (icls_eqb c (ic i)); [reflexivity|exact E].
Qed.

Lemma lo_over c R : bound_class c = true -> existsb (of_class ic c) R = true -> forall f f', lo R f c = lo R f' c.
Proof.
  intros B. unfold lo. induction R as [|i R IH]; intros E f f'; [discriminate E|]. cbn [existsb] in E. cbn [fold_left].
  destruct (existsb (of_class ic c) R) eqn:ER; [apply IH; reflexivity|]. rewrite orb_false_r in E.
  apply lo_ext. unfold of_class in E. apply icls_eqb_eq in E. rewrite E, B. unfold upd.
  rewrite (proj2 (icls_eqb_eq c c) eq_refl). reflexivity.
Qed.

Lemma lo_filter c1 c2 c R : c <> c1 -> c <> c2 -> forall f, lo (filter (fun a => negb (of_class ic c1 a || of_class ic c2 a)) R) f c = lo R f c.
Proof.
  intros N1 N2. induction R as [|i R IH]; intros f; [reflexivity|]. cbn [filter].
  destruct (of_class ic c1 i || of_class ic c2 i) eqn:E; cbn [negb].
  - rewrite IH. change (lo (i :: R) f c) with (lo R (if bound_class (ic i) then upd f (ic i) (Some (iv i)) else f) c).
    apply lo_ext. destruct (bound_class (ic i)); [|reflexivity]. unfold upd.
    replace (icls_eqb c (ic i)) with false; [reflexivity|]. symmetry. apply icls_eqb_neq.
    unfold of_class in E. apply orb_true_iff in E. destruct E as [E|E]; apply icls_eqb_eq in E; congruence.
  - unfold lo. cbn [fold_left]. apply IH.
Qed.

Lemma gl_last c R : dropped c -> forall g, gl (last_only ic c R) g = gl R g.
Proof.
  intros D. unfold gl. induction R as [|i R IH]; intros g; [reflexivity|]. cbn [last_only].
  destruct (of_class ic c i && existsb (of_class ic c) R) eqn:E; cbn [fold_left]; rewrite IH; [|reflexivity].
  apply andb_true_iff in E. destruct E as [E _]. unfold of_class in E. apply icls_eqb_eq in E.
  assert (K : kind_of (ic i) = Local) by (rewrite E; unfold dropped, bound_class in D; destruct (kind_of c); congruence).
  rewrite K. reflexivity.
Qed.

Lemma vals_last c c' R : c' <> c -> vals c' (last_only ic c R) = vals c' R.
Proof.
  intros N. unfold vals. f_equal. induction R as [|i R IH]; [reflexivity|]. cbn [last_only].
  destruct (of_class ic c i && existsb (of_class ic c) R) eqn:E; cbn [filter]; rewrite IH; [|reflexivity].
  apply andb_true_iff in E. destruct E as [E _]. unfold of_class in E. apply icls_eqb_eq in E.
  replace (of_class ic c' i) with false; [reflexivity|]. symmetry. unfold of_class. apply icls_eqb_neq. congruence.
Qed.

Lemma lo_last c R : dropped c -> forall f c', lo (last_only ic c R) f c' = lo R f c'.
Proof.
  intros D. induction R as [|i R IH]; intros f c'; [reflexivity|]. cbn [last_only].
  destruct (of_class ic c i && existsb (of_class ic c) R) eqn:E.
  - rewrite IH. change (lo (i :: R) f c') with (lo R (if bound_class (ic i) then upd f (ic i) (Some (iv i)) else f) c').
    apply andb_true_iff in E. destruct E as [E1 E2]. unfold of_class in E1. apply icls_eqb_eq in E1. rewrite E1.
    unfold dropped in D. rewrite D. destruct (icls_eqb c' c) eqn:Q.
    + apply icls_eqb_eq in Q. subst c'. apply lo_over; auto.
    + apply lo_ext. unfold upd. rewrite Q. reflexivity.
  - unfold lo. cbn [fold_left]. apply IH.
Qed.

(** the three kinds of labels *)
Definition labels (one mn mx : icls) : Prop :=
  (one = Usage /\ mn = UsageMinimum /\ mx = UsageMaximum) \/
  (one = StringIndex /\ mn = StringMinimum /\ mx = StringMaximum) \/
  (one = DesignatorIndex /\ mn = DesignatorMinimum /\ mx = DesignatorMaximum).

Lemma sift_after one mn mx R s i db : labels one mn mx ->
  kind_of (ic i) = Main -> x_usages s = [] -> x_strings s = [] -> x_designators s = [] ->
  x_append db (after (sift ic one mn mx R) s) i = x_append db (after R s) i.
Proof.
  intros LB K US SS DS.
  assert (DM : dropped mn /\ dropped mx) by (destruct LB as [(->&->&->)|[(->&->&->)|(->&->&->)]]; split; reflexivity).
  destruct DM as [D1 D2].
  assert (E : after (sift ic one mn mx R) s = rel (after R s) (lo (sift ic one mn mx R) (x_locals s))).
  { unfold after, rel. cbn [x_globals x_usages x_strings x_designators x_locals x_stack x_current x_innamed x_root].
    assert (G : gl (sift ic one mn mx R) (x_globals s) = gl R (x_globals s)).
    { unfold sift. destruct (existsb (of_class ic one) R); [apply gl_filter; auto|]. rewrite !gl_last; auto. }
    assert (V : forall c, bound_class c = false -> vals c (sift ic one mn mx R) = vals c R).
    { intros c B. assert (N1 : c <> mn) by (intros ->; unfold dropped in D1; congruence).
      assert (N2 : c <> mx) by (intros ->; unfold dropped in D2; congruence).
      unfold sift. destruct (existsb (of_class ic one) R); [apply vals_filter; auto|]. rewrite !vals_last; auto. }
    rewrite G, !V by reflexivity. reflexivity. }
  rewrite E. clear E. set (f := lo (sift ic one mn mx R) (x_locals s)).
  assert (SAME : forall c, c <> mn -> c <> mx -> f c = lo R (x_locals s) c).
  { intros c N1 N2. unfold f, sift. destruct (existsb (of_class ic one) R); [apply lo_filter; auto|]. rewrite !lo_last; auto. }
  assert (NONE : existsb (of_class ic one) R = false -> forall c, f c = lo R (x_locals s) c).
  { intros X c. unfold f, sift. rewrite X, !lo_last; auto. }
  assert (SOME : existsb (of_class ic one) R = true -> vals one R <> []).
  { clear. unfold vals. induction R as [|j R IH]; [discriminate|]. cbn [existsb filter]. destruct (of_class ic one j); [discriminate|exact IH]. }
  assert (X : forall c1 c2 t, (existsb (of_class ic one) R = true -> (c1 <> mn /\ c1 <> mx /\ c2 <> mn /\ c2 <> mx) \/ t <> []) ->
     expand (rel (after R s) f) c1 c2 t = expand (after R s) c1 c2 t).
  { intros c1 c2 t H. unfold expand. change (x_locals (rel (after R s) f)) with f. change (x_locals (after R s)) with (lo R (x_locals s)).
    destruct (existsb (of_class ic one) R) eqn:EX.
    - destruct (H eq_refl) as [(A & B & C & D)|T]; [rewrite !SAME by assumption; reflexivity|].
      destruct t; [congruence|]. destruct (f c1), (f c2), (lo R (x_locals s) c1), (lo R (x_locals s) c2); reflexivity.
    - rewrite !NONE by reflexivity. reflexivity. }
  assert (NE : forall c, c = one -> existsb (of_class ic one) R = true -> vals c R <> []) by (intros c ->; exact SOME).
  apply main_rel; auto; intros t; cbn [x_usages x_strings x_designators after]; rewrite ?US, ?SS, ?DS; cbn [app];
    (destruct t as [|v t]; [|left; apply X; intros _; right; discriminate]).
  - destruct LB as [(EO&EM&EX)|[(EO&EM&EX)|(EO&EM&EX)]]; subst one mn mx.
    + destruct (existsb (of_class ic Usage) R) eqn:Q; [right; intros Y; symmetry in Y; revert Y; apply NE; auto|left; apply X; discriminate].
    + left. apply X. intros _. left. repeat split; discriminate.
    + left. apply X. intros _. left. repeat split; discriminate.
  - destruct LB as [(EO&EM&EX)|[(EO&EM&EX)|(EO&EM&EX)]]; subst one mn mx.
    + left. apply X. intros _. left. repeat split; discriminate.
    + destruct (existsb (of_class ic StringIndex) R) eqn:Q; [right; intros Y; symmetry in Y; revert Y; apply NE; auto|left; apply X; discriminate].
    + left. apply X. intros _. left. repeat split; discriminate.
  - destruct LB as [(EO&EM&EX)|[(EO&EM&EX)|(EO&EM&EX)]]; subst one mn mx.
    + left. apply X. intros _. left. repeat split; discriminate.
    + left. apply X. intros _. left. repeat split; discriminate.
    + destruct (existsb (of_class ic DesignatorIndex) R) eqn:Q; [right; intros Y; symmetry in Y; revert Y; apply NE; auto|left; apply X; discriminate].
Qed.

Lemma x_run_both db a b s : x_run db s (a ++ b) = let* s1 := x_run db s a in x_run db s1 b.
Proof.
  revert s. induction a as [|i a IH]; intros s; [reflexivity|]. cbn [app x_run].
  destruct (x_append db s i) as [s1|e]; cbn [bind]; [apply IH|reflexivity].
Qed.

Lemma sift_not_main one mn mx R : Forall (fun i => kind_of (ic i) <> Main) R -> Forall (fun i => kind_of (ic i) <> Main) (sift ic one mn mx R).
Proof.
  intros F. unfold sift. destruct (existsb (of_class ic one) R).
  - apply Forall_forall. intros i I. apply filter_In in I. destruct I as [I _]. rewrite Forall_forall in F. auto.
  - assert (L : forall c R, Forall (fun i => kind_of (ic i) <> Main) R -> Forall (fun i => kind_of (ic i) <> Main) (last_only ic c R)).
    { clear. intros c R. induction 1 as [|i R K _ IH]; cbn [last_only]; [constructor|].
      destruct (of_class ic c i && existsb (of_class ic c) R); [exact IH|constructor; auto]. }
    auto.
Qed.

Lemma heed_run one mn mx db l : labels one mn mx -> forall R s,
  Forall (fun i => kind_of (ic i) <> Main) R -> x_usages s = [] -> x_strings s = [] -> x_designators s = [] ->
  x_run db s (heed ic one mn mx R l) = x_run db s (R ++ l).
Proof.
  intros LB. induction l as [|i l IH]; intros R s F U S D; [cbn [heed]; rewrite app_nil_r; reflexivity|].
  cbn [heed]. destruct (kind_of (ic i)) eqn:K.
  - assert (HK : hid_kind (ic i) = KMain) by (destruct (ic i); try discriminate K; reflexivity). rewrite HK.
    rewrite !x_run_both, !run_after by (auto using sift_not_main). cbn [bind x_run].
    rewrite sift_after by auto. destruct (x_append db (after R s) i) as [s1|e] eqn:E; cbn [bind]; [|reflexivity].
    apply (IH []); [constructor|..]; revert E; unfold x_append, ikd; rewrite K;
      match goal with |- (let* s1 := ?m in _) = _ -> _ => destruct m end; try discriminate; cbn [bind]; intros E; injection E as <-; reflexivity.
  - assert (HK : hid_kind (ic i) = KGlobal) by (destruct (ic i); try discriminate K; reflexivity). rewrite HK.
    rewrite IH; auto; [rewrite <- app_assoc; reflexivity|]. apply Forall_app. split; [exact F|]. constructor; [congruence|constructor].
  - assert (HK : hid_kind (ic i) = KLocal) by (destruct (ic i); try discriminate K; reflexivity). rewrite HK.
    rewrite IH; auto; [rewrite <- app_assoc; reflexivity|]. apply Forall_app. split; [exact F|]. constructor; [congruence|constructor].
Qed.

Theorem extract_heeded db l : extract db l = extract db (heeded ic l).
Proof.
  unfold extract, heeded.
  assert (H : forall one mn mx q, labels one mn mx -> x_run db xst_init (heed ic one mn mx [] q) = x_run db xst_init q).
  { intros. rewrite heed_run; auto. }
  rewrite !H; [reflexivity|unfold labels; auto 6..].
Qed.

(* ------------------------------------------------------------------ *)
(** classes decide *)

Section Natural.
  Context {A B : Type} (ca : A -> icls) (cb : B -> icls) (Q : A -> B -> Prop).
  Hypothesis same_class : forall a b, Q a b -> ca a = cb b.

  Lemma of_class_nat c a b : Q a b -> of_class ca c a = of_class cb c b.
  Proof. intros H. unfold of_class. rewrite (same_class _ _ H). reflexivity. Qed.

  Lemma exists_nat c l l' : Forall2 Q l l' -> existsb (of_class ca c) l = existsb (of_class cb c) l'.
  Proof. induction 1 as [|a b l l' H _ IH]; [reflexivity|]. cbn [existsb]. rewrite IH, (of_class_nat c _ _ H). reflexivity. Qed.

  Lemma last_nat c l l' : Forall2 Q l l' -> Forall2 Q (last_only ca c l) (last_only cb c l').
  Proof.
    induction 1 as [|a b l l' H F IH]; [constructor|]. cbn [last_only]. rewrite (of_class_nat c _ _ H), (exists_nat c _ _ F).
    destruct (_ && _); [exact IH|constructor; auto].
  Qed.

  Lemma sift_nat one mn mx l l' : Forall2 Q l l' -> Forall2 Q (sift ca one mn mx l) (sift cb one mn mx l').
  Proof.
    intros F. unfold sift. rewrite (exists_nat one _ _ F). destruct (existsb _ _); [|auto using last_nat].
    induction F as [|a b l l' H F IH]; [constructor|]. cbn [filter]. rewrite (of_class_nat mn _ _ H), (of_class_nat mx _ _ H).
    destruct (negb _); [constructor; auto|exact IH].
  Qed.

  Lemma heed_nat one mn mx l l' : Forall2 Q l l' -> forall r r', Forall2 Q r r' -> Forall2 Q (heed ca one mn mx r l) (heed cb one mn mx r' l').
  Proof.
    induction 1 as [|a b l l' H F IH]; intros r r' R; cbn [heed]; [exact R|].
    rewrite (same_class _ _ H). destruct (hid_kind (cb b)).
    - apply Forall2_app; [apply sift_nat; exact R|]. constructor; auto.
    - apply IH. apply Forall2_app; auto.
    - apply IH. apply Forall2_app; auto.
  Qed.

  Lemma heeded_nat l l' : Forall2 Q l l' -> Forall2 Q (heeded ca l) (heeded cb l').
  Proof. intros F. unfold heeded. repeat apply heed_nat; auto. Qed.

  Lemma no_stack_nat (l : list A) (l' : list B) : Forall2 Q l l' ->
    Forall2 Q (filter (fun a => match ca a with Push | Pop => false | _ => true end) l) (filter (fun b => match cb b with Push | Pop => false | _ => true end) l').
  Proof.
    induction 1 as [|a b l l' H F IH]; [constructor|]. cbn [filter]. rewrite (same_class _ _ H).
    destruct (cb b); try exact IH; constructor; auto.
  Qed.
End Natural.

Lemma wire_heeded l : map wire (heeded ic l) = heeded w_cls (map wire l).
Proof.
  assert (F : Forall2 (fun i w => w = wire i) l (map wire l)) by (induction l; constructor; auto).
  pose proof (heeded_nat ic w_cls _ (fun i w (E : w = wire i) => eq_sym (f_equal w_cls E)) _ _ F) as N.
  induction N as [|i w a b E _ IH]; [reflexivity|]. cbn [map]. rewrite E, IH. reflexivity.
Qed.

Lemma heed_in {A} (cls : A -> icls) (P : A -> Prop) l : Forall P l -> Forall P (heeded cls l).
Proof.
  assert (LA : forall c R, Forall P R -> Forall P (last_only cls c R)).
  { intros c R. induction 1 as [|i R K _ IH]; cbn [last_only]; [constructor|]. destruct (_ && _); [exact IH|constructor; auto]. }
  assert (SI : forall one mn mx R, Forall P R -> Forall P (sift cls one mn mx R)).
  { intros one mn mx R F. unfold sift. destruct (existsb _ _); [|auto]. apply Forall_forall. intros i I. apply filter_In in I. rewrite Forall_forall in F. apply F, I. }
  assert (HE : forall one mn mx l, Forall P l -> forall R, Forall P R -> Forall P (heed cls one mn mx R l)).
  { intros one mn mx q. induction 1 as [|a q K F IH]; intros R FR; cbn [heed]; [exact FR|].
    destruct (hid_kind (cls a)); [apply Forall_app; split; [auto|constructor; auto]|apply IH; apply Forall_app; auto|apply IH; apply Forall_app; auto]. }
  intros F. unfold heeded. auto.
Qed.
