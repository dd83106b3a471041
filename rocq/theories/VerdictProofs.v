(* VerdictProofs.v -- the Extractor follows VerdictSpec *)
From Coq Require Import ZArith List Bool Lia ZifyBool ZifyNat String.
From Verif Require Import Py Usage Item Parser Optimizer Descriptor Extractor.
From Verif Require Import HidSpec Spec ItemFacts ParserFacts CodecProofs UsageProofs TextProofs StreamSpec PlainHost StreamProofs StreamTree OptFacts OptSpec AllSpec PassFacts.
From Verif Require Import TreeOpt ExtractSpec ExtractFacts ExtractView ExtractAgain ExtractBack AcceptSpec ExtractAccept AcceptBlob BackSpec BytesBack DumpSpec DumpFacts DumpProofs NameFacts NameTree DumpCompile VerdictSpec.
Import ListNotations.
Local Open Scope list_scope.
Local Open Scope Z_scope.

Definition some {A} (o : option A) : bool := match o with Some _ => true | None => false end.
Definition any {A} (l : list A) : bool := match l with [] => false | _ => true end.

Definition lroom (l : level) : list room :=
  match lv_head l with Some (k, u) => [(py_int k, option_map py_int u, any (lv_members l))] | None => [] end.
Definition lrooms (s : xst) : list room := flat_map lroom (x_current s :: x_stack s).

(** a usage with the types the registry has for it *)
Definition known (db : udb) (u : pval) : Prop := utype_test db NAry (Some u) = Ok (array_type db (py_int u)).
Definition known_head (db : udb) (l : level) : Prop := match lv_head l with Some (_, Some u) => known db u | _ => True end.
Definition known_long (db : udb) (u : pval) : Prop := 0 <= py_int u /\ (Z.shiftr (py_int u) 16 <> 0 -> known db u).

(** the usages the Extractor has kept *)
Record hears (s : xst) (run : list (icls * Z)) : Prop := {
  he_us : map py_int (x_usages s) = told Usage run;
  he_min : option_map py_int (x_locals s UsageMinimum) = final (told UsageMinimum run);
  he_max : option_map py_int (x_locals s UsageMaximum) = final (told UsageMaximum run);
  he_pos : Forall (fun x => usage_tag (fst x) = true -> 0 <= snd x) run
}.

Record digs (db : udb) (s : xst) (g : gtab) (run : list (icls * Z)) : Prop := {
  di_agree : agree s g; di_hears : hears s run; di_count : 0 <= g_count g; di_page : 0 <= g_page g;
  di_heads : heads (x_current s) (x_stack s);
  di_known : Forall (known_head db) (x_current s :: x_stack s);
  di_us : Forall (known_long db) (x_usages s);
  di_min : forall a, x_locals s UsageMinimum = Some a -> 0 <= py_int a
}.

Lemma nary_test ks : existsb (utype_eqb NAry) ks = existsb (fun k => match k with NAry => true | _ => false end) ks.
Proof. induction ks as [|k ks IH]; [reflexivity|]. cbn [existsb]. rewrite IH. destruct k; reflexivity. Qed.

Lemma known_int db z : 0 <= z -> known db (VInt z).
Proof.
  intros N. unfold known. rewrite test_int. cbn [py_int]. unfold array_type. rewrite shiftr_16_zero by exact N.
  replace (negb (z <? 65536)) with (65536 <=? z) by lia. destruct (db z) as [[n ks]|]; [rewrite nary_test|]; reflexivity.
Qed.

Lemma known_lookup db z : 0 <= z -> known db (lookup db (VInt z)).
Proof. intros N. unfold known. rewrite test_lookup, lookup_int. apply known_int. exact N. Qed.

Lemma expand_known db s g run : digs db s g run -> Forall (known_long db) (x_usages (expand_ranges s)).
Proof.
  intros D. pose proof (di_us _ _ _ _ D) as U. cbn [expand_ranges x_usages]. unfold expand.
  destruct (x_locals s UsageMinimum) as [a|] eqn:E1; [|exact U]. destruct (x_locals s UsageMaximum) as [b|]; [|exact U].
  destruct (x_usages s); [|exact U]. pose proof (di_min _ _ _ _ D a E1) as N.
  apply Forall_map, Forall_forall. intros z I. unfold zrange in I. apply in_map_iff in I. destruct I as [n [<- _]].
  split; cbn [py_int]; [lia|]. intros _. apply known_int. lia.
Qed.

Lemma usage_known db s g run n u : digs db s g run -> x_usage db (expand_ranges s) n = Some u -> known db u.
Proof.
  intros D H. pose proof (expand_known _ _ _ _ D) as K. unfold x_usage in H. destruct (last_repeat _ n) as [v|] eqn:E; [|discriminate].
  assert (KV : known_long db v) by (rewrite Forall_forall in K; apply K; eapply nth_error_In; exact E).
  destruct KV as [KN KV]. destruct (Z.shiftr (py_int v) 16 =? 0) eqn:SH; cbn [negb] in H; injection H as <-.
  - apply known_lookup. change (gval (expand_ranges s) UsagePage) with (gval s UsagePage). rewrite (ag_page _ _ (di_agree _ _ _ _ D)).
    apply Z.lor_nonneg. split; [|exact KN]. apply Z.shiftl_nonneg. exact (di_page _ _ _ _ D).
  - apply KV. lia.
Qed.

Lemma told_app c a b : told c (a ++ b) = told c a ++ told c b.
Proof. apply flat_map_app. Qed.

Lemma final_snoc l z : final (l ++ [z]) = Some z.
Proof. induction l as [|a l IH]; [reflexivity|]. cbn [app final]. destruct (l ++ [z]) eqn:E; [destruct l; discriminate E|exact IH]. Qed.

Lemma told_pos c run : usage_tag c = true -> Forall (fun x => usage_tag (fst x) = true -> 0 <= snd x) run -> Forall (fun z => 0 <= z) (told c run).
Proof.
  intros U F. induction F as [|[d v] r H F IH]; [constructor|]. unfold told. cbn [flat_map fst snd]. fold (told c r).
  destruct (icls_eqb d c) eqn:E; [|exact IH]. constructor; [|exact IH]. apply H. cbn [fst]. destruct d, c; try discriminate E; exact U.
Qed.

Lemma final_in l z : final l = Some z -> In z l.
Proof. induction l as [|a l IH]; [discriminate|]. cbn [final]. destruct l; [injection 1 as <-; left; reflexivity|]. intros H. right. apply IH, H. Qed.

Lemma told_usages s run g : hears s run -> agree s g ->
  map (with_page (g_page g)) (map py_int (x_usages (expand_ranges s))) = usages_told (g_page g) run.
Proof.
  intros [A B C P] _. change (x_usages (expand_ranges s)) with (expanded (x_usages s) (x_locals s UsageMinimum) (x_locals s UsageMaximum)).
  unfold usages_told, expanded. rewrite <- A, <- B, <- C.
  pose proof (told_pos Usage run eq_refl P) as PU. rewrite <- A in PU.
  assert (EX : forall l, Forall (fun z => 0 <= z) l -> map (with_page (g_page g)) l = map (in_page (g_page g)) l).
  { intros l F. apply map_ext_in. intros z I. rewrite Forall_forall in F. apply with_page_val, F, I. }
  destruct (x_usages s) as [|u us].
  - destruct (x_locals s UsageMinimum) as [a|]; [|reflexivity]. destruct (x_locals s UsageMaximum) as [b|]; [|reflexivity].
    cbn [option_map map] in *. rewrite map_vint, zrange_upto. apply EX. apply Forall_forall. intros z I. unfold upto in I.
    apply in_map_iff in I. destruct I as [n [<- _]]. symmetry in B. apply final_in in B.
    pose proof (told_pos UsageMinimum run eq_refl P) as PM. rewrite Forall_forall in PM. specialize (PM _ B). lia.
  - destruct (x_locals s UsageMinimum) as [a|], (x_locals s UsageMaximum) as [b|]; cbn [map] in *; exact (EX _ PU).
Qed.

Lemma x_usage_told db s run g k : hears s run -> agree s g ->
  option_map py_int (x_usage db (expand_ranges s) k) = nth_last (usages_told (g_page g) run) k /\
  length (x_usages (expand_ranges s)) = length (usages_told (g_page g) run).
Proof.
  intros H A. pose proof (told_usages s run g H A) as V.
  assert (PG : gval (expand_ranges s) UsagePage = g_page g) by apply (ag_page _ _ A).
  split; [|rewrite <- V, !map_length; reflexivity].
  rewrite <- V, map_map. rewrite <- (last_repeat_map (fun u => with_page (g_page g) (py_int u))). unfold x_usage. rewrite PG.
  destruct (last_repeat (x_usages (expand_ranges s)) k) as [u|]; [|reflexivity]. cbn [option_map]. unfold with_page.
  destruct (negb _); cbn [option_map]; [reflexivity|]. rewrite lookup_int. reflexivity.
Qed.

Lemma list_told db s run g : hears s run -> agree s g ->
  map py_int (flat_map (fun k => match x_usage db (expand_ranges s) k with Some u => [u] | None => [] end)
                       (seq 0 (length (x_usages (expand_ranges s))))) = usages_told (g_page g) run.
Proof.
  intros L A. set (s0 := expand_ranges s).
    destruct (x_usage_told db s run g 0 L A) as [_ LEN]. fold s0 in LEN. rewrite LEN.
    set (us := usages_told (g_page g) run) in *.
    assert (Q : forall k, (k < length us)%nat -> exists u, x_usage db s0 k = Some u /\ py_int u = nth k us 0).
    { intros k Hk. destruct (x_usage_told db s run g k L A) as [E _]. fold s0 us in E.
      destruct us as [|a us']; [cbn in Hk; lia|]. change (nth_last (a :: us') k) with (Some (nth k (a :: us') (last (a :: us') a))) in E.
      destruct (x_usage db s0 k) as [u|]; [|discriminate E]. exists u. split; [reflexivity|].
      cbn [option_map] in E. assert (E' : py_int u = nth k (a :: us') (last (a :: us') a)) by congruence. rewrite E'. apply nth_indep. exact Hk. }
    clearbody us. clear LEN. assert (G : forall m st, (st + m <= length us)%nat ->
       map py_int (flat_map (fun k => match x_usage db s0 k with Some u => [u] | None => [] end) (seq st m)) = firstn m (skipn st us)).
    { induction m as [|m IH]; intros st Hm; [reflexivity|]. cbn [seq flat_map]. destruct (Q st ltac:(lia)) as [u [E1 E2]]. rewrite E1. cbn [app map].
      rewrite IH by lia. rewrite E2. clear - Hm. revert us Hm. induction st as [|st IHs]; intros us Hm.
      - destruct us as [|b us]; [cbn in Hm; lia|]. reflexivity.
      - destruct us as [|b us]; [cbn in Hm; lia|]. cbn [skipn nth]. apply IHs. cbn in Hm. lia. }
    rewrite G by lia. cbn [skipn]. apply firstn_all.
Qed.

Lemma named_told db s run g : hears s run -> agree s g ->
  array_usages (Some (named_of_usages db (expand_ranges s))) = usages_told (g_page g) run.
Proof.
  intros L A. pose proof (list_told db s run g L A) as E. unfold named_of_usages. set (l := flat_map _ _) in *.
  destruct (from_array l) as [r|e] eqn:F; [|exact E].
  rewrite <- E. rewrite <- (c17_back db l r F). symmetry. apply (narr_iter_ints db (NRange r)).
Qed.

Lemma named_value_none db s i u : x_usages s = [] -> named_value db s i u (named_of_usages db s) = Err ValueError.
Proof. intros N. unfold named_value, named_of_usages. rewrite N. reflexivity. Qed.

Definition furnished (s : xst) : list room := furnish (lrooms s).

Lemma any_app {A} (l m : list A) : any (l ++ m) = any l || any m.
Proof. destruct l; reflexivity. Qed.

Lemma add_rooms s v : heads (x_current s) (x_stack s) -> lrooms (add_value s v) = furnish (lrooms s).
Proof.
  intros H. unfold lrooms, add_value, set_levels, lroom. cbn [x_current x_stack flat_map lv_head lv_members].
  destruct (lv_head (x_current s)) as [[k u]|] eqn:E; cbn [app furnish].
  - rewrite any_app. cbn [any]. rewrite orb_true_r. reflexivity.
  - destruct (x_stack s) as [|p r]; [reflexivity|]. destruct H as [H _]. congruence.
Qed.

Lemma adds_rooms s s' l : heads (x_current s) (x_stack s) -> add_values s l = Ok s' -> lrooms s' = if any l then furnish (lrooms s) else lrooms s.
Proof.
  intros H E. apply add_values_spec in E. destruct E as [vs [EL [_ [E1 [_ [E2 [E3 _]]]]]]]. subst l.
  unfold lrooms, lroom. cbn [flat_map]. rewrite E1, E2, E3, any_app. destruct vs as [|v vs]; cbn [map any].
  - rewrite orb_false_r. reflexivity.
  - rewrite orb_true_r. destruct (lv_head (x_current s)) as [[k u]|] eqn:E; [reflexivity|]. cbn [app].
    destruct (x_stack s) as [|p r]; [reflexivity|]. destruct H as [H _]. congruence.
Qed.

Lemma adds_known db s s' l : Forall (known_head db) (x_current s :: x_stack s) -> add_values s l = Ok s' ->
  Forall (known_head db) (x_current s' :: x_stack s').
Proof.
  intros H E. apply add_values_spec in E. destruct E as [vs [_ [_ [E1 [_ [E2 _]]]]]]. rewrite E1. inversion H as [|? ? H1 H2]; subst.
  constructor; [|exact H2]. unfold known_head in *. rewrite E2. exact H1.
Qed.

Lemma handle_judged db s i g run : digs db s g run -> data_tag (ic i) = true ->
  match handle_data db (expand_ranges s) i with
  | Err e => judged db (lrooms s) g (usages_told (g_page g) run) (ival i) = inl e
  | Ok s' => exists b, judged db (lrooms s) g (usages_told (g_page g) run) (ival i) = inr (lrooms s', b) /\ x_innamed s' = x_innamed s || b /\
      Forall (known_head db) (x_current s' :: x_stack s')
  end.
Proof.
  intros D DT. destruct D as [A L NC NP HD KH KU KM] eqn:ED. set (s0 := expand_ranges s) in *.
  assert (GV : forall c, gval s0 c = gval s c) by reflexivity.
  assert (HD0 : heads (x_current s0) (x_stack s0)) by exact HD.
  assert (KH0 : Forall (known_head db) (x_current s0 :: x_stack s0)) by exact KH.
  change (lrooms s) with (lrooms s0). change (x_innamed s) with (x_innamed s0).
  unfold handle_data, judged. rewrite odd_land, negb_involutive.
  destruct (is_constant (ival i)) eqn:CO.
  - destruct (mk_padding _ _) as [v|e] eqn:EV; cbn [bind].
    + exists false. rewrite add_rooms by exact HD0. split; [reflexivity|]. split; [rewrite orb_false_r; reflexivity|].
      inversion KH0; subst. constructor; assumption.
    + exfalso. unfold mk_padding, mk_value in EV. cbn [a_named narr_truthy bind a_lmax a_lmin a_flags py_int orb andb negb] in EV. discriminate EV.
  - set (us := usages_told (g_page g) run) in *.
    destruct (x_usage_told db s run g 0 L A) as [_ LEN]. fold s0 us in LEN.
    rewrite LEN, !GV, (ag_count _ _ A), (ag_lmax _ _ A), (ag_lmin _ _ A).
    set (spans := Z.of_nat (length us) =? g_lmax g - g_lmin g + 1) in *.
    assert (IN : (if (g_count g =? 1) && spans then in_named_collection db s0 i else Ok false) =
      match stands_alone db (lrooms s0) ((g_count g =? 1) && spans) (ival i) with inl e => Err e | inr b => Ok b end).
    { unfold stands_alone. destruct ((g_count g =? 1) && spans); [|reflexivity]. unfold in_named_collection, lrooms. cbn [flat_map]. unfold lroom at 1.
      destruct (lv_head (x_current s0)) as [[k u]|] eqn:EH; cbn [app].
      - change fl_Variable with 2. destruct ((ival i =? 2) && (py_int k =? 4)); [reflexivity|]. destruct (py_int k =? 2); [|reflexivity].
        destruct u as [u|]; cbn [option_map]; [|reflexivity].
        apply Forall_inv in KH0. unfold known_head in KH0. rewrite EH in KH0. exact KH0.
      - destruct (x_stack s0) as [|p r]; [reflexivity|]. destruct HD0 as [HD0 _]. congruence. }
    rewrite IN. destruct (stands_alone db (lrooms s0) _ (ival i)) as [e|b] eqn:SA; cbn [bind]; [reflexivity|].
    assert (NV : forall u, match us with [] => named_value db s0 i u (named_of_usages db s0) = Err ValueError
                           | _ => exists v, named_value db s0 i u (named_of_usages db s0) = Ok v end).
    { intros u. destruct us as [|z us'] eqn:EU.
      - apply named_value_none. destruct (x_usages s0); [reflexivity|discriminate LEN].
      - apply named_value_ok. unfold s0. rewrite (named_told db s run g L A). fold us. rewrite EU. discriminate. }
    destruct b.
    + unfold stands_alone in SA. destruct ((g_count g =? 1) && spans); [|discriminate SA].
      unfold x_leave, lrooms in *. cbn [flat_map] in *.
      destruct (lv_head (x_current s0)) as [[k u]|] eqn:EH.
      2:{ destruct (x_stack s0) as [|p r]; [|destruct HD0 as [HD0 _]; congruence]. unfold lroom in SA at 1. rewrite EH in SA. discriminate SA. }
      clear SA IN. assert (LR : lroom (x_current s0) = [(py_int k, option_map py_int u, any (lv_members (x_current s0)))]) by (unfold lroom; rewrite EH; reflexivity).
      rewrite LR. cbn [app]. destruct (x_stack s0) as [|p r] eqn:ES; [change (lv_head (x_current s0) = None) in HD0; congruence|]. cbn [bind].
      destruct (lv_members (x_current s0)) as [|m ms]; cbn [any]; [|reflexivity].
      specialize (NV u). destruct us as [|z us'].
      * rewrite NV. reflexivity.
      * destruct NV as [v ->]. cbn [bind]. exists true. destruct HD0 as [_ HD0].
        assert (PE : Level (lv_head p) (lv_members p ++ []) = p) by (destruct p; cbn; rewrite app_nil_r; reflexivity).
        cbn [set_levels x_stack x_current]. rewrite PE.
        change (flat_map lroom (p :: r)) with (lrooms (set_levels s0 r p true)).
        split; [|split].
        -- f_equal. f_equal. symmetry. exact (add_rooms (set_levels s0 r p true) v HD0).
        -- rewrite orb_true_r. reflexivity.
        -- inversion KH0 as [|? ? _ KH1]; subst. inversion KH1; subst. constructor; assumption.
    + destruct ((ival i =? 0) && spans) eqn:Q0.
      * destruct (g_count g <=? 0) eqn:QC.
        -- replace (Z.to_nat (g_count g)) with 0%nat by lia. cbn [repeat add_values]. exists false. rewrite orb_false_r. auto.
        -- specialize (NV None). destruct (Z.to_nat (g_count g)) as [|n] eqn:CE; [lia|].
           destruct us as [|z us'].
           ++ cbn [repeat add_values]. rewrite NV. reflexivity.
           ++ destruct NV as [v NV]. destruct (add_values_ok (repeat (named_value db s0 i None (named_of_usages db s0)) (S n))) with (s := s0) as [s' E].
              { intros rr I. apply repeat_spec in I. subst rr. eauto. }
              rewrite E. exists false. rewrite (adds_rooms _ _ _ HD0 E). split; [reflexivity|]. split; [|eapply adds_known; eauto].
              apply add_values_spec in E. destruct E as [vs [_ [_ [_ [E _]]]]]. rewrite E, orb_false_r. reflexivity.
      * rewrite buffered_land, negb_involutive. destruct (is_buffered (ival i)) eqn:BU.
        -- destruct (plain_value_ok db s0 i 0 (g_count g)) as [v [-> _]]. cbn [bind]. exists false. rewrite add_rooms by exact HD0. cbn [orb].
           split; [reflexivity|]. split; [rewrite orb_false_r; reflexivity|]. inversion KH0; subst. constructor; assumption.
        -- destruct (add_values_ok (map (fun n => plain_value db s0 i n 1) (seq 0 (Z.to_nat (g_count g))))) with (s := s0) as [s' E].
           { intros rr I. apply in_map_iff in I. destruct I as [n [<- _]]. destruct (plain_value_ok db s0 i n 1) as [v [-> _]]. eauto. }
           rewrite E. exists false. rewrite (adds_rooms _ _ _ HD0 E). split; [|split; [|eapply adds_known; eauto]].
           ++ cbn [orb]. destruct (Z.to_nat (g_count g)) as [|n] eqn:CE; cbn [seq map any]; [replace (0 <? g_count g) with false by lia|replace (0 <? g_count g) with true by lia]; reflexivity.
           ++ apply add_values_spec in E. destruct E as [vs [_ [_ [_ [E _]]]]]. rewrite E, orb_false_r. reflexivity.
Qed.

Lemma rooms_empty s : heads (x_current s) (x_stack s) -> match lrooms s with [] => true | _ => false end = match x_stack s with [] => true | _ => false end.
Proof.
  intros H. unfold lrooms. cbn [flat_map]. destruct (x_stack s) as [|p r].
  - cbn [heads] in H. unfold lroom. rewrite H. reflexivity.
  - destruct H as [H _]. unfold lroom at 1. destruct (lv_head (x_current s)) as [[k u]|]; [reflexivity|congruence].
Qed.

Lemma digs_clear db s s' g run : agree s' g -> 0 <= g_count g -> 0 <= g_page g -> heads (x_current s') (x_stack s') ->
  Forall (known_head db) (x_current s' :: x_stack s') -> run = [] -> s = locals_clear s' -> digs db s g run.
Proof.
  intros A C P H K -> ->. split; auto.
  - eapply agree_globals; [|exact A]. reflexivity.
  - split; [reflexivity|reflexivity|reflexivity|constructor].
  - constructor.
  - discriminate.
Qed.

Lemma agree_sets s s' g c v : x_globals s' = upd (x_globals s) c v -> kind_of c = Global -> agree s g -> agree s' (g_set c (py_int v) g).
Proof.
  intros E K [A1 A2 A3 A4 A5 A6 A7 A8 A9 A10]. unfold gval in *.
  destruct g as [p1 p2 p3 p4 p5 p6 p7 p8 p9 p10]. cbn [g_page g_lmin g_lmax g_pmin g_pmax g_uexp g_unit g_size g_rid g_count] in *.
  destruct c; try discriminate K; split; unfold gval; rewrite E; unfold upd; cbn; auto.
Qed.

Lemma hears_step db s i s' run : constructed i -> kind_of (ic i) = Local -> hears s run -> x_append db s i = Ok s' ->
  hears s' (run ++ [(ic i, ival i)]).
Proof.
  intros C K [A B D P] H. unfold x_append, ikd in H. rewrite K in H. injection H as <-.
  assert (T : forall c, told c (run ++ [(ic i, ival i)]) = told c run ++ if icls_eqb (ic i) c then [ival i] else []).
  { intros c. rewrite told_app. unfold told at 2. cbn [flat_map fst snd]. rewrite app_nil_r. reflexivity. }
  assert (P' : Forall (fun x => usage_tag (fst x) = true -> 0 <= snd x) (run ++ [(ic i, ival i)])).
  { apply Forall_app. split; [exact P|]. constructor; [|constructor]. cbn [fst snd]. intros U.
    destruct (constructed_facts i C) as [[CS|CS] _]; [destruct (ic i); discriminate|exact CS]. }
  destruct (ic i) eqn:EC; try discriminate K; (split; [..|exact P']); rewrite T; cbn [x_usages x_locals icls_eqb]; unfold upd; cbn [icls_eqb];
    rewrite ?app_nil_r, ?final_snoc, ?map_app; try assumption; try reflexivity; rewrite A; reflexivity.
Qed.

Definition lsight (g : gtab) (run : list (icls * Z)) (i : item) : (gtab * list (icls * Z)) * list sight :=
  match hid_kind (ic i) with
  | KMain => ((g, []), [(g, usages_told (g_page g) run, ic i, ival i)])
  | KGlobal => ((g_set (ic i) (ival i) g, run), [])
  | KLocal => ((g, run ++ [(ic i, ival i)]), [])
  end.

Lemma verdict_step db s i g run es : constructed i -> canon db i -> digs db s g run ->
  let r := lsight g run i in
  match x_append db s i with
  | Err e => verdict db (lrooms s) (x_innamed s) (some (x_root s)) (snd r ++ es) = Some e
  | Ok s' => digs db s' (fst (fst r)) (snd (fst r)) /\
      verdict db (lrooms s) (x_innamed s) (some (x_root s)) (snd r ++ es) = verdict db (lrooms s') (x_innamed s') (some (x_root s')) es
  end.
Proof.
  intros C CA D. pose proof D as [A L NC NP HD KH KU KM]. unfold lsight.
  destruct (kind_of (ic i)) eqn:K.
  - set (s0 := expand_ranges s) in *.
    destruct (data_tag (ic i)) eqn:DT.
    + assert (MK : hid_kind (ic i) = KMain) by (destruct (ic i); try discriminate DT; reflexivity).
      rewrite MK. cbn [fst snd app]. set (us := usages_told (g_page g) run).
      pose proof (handle_judged db s i g run D DT) as J. fold us in J. fold s0 in J.
      assert (V : forall rs ins d, verdict db rs ins d ((g, us, ic i, ival i) :: es) =
        match judged db rs g us (ival i) with inl e => Some e | inr (rs', b) => verdict db rs' (ins || b) d es end)
        by (intros; destruct (ic i); try discriminate DT; reflexivity).
      rewrite V. clear V.
      assert (XA : x_append db s i = let* s1 := handle_data db s0 i in Ok (locals_clear s1)).
      { unfold x_append, ikd. rewrite K. fold s0. destruct (ic i); try discriminate DT; reflexivity. }
      rewrite XA. destruct (handle_data db s0 i) as [s1|e] eqn:E1; cbn [bind].
      * destruct J as [b [J1 [J2 J3]]]. rewrite J1.
        destruct (handle_data_spec db s0 i s1 g lo_init DT NC ltac:(eapply agree_globals; [|exact A]; reflexivity) HD E1) as [[G1 H1 R1] _].
        split.
        -- eapply digs_clear with (s' := s1); auto. eapply agree_globals; [|exact A]; exact G1.
        -- cbn [locals_clear x_innamed x_root]. rewrite J2, R1. reflexivity.
      * rewrite J. reflexivity.
    + unfold x_append, ikd. rewrite K. fold s0.
      destruct (ic i) eqn:EC; try discriminate K; try discriminate DT; cbn [hid_kind fst snd app verdict].
      * cbn [bind]. split.
        -- eapply digs_clear with (s' := x_enter s0 (iv i) (x_usage db s0 0)); auto.
           ++ eapply agree_globals; [|exact A]. reflexivity.
           ++ cbn [x_enter set_levels x_current x_stack heads lv_head]. split; [discriminate|exact HD].
           ++ cbn [x_enter set_levels x_current x_stack]. constructor; [|exact KH]. unfold known_head. cbn [lv_head].
              destruct (x_usage db s0 0) as [u|] eqn:EU; [|exact I]. exact (usage_known db s g run 0 u D EU).
        -- destruct (x_usage_told db s run g 0 L A) as [EU _]. fold s0 in EU.
           assert (HE : hd_error (usages_told (g_page g) run) = option_map py_int (x_usage db s0 0)).
           { rewrite EU. destruct (usages_told (g_page g) run); reflexivity. }
           rewrite HE. reflexivity.
      * change (x_innamed s0) with (x_innamed s). destruct (x_innamed s) eqn:IN.
        -- cbn [bind set_levels x_stack]. rewrite (rooms_empty s HD).
           change (x_stack s0) with (x_stack s). change (x_current s0) with (x_current s).
           set (s1 := set_levels s0 (x_stack s) (x_current s) false).
           split.
           ++ destruct (x_stack s) as [|p r] eqn:ES.
              ** eapply digs_clear with (s' := x_ended s1); auto; try (eapply agree_globals; [|exact A]; reflexivity); subst s1; cbn [x_ended set_levels x_current x_stack]; rewrite ?ES; auto.
              ** eapply digs_clear with (s' := s1); auto; try (eapply agree_globals; [|exact A]; reflexivity); subst s1; cbn [x_ended set_levels x_current x_stack]; rewrite ?ES; auto.
           ++ destruct (x_stack s) as [|p r] eqn:ES.
              ** rewrite orb_true_r. unfold lrooms. rewrite ES. reflexivity.
              ** rewrite orb_false_r. unfold lrooms. rewrite ES. reflexivity.
        -- unfold x_leave. change (x_stack s0) with (x_stack s). destruct (x_stack s) as [|p r] eqn:ES; cbn [bind].
           ++ pose proof (rooms_empty s) as RE. rewrite ES in RE. specialize (RE HD). destruct (lrooms s); [reflexivity|discriminate RE].
           ++ destruct HD as [HN HD]. destruct (lv_head (x_current s)) as [[k u]|] eqn:EH; [|congruence]. clear HN.
              unfold lrooms at 1 2. rewrite ES. cbn [flat_map]. assert (LR : lroom (x_current s) = [(py_int k, option_map py_int u, any (lv_members (x_current s)))]) by (unfold lroom; rewrite EH; reflexivity).
              rewrite LR. cbn [app]. change (x_current s0) with (x_current s). change (x_innamed s0) with (x_innamed s). rewrite IN.
              set (kept := match lv_members (x_current s) with [] => [] | _ :: _ => close_level (x_current s) end).
              set (p' := Level (lv_head p) (lv_members p ++ kept)). cbn [set_levels x_stack].
              set (s1 := set_levels s0 r p' false).
              assert (HD1 : heads p' r) by (destruct p as [h ms]; eapply heads_members; exact HD).
              assert (RM : lrooms s1 = if any (lv_members (x_current s)) then furnish (lroom p ++ flat_map lroom r) else lroom p ++ flat_map lroom r).
              { unfold lrooms. cbn [flat_map]. change (x_current s1) with p'. change (x_stack s1) with r. unfold lroom at 1 3 5. subst p'. cbn [lv_head lv_members].
                rewrite any_app. unfold kept, close_level. rewrite EH. destruct (lv_members (x_current s)); cbn [any]; rewrite ?orb_false_r, ?orb_true_r.
                - reflexivity.
                - destruct (lv_head p) as [[? ?]|] eqn:PH; [reflexivity|]. cbn [app]. destruct r as [|q r]; [reflexivity|]. destruct HD as [HD _]. congruence. }
              assert (RE : match lroom p ++ flat_map lroom r with [] => true | _ => false end = match r with [] => true | _ => false end).
              { destruct r as [|q r]; cbn [heads] in HD; [unfold lroom; rewrite HD; reflexivity|]. destruct HD as [HD _]. unfold lroom at 1. destruct (lv_head p) as [[? ?]|]; [reflexivity|congruence]. }
              rewrite RE. rewrite <- RM. change (x_root s) with (x_root s1).
              assert (KH1 : Forall (known_head db) (p' :: r)).
              { inversion KH as [|? ? _ KH1]; subst. inversion KH1; subst. constructor; assumption. }
              destruct r as [|q r].
              ** split; [|rewrite orb_true_r; reflexivity]. eapply digs_clear with (s' := x_ended s1); auto. eapply agree_globals; [|exact A]; reflexivity.
              ** split; [|rewrite orb_false_r; reflexivity]. eapply digs_clear with (s' := s1); auto. eapply agree_globals; [|exact A]; reflexivity.
  - assert (MK : hid_kind (ic i) = KGlobal) by (destruct (ic i); try discriminate K; reflexivity).
    rewrite MK. cbn [fst snd app]. unfold x_append, ikd. rewrite K. split; [|reflexivity].
    destruct (constructed_facts i C) as [CS _].
    split; auto.
    + apply (agree_sets s _ g (ic i) (iv i)); auto.
    + destruct L. split; assumption.
    + destruct (ic i) eqn:EC; try discriminate K; destruct g; try exact NC.
      destruct CS as [CS|CS]; [discriminate CS|exact CS].
    + destruct (ic i) eqn:EC; try discriminate K; destruct g; try exact NP.
      destruct CS as [CS|CS]; [discriminate CS|exact CS].
  - assert (MK : hid_kind (ic i) = KLocal) by (destruct (ic i); try discriminate K; reflexivity).
    rewrite MK. cbn [fst snd app].
    assert (exists s', x_append db s i = Ok s' /\ x_stack s' = x_stack s /\ x_current s' = x_current s /\ x_globals s' = x_globals s /\ x_innamed s' = x_innamed s /\ x_root s' = x_root s /\
      Forall (known_long db) (x_usages s') /\ (forall a, x_locals s' UsageMinimum = Some a -> 0 <= py_int a)) as [s' [H [E1 [E2 [E3 [E4 [E5 [E6 E7]]]]]]]].
    { destruct (constructed_facts i C) as [CS _].
      assert (NS : usage_tag (ic i) = true -> 0 <= ival i) by (intros U; destruct CS as [CS|CS]; [destruct (ic i); discriminate|exact CS]).
      unfold x_append, ikd. rewrite K. eexists. split; [reflexivity|].
      assert (KL : ic i = Usage -> known_long db (iv i)).
      { intros U. split; [apply NS; rewrite U; reflexivity|]. intros SH. destruct (CA U) as [_ CB]. fold (ival i) in SH. specialize (CB SH). rewrite CB. apply known_lookup. apply NS. rewrite U. reflexivity. }
      destruct (ic i) eqn:EC; try discriminate K; cbn [x_stack x_current x_globals x_innamed x_root x_usages x_locals]; repeat (split; [reflexivity|]); split; auto;
      try (apply Forall_app; split; auto); unfold upd; cbn [icls_eqb]; intros a HA; first [exact (KM a HA)|injection HA as <-; exact (NS eq_refl)]. }
    pose proof (hears_step db s i s' run C K L H) as L'. rewrite H. split.
    + split; auto; try (rewrite E1, E2; auto). eapply agree_globals; [exact E3|exact A].
    + unfold lrooms. rewrite E1, E2, E4, E5. reflexivity.
Qed.

Lemma verdict_run db l : forall s g run, Forall constructed l -> Forall (canon db) l -> digs db s g run ->
  verdict db (lrooms s) (x_innamed s) (some (x_root s)) (sights g run (map cv l)) =
  match x_run db s l with Err e => Some e | Ok s' => if some (x_root s') then None else Some AttributeError end.
Proof.
  induction l as [|i l IH]; intros s g run C CA D; cbn [map x_run]; [reflexivity|].
  inversion C as [|? ? C1 C2]; subst. inversion CA as [|? ? CA1 CA2]; subst.
  pose proof (fun es => verdict_step db s i g run es C1 CA1 D) as ST.
  assert (SI : sights g run (cv i :: map cv l) = snd (lsight g run i) ++ sights (fst (fst (lsight g run i))) (snd (fst (lsight g run i))) (map cv l)).
  { unfold lsight, cv. cbn [sights]. destruct (hid_kind (ic i)); reflexivity. }
  rewrite SI. clear SI. destruct (lsight g run i) as [[g1 run1] o1]. cbn [fst snd] in *. specialize (ST (sights g1 run1 (map cv l))).
  destruct (x_append db s i) as [s1|e]; cbn [bind]; [|exact ST]. destruct ST as [D1 ->]. apply IH; auto.
Qed.

Lemma c54_items db l : Forall constructed l -> Forall (canon db) l ->
  verdict db [] false false (sights g_init [] (map cv l)) = match extract db l with Ok _ => None | Err e => Some e end.
Proof.
  intros C CA.
  assert (D : digs db xst_init g_init []).
  { split; [apply agree_init|split; [reflexivity|reflexivity|reflexivity|constructor]|cbn; lia|cbn; lia|reflexivity|constructor; [exact I|constructor]|constructor|discriminate]. }
  pose proof (verdict_run db l xst_init g_init [] C CA D) as V.
  change (lrooms xst_init) with (@nil room) in V. change (x_innamed xst_init) with false in V. change (some (x_root xst_init)) with false in V.
  etransitivity; [exact V|]. unfold extract. destruct (x_run db xst_init l) as [s'|e]; cbn [bind]; [|reflexivity]. destruct (x_root s'); reflexivity.
Qed.

Lemma c54_exactly db blob ws : blob_means blob ws -> Forall number_allowed ws ->
  verdict db [] false false (sights g_init [] (map w_what ws)) = match decompile db blob with Ok _ => None | Err e => Some e end.
Proof.
  intros B N.
  destruct (parse_good db 0 blob ws B (proj1 (allowed_forall ws) N)) as [l [PA [M C]]].
  assert (CA : Forall (canon db) l).
  { pose proof (parsed_canon (length blob) db 0 blob) as PC. fold (parse_from db 0 blob) in PC. rewrite PA in PC. exact PC. }
  change (map w_what ws) with (map wcv ws). rewrite <- M, (c54_items db l C CA).
  unfold decompile. rewrite blob_parse_from, PA. cbn [finished appended bind]. reflexivity.
Qed.

Lemma c54_accepts db blob : Forall is_byte blob ->
  ((exists t, decompile db blob = Ok t) <->
   exists ws, blob_means blob ws /\ Forall number_allowed ws /\ verdict db [] false false (sights g_init [] (map w_what ws)) = None).
Proof.
  intros IB. split.
  - intros [t D]. destruct (proj1 (c06 db blob IB)) as [F _]. destruct F as [ws [B N]].
    + unfold decompile in D. destruct (x_run _ _ _) as [s|e]; cbn [bind] in D; [|discriminate D].
      destruct (finished (blob_parse db blob)) as [[]|e]; [reflexivity|discriminate D].
    + exists ws. split; [exact B|]. split; [exact N|]. rewrite (c54_exactly db blob ws B N), D. reflexivity.
  - intros [ws [B [N V]]]. rewrite (c54_exactly db blob ws B N) in V. destruct (decompile db blob) as [t|e]; [eauto|discriminate V].
Qed.
