(* NameBack.v -- the decompiler reads usage types from the registry and
   nothing else (C63) *)
From Coq Require Import ZifyBool ZifyNat.
From Verif Require Import Py Usage Item Parser Optimizer Descriptor Extractor HidSpec StreamSpec DumpSpec ItemFacts ParserFacts ExtractFacts NameFacts ExtractPrefix.
Local Open Scope list_scope.
Local Open Scope Z_scope.
Ltac Zify.zify_post_hook ::= Z.div_mod_to_equations.

Section Registries.
Variables db db' : udb.
Hypothesis same_types : forall z, utype_test db' NAry (Some (VInt z)) = utype_test db NAry (Some (VInt z)).

(** a usage as an attribute of a Value or of a Collection *)
Record vlike (u u' : pval) : Prop := {
  vl_int : py_int u' = py_int u; vl_truth : truthy u' = truthy u;
  vl_type : utype_test db' NAry (Some u') = utype_test db NAry (Some u)
}.

(** a usage in the list of usages: the type of a small one is not read *)
Record ulike (u u' : pval) : Prop := {
  ul_int : py_int u' = py_int u; ul_truth : truthy u' = truthy u;
  ul_type : Z.shiftr (py_int u) 16 <> 0 -> utype_test db' NAry (Some u') = utype_test db NAry (Some u)
}.

Definition olike (u u' : option pval) : Prop :=
  match u, u' with Some x, Some y => vlike x y | None, None => True | _, _ => False end.

Inductive elike : etree -> etree -> Prop :=
| el_val v w r : rebuilt v w -> elike (EVal v r) (EVal w r)
| el_coll k u k' u' ms ns : py_int k' = py_int k -> olike u u' -> eslike ms ns -> elike (EColl k u ms) (EColl k' u' ns)
with eslike : list etree -> list etree -> Prop :=
| els_nil : eslike [] []
| els_cons m n ms ns : elike m n -> eslike ms ns -> eslike (m :: ms) (n :: ns).

Scheme elike_mut := Induction for elike Sort Prop
with eslike_mut := Induction for eslike Sort Prop.

Definition hlike (h h' : option (pval * option pval)) : Prop :=
  match h, h' with
  | Some (k, u), Some (k', u') => py_int k' = py_int k /\ olike u u'
  | None, None => True
  | _, _ => False
  end.

Definition llike (l l' : level) : Prop := hlike (lv_head l) (lv_head l') /\ eslike (lv_members l) (lv_members l').

Definition rlike (r r' : option tree) : Prop :=
  match r, r' with Some t, Some t' => same_tree t t' | None, None => True | _, _ => False end.

(** the globals that are read, besides UsagePage *)
Definition table_tag (c : icls) : bool :=
  match c with
  | LogicalMinimum | LogicalMaximum | PhysicalMinimum | PhysicalMaximum
  | UnitExponent | Unit | ReportSize | ReportID | ReportCount => true
  | _ => false
  end.

Record xlike (s s' : xst) : Prop := {
  xl_globals : forall c, table_tag c = true -> py_int (x_globals s' c) = py_int (x_globals s c);
  xl_page : py_int (x_globals s' UsagePage) = py_int (x_globals s UsagePage);
  xl_usages : Forall2 ulike (x_usages s) (x_usages s');
  xl_strings : map py_int (x_strings s') = map py_int (x_strings s);
  xl_desigs : map py_int (x_designators s') = map py_int (x_designators s);
  xl_locals : forall c, option_map py_int (x_locals s' c) = option_map py_int (x_locals s c);
  xl_stack : Forall2 llike (x_stack s) (x_stack s');
  xl_current : llike (x_current s) (x_current s');
  xl_innamed : x_innamed s' = x_innamed s;
  xl_root : rlike (x_root s) (x_root s')
}.

(** what is the same when a main item is read: the usages count with
    their page *)
Record mlike (s s' : xst) : Prop := {
  ml_globals : forall c, table_tag c = true -> py_int (x_globals s' c) = py_int (x_globals s c);
  ml_count : length (x_usages s') = length (x_usages s);
  ml_usage : forall n, olike (x_usage db s n) (x_usage db' s' n);
  ml_strings : map py_int (x_strings s') = map py_int (x_strings s);
  ml_desigs : map py_int (x_designators s') = map py_int (x_designators s);
  ml_stack : Forall2 llike (x_stack s) (x_stack s');
  ml_current : llike (x_current s) (x_current s');
  ml_innamed : x_innamed s' = x_innamed s;
  ml_root : rlike (x_root s) (x_root s')
}.

Record ilike (i i' : item) : Prop := {
  il_class : ic i' = ic i; il_value : ival i' = ival i;
  il_usage : ic i = Usage -> ulike (iv i) (iv i')
}.

Lemma int_ulike z : ulike (VInt z) (VInt z).
Proof. constructor; auto. Qed.

Lemma lookup_vlike z : vlike (lookup db (VInt z)) (lookup db' (VInt z)).
Proof.
  assert (T : forall d, truthy (lookup d (VInt z)) = true) by (intros d; unfold lookup; destruct (negb _); [destruct (d z) as [[? ?]|]|]; reflexivity).
  assert (U : forall d, utype_test d NAry (Some (lookup d (VInt z))) = utype_test d NAry (Some (VInt z))).
  { intros d. unfold utype_test, lookup_opt. cbn [bind]. f_equal. unfold lookup. destruct (negb (Z.shiftr z 16 =? 0)); [destruct (d z) as [[? ?]|]|]; reflexivity. }
  constructor; [rewrite !lookup_int; reflexivity|rewrite !T; reflexivity|rewrite !U; apply same_types].
Qed.

Lemma like_nth {A B} (R : A -> B -> Prop) l m n : Forall2 R l m ->
  match nth_error l n, nth_error m n with Some x, Some y => R x y | None, None => True | _, _ => False end.
Proof. intros F. revert n. induction F as [|x y l m H F IH]; intros [|n]; cbn [nth_error]; auto. apply IH. Qed.

Lemma like_len {A B} (R : A -> B -> Prop) l m : Forall2 R l m -> length m = length l.
Proof. induction 1; cbn; congruence. Qed.

Lemma usage_like s s' n : xlike s s' -> olike (x_usage db s n) (x_usage db' s' n).
Proof.
  intros X. unfold x_usage, last_repeat. pose proof (xl_usages _ _ X) as F. rewrite (like_len _ _ _ F).
  pose proof (like_nth _ _ _ (Nat.min (length (x_usages s) - 1) n) F) as N.
  destruct (nth_error (x_usages s) _) as [u|], (nth_error (x_usages s') _) as [u'|]; try contradiction; [|exact I].
  destruct N as [NI NT NY]. rewrite NI. destruct (Z.shiftr (py_int u) 16 =? 0) eqn:Z0; cbn [negb olike].
  - unfold gval. rewrite (xl_page _ _ X). apply lookup_vlike.
  - constructor; auto. apply NY. lia.
Qed.

Lemma map_last l m n : map py_int m = map py_int l ->
  match last_repeat m n with None => 0 | Some v => py_int v end = match last_repeat l n with None => 0 | Some v => py_int v end.
Proof.
  intros E. unfold last_repeat. assert (L : length m = length l) by (apply (f_equal (@length Z)) in E; rewrite !map_length in E; exact E).
  rewrite L. set (k := Nat.min _ _). assert (N : nth_error (map py_int m) k = nth_error (map py_int l) k) by (rewrite E; reflexivity).
  rewrite !nth_error_map in N. destruct (nth_error m k), (nth_error l k); cbn in N; congruence.
Qed.

Lemma string_like s s' n : mlike s s' -> x_string s' n = x_string s n.
Proof. intros X. apply map_last. exact (ml_strings _ _ X). Qed.
Lemma desig_like s s' n : mlike s s' -> x_designator s' n = x_designator s n.
Proof. intros X. apply map_last. exact (ml_desigs _ _ X). Qed.
Lemma gval_like s s' c : mlike s s' -> table_tag c = true -> gval s' c = gval s c.
Proof. intros X. apply (ml_globals _ _ X). Qed.

(* ------------------------------------------------------------------ *)
(** trees *)

Lemma ids_like : (forall m n, elike m n -> e_ids n = e_ids m).
Proof.
  apply (elike_mut (fun m n _ => e_ids n = e_ids m)
    (fun ms ns _ => (fix go (ms : list etree) := match ms with [] => [] | m :: r => zunion (e_ids m) (go r) end) ns =
                    (fix go (ms : list etree) := match ms with [] => [] | m :: r => zunion (e_ids m) (go r) end) ms)); intros; cbn [e_ids]; try reflexivity; congruence.
Qed.

Lemma olike_int u u' : olike u u' -> option_map py_int u' = option_map py_int u.
Proof. destruct u, u'; cbn [olike option_map]; intros H; try contradiction; [|reflexivity]. f_equal. apply (vl_int _ _ H). Qed.

Lemma raw_like : forall m n, elike m n -> same_tree (raw m) (raw n).
Proof.
  apply (elike_mut (fun m n _ => same_tree (raw m) (raw n))
    (fun ms ns _ => same_members ((fix go (ms : list etree) := match ms with [] => [] | m :: r => raw m :: go r end) ms)
                                 ((fix go (ms : list etree) := match ms with [] => [] | m :: r => raw m :: go r end) ns))).
  - intros v w r R. constructor. exact R.
  - intros k u k' u' ms ns K U _ IH. cbn [raw]. constructor; [exact K|apply olike_int; exact U|exact IH].
  - constructor.
  - intros. constructor; assumption.
Qed.

Lemma sm_app a b c d : same_members a b -> same_members c d -> same_members (a ++ c) (b ++ d).
Proof. intros H G. induction a as [|x a IH] in b, H |- *; inversion H; subst; [exact G|]. cbn [app]. constructor; auto. Qed.

Definition clike (c c' : option (Z * list tree)) : Prop :=
  match c, c' with Some (i, l), Some (j, m) => j = i /\ same_members l m | None, None => True | _, _ => False end.

Lemma close_like c c' : clike c c' -> same_members (ri_close c) (ri_close c').
Proof.
  destruct c as [[i l]|], c' as [[j m]|]; cbn [clike ri_close]; intros H; try contradiction; [|constructor].
  destruct H as [-> H]. constructor; [constructor; exact H|constructor].
Qed.

Lemma insert_like : forall m n, elike m n -> same_tree (report_insert m) (report_insert n).
Proof.
  apply (elike_mut (fun m n _ => same_tree (report_insert m) (report_insert n))
    (fun ms ns _ => forall cur cur', clike cur cur' -> same_members (report_insert_members ms cur) (report_insert_members ns cur'))).
  - intros v w r R. constructor. exact R.
  - intros k u k' u' ms ns K U _ IH. rewrite !report_insert_coll. constructor; [exact K|apply olike_int; exact U|apply IH; exact I].
  - intros cur cur' C. apply close_like. exact C.
  - intros m n r q E RI _ IH cur cur' C. cbn [report_insert_members]. rewrite (ids_like m n E). pose proof (raw_like m n E) as R.
    assert (ONE : forall id, clike (Some (id, [raw m])) (Some (id, [raw n]))) by (intros id; split; [reflexivity|constructor; [exact R|constructor]]).
    destruct (e_ids m) as [|id [|x y]].
    + apply sm_app; [apply close_like; exact C|]. constructor; [exact RI|apply IH; exact I].
    + destruct cur as [[i l]|], cur' as [[j l']|]; try contradiction; [|apply IH, ONE].
      destruct C as [-> C]. destruct (zmem i [id]).
      * apply IH. split; [reflexivity|]. apply sm_app; [exact C|constructor; [exact R|constructor]].
      * apply sm_app; [apply (close_like (Some (i, l)) (Some (i, l'))); split; [reflexivity|exact C]|apply IH, ONE].
    + apply sm_app; [apply close_like; exact C|]. constructor; [exact RI|apply IH; exact I].
Qed.

Lemma members_like ms ns : eslike ms ns -> forall cur cur', clike cur cur' -> same_members (report_insert_members ms cur) (report_insert_members ns cur').
Proof.
  induction 1 as [|m n r q E _ IH]; intros cur cur' C; [apply close_like; exact C|].
  cbn [report_insert_members]. rewrite (ids_like m n E). pose proof (raw_like m n E) as R. pose proof (insert_like m n E) as RI.
  assert (ONE : forall id, clike (Some (id, [raw m])) (Some (id, [raw n]))) by (intros id; split; [reflexivity|constructor; [exact R|constructor]]).
  destruct (e_ids m) as [|id [|x y]].
  - apply sm_app; [apply close_like; exact C|]. constructor; [exact RI|apply IH; exact I].
  - destruct cur as [[i l]|], cur' as [[j l']|]; try contradiction; [|apply IH, ONE].
    destruct C as [-> C]. destruct (zmem i [id]).
    + apply IH. split; [reflexivity|]. apply sm_app; [exact C|constructor; [exact R|constructor]].
    + apply sm_app; [apply (close_like (Some (i, l)) (Some (i, l'))); split; [reflexivity|exact C]|apply IH, ONE].
  - apply sm_app; [apply close_like; exact C|]. constructor; [exact RI|apply IH; exact I].
Qed.

Lemma es_app a b c d : eslike a b -> eslike c d -> eslike (a ++ c) (b ++ d).
Proof. induction 1; intros G; [exact G|]. cbn [app]. constructor; auto. Qed.

(* ------------------------------------------------------------------ *)
(** values *)

Record alike (a b : vargs) : Prop := {
  al_way : py_int (a_way b) = py_int (a_way a);
  al_usage : usage_list (a_usage b) = usage_list (a_usage a);
  al_size : a_size b = a_size a;
  al_flags : py_int (a_flags b) = py_int (a_flags a);
  al_lmin : a_lmin b = a_lmin a; al_lmax : a_lmax b = a_lmax a;
  al_pmin : a_pmin b = a_pmin a; al_pmax : a_pmax b = a_pmax a;
  al_named : same_array (a_named a) (a_named b);
  al_unit : py_int (a_unit b) = py_int (a_unit a);
  al_uexp : a_uexp b = a_uexp a; al_desig : a_desig b = a_desig a; al_str : a_str b = a_str a;
  al_count : a_count b = a_count a; al_align : a_align b = a_align a
}.

Lemma usage_list_truth u : usage_list u = if match u with Some x => truthy x | None => false end then match u with Some x => [py_int x] | None => [] end else [].
Proof. destruct u as [[z| |]|]; cbn; try reflexivity. destruct (z =? 0); reflexivity. Qed.

Lemma value_like k a b : alike a b -> same_result rebuilt (mk_value k a) (mk_value k b).
Proof.
  intros [W U SZ FL L1 L2 P1 P2 N UN UX D ST C AL].
  destruct a as [aw au asz af al1 al2 ap1 ap2 an aun aux ad ast ac aal], b as [bw bu bsz bf bl1 bl2 bp1 bp2 bn bun bux bd bst bc bal].
  cbn [a_way a_usage a_size a_flags a_lmin a_lmax a_pmin a_pmax a_named a_unit a_uexp a_desig a_str a_count a_align] in *. subst bsz bl1 bl2 bp1 bp2 bux bd bst bc bal.
  unfold mk_value. cbn [a_way a_usage a_size a_flags a_lmin a_lmax a_pmin a_pmax a_named a_unit a_uexp a_desig a_str a_count a_align].
  rewrite FL.
  assert (UT : match bu with Some u => if truthy u then VNamed "Variable" 2 else VInt 0 | None => VInt 0 end =
               match au with Some u => if truthy u then VNamed "Variable" 2 else VInt 0 | None => VInt 0 end).
  { rewrite !usage_list_truth in U. destruct au as [x|], bu as [y|]; try reflexivity; try (destruct (truthy x)); try (destruct (truthy y)); try reflexivity; discriminate U. }
  rewrite UT.
  assert (NT : narr_truthy bn = narr_truthy an).
  { destruct an as [[l|r]|], bn as [[m|q]|]; try contradiction; try reflexivity; cbn [same_array narr_truthy narr_len] in *.
    - apply (f_equal (@length Z)) in N. rewrite !map_length in N. rewrite N. reflexivity.
    - unfold range_len. destruct N as [-> ->]. reflexivity. }
  rewrite NT. destruct (narr_truthy an) as [named|e] eqn:NA; [|reflexivity]. cbn [bind].
  destruct (_ && _ && _); [reflexivity|].
  assert (NN : match an, bn with
               | Some x, Some y => narr_len y = narr_len x | None, None => True | _, _ => False end).
  { destruct an as [[l|r]|], bn as [[m|q]|]; try contradiction; try exact I; cbn [same_array narr_len] in *.
    - apply (f_equal (@length Z)) in N. rewrite !map_length in N. rewrite N. reflexivity.
    - unfold range_len. destruct N as [-> ->]. reflexivity. }
  destruct (zero_or_none ap1 && zero_or_none ap2);
  destruct an as [x|], bn as [y|]; try contradiction; try destruct named; try rewrite NN; try (destruct (narr_len x); [|reflexivity]); cbn [bind];
    try (destruct al1; [|reflexivity]); cbn [same_result]; constructor; cbn; auto.
Qed.

Lemma olike_list u u' : olike u u' -> usage_list u' = usage_list u.
Proof.
  intros O. rewrite !usage_list_truth. destruct u as [x|], u' as [y|]; try contradiction; [|reflexivity]. destruct O as [OI OT _]. rewrite OI, OT. reflexivity.
Qed.

Lemma range_like l m : map py_int m = map py_int l ->
  same_array (Some (match from_array l with Ok r => NRange r | Err _ => NList l end))
             (Some (match from_array m with Ok r => NRange r | Err _ => NList m end)).
Proof.
  intros E. assert (CT : forall l m, map py_int m = map py_int l -> contiguous m = contiguous l).
  { clear. induction l as [|x l IH]; intros [|y m] E; try discriminate E; [reflexivity|]. cbn [map] in E. injection E as E1 E2. cbn [contiguous].
    destruct l as [|x2 l], m as [|y2 m]; try discriminate E2; [reflexivity|]. rewrite (IH _ E2). cbn [map] in E2. injection E2 as E2 _. rewrite E1, E2. reflexivity. }
  assert (LT : forall l m d e, map py_int m = map py_int l -> py_int e = py_int d -> py_int (last m e) = py_int (last l d)).
  { clear. induction l as [|x l IH]; intros [|y m] d e E D; try discriminate E; [exact D|]. cbn [map] in E. injection E as E1 E2.
    destruct l as [|x2 l], m as [|y2 m]; try discriminate E2; [exact E1|]. exact (IH (y2 :: m) d e E2 D). }
  unfold from_array. destruct l as [|x [|x2 l]], m as [|y [|y2 m]]; try discriminate E; try exact E.
  rewrite (CT _ _ E). destruct (contiguous (x :: x2 :: l)); [|exact E]. cbn [same_array r_min r_max]. split; [cbn [map] in E; congruence|].
  apply LT; [exact E|cbn [map] in E; congruence].
Qed.

Lemma named_like s s' : mlike s s' -> same_array (Some (named_of_usages db s)) (Some (named_of_usages db' s')).
Proof.
  intros X. unfold named_of_usages. rewrite (ml_count _ _ X). apply range_like.
  induction (seq 0 (length (x_usages s))) as [|k r IH]; [reflexivity|]. cbn [flat_map]. rewrite !map_app, IH. f_equal.
  pose proof (ml_usage _ _ X k) as U. destruct (x_usage db s k), (x_usage db' s' k); try contradiction; [|reflexivity]. cbn [map]. rewrite (vl_int _ _ U). reflexivity.
Qed.

Lemma named_value_like s s' i i' u u' : mlike s s' -> ilike i i' -> olike u u' ->
  same_result rebuilt (named_value db s i u (named_of_usages db s)) (named_value db' s' i' u' (named_of_usages db' s')).
Proof.
  intros X L U. unfold named_value. apply value_like. rewrite (il_class _ _ L), !(gval_like _ _ _ X) by reflexivity; rewrite (string_like _ _ _ X), (desig_like _ _ _ X).
  constructor; cbn; try reflexivity; [apply olike_list; exact U|apply named_like; exact X].
Qed.

Lemma plain_value_like s s' i i' n c : mlike s s' -> ilike i i' ->
  same_result rebuilt (plain_value db s i n c) (plain_value db' s' i' n c).
Proof.
  intros X L. unfold plain_value. apply value_like. rewrite (il_class _ _ L), !(gval_like _ _ _ X) by reflexivity; rewrite (string_like _ _ _ X), (desig_like _ _ _ X).
  constructor; cbn; try reflexivity; [apply olike_list, (ml_usage _ _ X)|exact (il_value _ _ L)|apply (ml_globals _ _ X); reflexivity].
Qed.

(* ------------------------------------------------------------------ *)
(** steps *)

Lemma set_levels_like s s' st st' c c' b : mlike s s' -> Forall2 llike st st' -> llike c c' ->
  mlike (set_levels s st c b) (set_levels s' st' c' b).
Proof. intros [] A B. constructor; cbn; auto. Qed.

Lemma add_value_like s s' v w : mlike s s' -> rebuilt v w -> mlike (add_value s v) (add_value s' w).
Proof.
  intros X R. unfold add_value. rewrite (ml_innamed _ _ X), (gval_like _ _ _ X) by reflexivity. apply set_levels_like; [exact X|exact (ml_stack _ _ X)|].
  destruct (ml_current _ _ X) as [H M]. split; [exact H|]. cbn [lv_members]. apply es_app; [exact M|]. constructor; [constructor; exact R|constructor].
Qed.

Lemma add_values_like l m : Forall2 (same_result rebuilt) l m -> forall s s', mlike s s' -> same_result mlike (add_values s l) (add_values s' m).
Proof.
  induction 1 as [|r q l m R F IH]; intros s s' X; [exact X|]. cbn [add_values].
  destruct r as [v|e], q as [w|f]; cbn [same_result] in R; try contradiction; [|exact R]. cbn [bind]. apply IH, add_value_like; assumption.
Qed.

Lemma leave_like s s' b : mlike s s' -> same_result mlike (x_leave s b) (x_leave s' b).
Proof.
  intros X. unfold x_leave. pose proof (ml_stack _ _ X) as F. destruct F as [|p p' r r' P F]; [reflexivity|]. cbn [same_result].
  rewrite (ml_innamed _ _ X). apply set_levels_like; [exact X|exact F|]. destruct P as [PH PM]. split; [exact PH|]. cbn [lv_members]. apply es_app; [exact PM|].
  destruct b; [|constructor]. destruct (ml_current _ _ X) as [CH CM]. destruct CM as [|m n ms ns E CM]; [constructor|].
  unfold close_level. destruct (lv_head (x_current s)) as [[k u]|], (lv_head (x_current s')) as [[k' u']|]; try contradiction; [|constructor].
  destruct CH as [CK CU]. constructor; [|constructor]. constructor; [exact CK|exact CU|exact (proj2 (ml_current _ _ X))].
Qed.

Lemma inside_like s s' i i' : mlike s s' -> ilike i i' -> in_named_collection db' s' i' = in_named_collection db s i.
Proof.
  intros X L. unfold in_named_collection. destruct (ml_current _ _ X) as [CH _].
  destruct (lv_head (x_current s)) as [[k u]|], (lv_head (x_current s')) as [[k' u']|]; try contradiction; [|reflexivity].
  destruct CH as [CK CU]. rewrite CK, (il_value _ _ L). destruct (_ && _); [reflexivity|]. destruct (py_int k =? 2); [|reflexivity].
  destruct u as [x|], u' as [y|]; try contradiction; [|reflexivity]. exact (vl_type _ _ CU).
Qed.

Lemma repeat_like {A} (R : A -> A -> Prop) x y n : R x y -> Forall2 R (repeat x n) (repeat y n).
Proof. intros H. induction n; constructor; auto. Qed.

Lemma data_like s s' i i' : mlike s s' -> ilike i i' -> same_result mlike (handle_data db s i) (handle_data db' s' i').
Proof.
  intros X L. unfold handle_data. rewrite !(gval_like _ _ _ X) by reflexivity. rewrite (il_value _ _ L), (il_class _ _ L), (ml_count _ _ X), (inside_like s s' i i' X L).
  destruct (negb (Z.land (ival i) fl_Constant =? 0)).
  - unfold mk_padding. set (a := VArgs _ _ _ _ _ _ _ _ _ _ _ _ _ _ _). pose proof (value_like KPadding a a ltac:(constructor; reflexivity || exact I)) as V.
    destruct (mk_value KPadding a) as [v|e]; [|reflexivity]. cbn [bind same_result]. apply add_value_like; [exact X|exact V].
  - set (mt := (Z.of_nat _ =? _)). destruct (if (_ =? 1) && mt then _ else _) as [[]|e]; [| |reflexivity]; cbn [bind].
    + pose proof (leave_like s s' false X) as LV. destruct (x_leave s false) as [s1|e], (x_leave s' false) as [s1'|f]; cbn [same_result] in LV; try contradiction; [|exact LV].
      cbn [bind]. destruct (ml_current _ _ X) as [CH CM]. destruct CM as [|m n ms ns E CM].
      2: { destruct (lv_head (x_current s)) as [[k u]|], (lv_head (x_current s')) as [[k' u']|]; reflexivity. }
      destruct (lv_head (x_current s)) as [[k u]|], (lv_head (x_current s')) as [[k' u']|]; try contradiction; [|reflexivity].
      pose proof (named_value_like s s' i i' u u' X L (proj2 CH)) as V.
      destruct (named_value db s i u _) as [v|e], (named_value db' s' i' u' _) as [w|f]; cbn [same_result] in V; try contradiction; [|exact V].
      cbn [bind same_result]. apply add_value_like; [|exact V]. apply set_levels_like; [exact LV|exact (ml_stack _ _ LV)|exact (ml_current _ _ LV)].
    + destruct ((ival i =? 0) && mt).
      * apply add_values_like; [|exact X]. apply repeat_like. apply (named_value_like s s' i i' None None X L I).
      * destruct (negb _).
        -- pose proof (plain_value_like s s' i i' 0 (gval s ReportCount) X L) as V.
           destruct (plain_value db s i 0 _) as [v|e], (plain_value db' s' i' 0 _) as [w|f]; cbn [same_result] in V; try contradiction; [|exact V].
           cbn [bind same_result]. apply add_value_like; assumption.
        -- apply add_values_like; [|exact X]. induction (seq 0 (Z.to_nat (gval s ReportCount))) as [|n r IH]; [constructor|]. cbn [map].
           constructor; [apply plain_value_like; assumption|exact IH].
Qed.

Lemma expand_like s s' mn mx l l' (R : pval -> pval -> Prop) : (forall c, option_map py_int (x_locals s' c) = option_map py_int (x_locals s c)) ->
  (forall z, R (VInt z) (VInt z)) -> Forall2 R l l' -> Forall2 R (expand s mn mx l) (expand s' mn mx l').
Proof.
  intros X RR F. unfold expand. pose proof (X mn) as A. pose proof (X mx) as B.
  destruct (x_locals s mn) as [a|], (x_locals s' mn) as [a'|]; try discriminate A; [|exact F].
  destruct (x_locals s mx) as [b|], (x_locals s' mx) as [b'|]; try discriminate B; [|exact F].
  destruct F as [|x y l l' H F]; [|constructor; assumption]. cbn [option_map] in A, B. replace (py_int a') with (py_int a) by congruence. replace (py_int b') with (py_int b) by congruence.
  induction (zrange _ _) as [|z r IH]; cbn [map]; constructor; auto.
Qed.

Lemma f2_map l l' : map py_int l' = map py_int l <-> Forall2 (fun x y => py_int y = py_int x) l l'.
Proof.
  split.
  - revert l'. induction l as [|x l IH]; intros [|y l'] E; try discriminate E; constructor; cbn [map] in E; [congruence|apply IH; congruence].
  - induction 1; cbn [map]; congruence.
Qed.

Lemma ranges_like s s' : xlike s s' -> xlike (expand_ranges s) (expand_ranges s').
Proof.
  intros X. pose proof (xl_locals _ _ X) as L. destruct X. constructor; cbn; auto.
  - apply expand_like; auto. apply int_ulike.
  - apply f2_map. apply expand_like; auto. apply f2_map. auto.
  - apply f2_map. apply expand_like; auto. apply f2_map. auto.
Qed.

Lemma xlike_main s s' : xlike s s' -> mlike s s'.
Proof. intros X. pose proof (fun n => usage_like s s' n X) as U. pose proof (like_len _ _ _ (xl_usages _ _ X)) as C. destruct X. constructor; auto. Qed.

Lemma clear_main s s' : mlike s s' -> mlike (locals_clear s) (locals_clear s').
Proof. intros []. constructor; cbn; auto. Qed.

Lemma ended_like s s' : mlike s s' -> mlike (x_ended s) (x_ended s').
Proof.
  intros X. pose proof (ml_current _ _ X) as [_ M]. destruct X. constructor; cbn; auto. constructor. apply members_like; [exact M|exact I].
Qed.

Lemma clear_like s s' : mlike s s' -> gval s' UsagePage = gval s UsagePage -> xlike (locals_clear s) (locals_clear s').
Proof. intros []. constructor; cbn; auto. Qed.

Lemma main_like s s' i i' : mlike (expand_ranges s) (expand_ranges s') -> ilike i i' -> kind_of (ic i) = Main ->
  same_result (fun a b => exists q q', mlike q q' /\ a = locals_clear q /\ b = locals_clear q') (x_append db s i) (x_append db' s' i').
Proof.
  intros Y L K. unfold x_append, ikd. rewrite (il_class _ _ L), K. pose proof (il_value _ _ L) as V. unfold ival in V.
  set (q := expand_ranges s) in *. set (q' := expand_ranges s') in *. clearbody q q'.
  assert (G : forall r r', same_result mlike r r' ->
    same_result (fun a b => exists q q', mlike q q' /\ a = locals_clear q /\ b = locals_clear q') (let* s1 := r in Ok (locals_clear s1)) (let* s1 := r' in Ok (locals_clear s1))).
  { intros [a|e] [b|f] H; cbn [same_result bind] in *; try contradiction; [exists a, b; auto|exact H]. }
  apply G. clear G. destruct (ic i) eqn:C; try (apply data_like; assumption).
  - cbn [same_result]. unfold x_enter. rewrite (ml_innamed _ _ Y). apply set_levels_like; [exact Y| |].
    + constructor; [exact (ml_current _ _ Y)|exact (ml_stack _ _ Y)].
    + split; [|constructor]. cbn [lv_head hlike]. split; [exact V|apply (ml_usage _ _ Y)].
  - rewrite (ml_innamed _ _ Y).
    assert (G : forall r r', same_result mlike r r' -> same_result mlike (let* s1 := r in Ok (match x_stack s1 with [] => x_ended s1 | _ => s1 end))
                  (let* s1 := r' in Ok (match x_stack s1 with [] => x_ended s1 | _ => s1 end))).
    { intros [a|e] [b|f] H; cbn [same_result bind] in *; try contradiction; [|exact H].
      pose proof (ml_stack _ _ H) as F. destruct F; [apply ended_like; exact H|exact H]. }
    apply G. destruct (x_innamed q).
    + cbn [same_result]. apply set_levels_like; [exact Y|exact (ml_stack _ _ Y)|exact (ml_current _ _ Y)].
    + apply leave_like. exact Y.
Qed.

Lemma append_like s s' i i' : xlike s s' -> ilike i i' -> same_result xlike (x_append db s i) (x_append db' s' i').
Proof.
  intros X L. destruct (kind_of (ic i)) eqn:K.
  - pose proof (main_like s s' i i' (xlike_main _ _ (ranges_like s s' X)) L K) as M.
    assert (K' : kind_of (ic i') = Main) by (rewrite (il_class _ _ L); exact K).
    pose proof (keeps_globals db s i) as G. pose proof (keeps_globals db' s' i') as G'. rewrite K in G. rewrite K' in G'.
    destruct (x_append db s i) as [a|e], (x_append db' s' i') as [b|f]; cbn [same_result] in *; try contradiction; [|exact M].
    specialize (G a ltac:(discriminate) eq_refl). specialize (G' b ltac:(discriminate) eq_refl).
    destruct M as [q [q' [M [-> ->]]]]. apply clear_like; [exact M|]. unfold gval. cbn [locals_clear x_globals] in G, G'. rewrite G, G'. apply (xl_page _ _ X).
  - unfold x_append, ikd. rewrite (il_class _ _ L), K. pose proof (il_value _ _ L) as V. unfold ival in V.
    cbn [same_result]. destruct X. constructor; cbn; auto; [intros c; unfold upd; destruct (icls_eqb _ _); auto|unfold upd; destruct (icls_eqb _ _); auto].
  - unfold x_append, ikd. rewrite (il_class _ _ L), K. pose proof (il_value _ _ L) as V. unfold ival in V.
    pose proof (il_usage _ _ L) as LU. destruct X. cbn [same_result].
    assert (OL : forall c k, option_map py_int (upd (x_locals s') c (Some (iv i')) k) = option_map py_int (upd (x_locals s) c (Some (iv i)) k)).
    { intros c k. unfold upd. destruct (icls_eqb _ _); [cbn; congruence|auto]. }
    destruct (ic i) eqn:C; try discriminate K; constructor; cbn; auto.
    + apply Forall2_app; [assumption|]. constructor; [apply LU; reflexivity|constructor].
    + rewrite !map_app. cbn [map]. congruence.
    + rewrite !map_app. cbn [map]. congruence.
Qed.

Lemma run_like l l' : Forall2 ilike l l' -> forall s s', xlike s s' -> same_result xlike (x_run db s l) (x_run db' s' l').
Proof.
  induction 1 as [|i i' l l' L F IH]; intros s s' X; [exact X|]. cbn [x_run]. pose proof (append_like s s' i i' X L) as A.
  destruct (x_append db s i) as [a|e], (x_append db' s' i') as [b|f]; cbn [same_result] in A; try contradiction; [|exact A]. cbn [bind]. apply IH. exact A.
Qed.

Lemma init_like : xlike xst_init xst_init.
Proof. constructor; cbn; auto. split; [exact I|constructor]. Qed.

Lemma extract_like l l' : Forall2 ilike l l' -> same_result same_tree (extract db l) (extract db' l').
Proof.
  intros F. unfold extract. pose proof (run_like l l' F _ _ init_like) as R.
  destruct (x_run db xst_init l) as [s|e], (x_run db' xst_init l') as [s'|f]; cbn [same_result] in R; try contradiction; [|exact R]. cbn [bind].
  pose proof (xl_root _ _ R) as T. destruct (x_root s), (x_root s'); try contradiction; [exact T|reflexivity].
Qed.

End Registries.
