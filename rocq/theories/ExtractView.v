(* ExtractView.v -- fields and collections of the extracted tree (C45, C47) *)
From Coq Require Import ZifyBool ZifyNat.
From Verif Require Import Py Usage Item Parser Optimizer Descriptor Extractor HidSpec ItemFacts UsageProofs StreamSpec StreamProofs ParserFacts OptFacts OptSpec ExtractSpec ExtractFacts.
Ltac Zify.zify_post_hook ::= Z.div_mod_to_equations.

(* ------------------------------------------------------------------ *)
(** local items *)

Definition is_one (d : ldecl) : Prop := match d with LOne _ => True | LRange _ _ => False end.
Definition ones (l : list ldecl) : list Z := flat_map (fun d => match d with LOne r => [lr_val r] | LRange _ _ => [] end) l.

Record trel (us : list pval) (mn mx : option pval) (t : ltab) : Prop := {
  tr_ones : map py_int us = ones (l_decls t);
  tr_none : Forall is_one (l_decls t) -> option_map py_int mn = option_map lr_val (l_min t) /\ option_map py_int mx = option_map lr_val (l_max t);
  tr_range : forall a b, l_decls t = [LRange a b] -> l_min t = None -> l_max t = None ->
    option_map py_int mn = Some (lr_val a) /\ option_map py_int mx = Some (lr_val b);
  tr_half : l_min t = None \/ l_max t = None
}.

Lemma trel_empty : trel [] None None l_empty.
Proof. split; auto. intros a b H. discriminate H. Qed.

Lemma ones_app a b : ones (a ++ b) = ones a ++ ones b.
Proof. apply flat_map_app. Qed.

Lemma trel_one us mn mx t v r : trel us mn mx t -> lr_val r = py_int v -> trel (us ++ [v]) mn mx (add_one r t).
Proof.
  intros [A B C D] E. split; cbn [add_one l_decls l_min l_max]; auto.
  - rewrite map_app, ones_app, A. cbn. rewrite E. reflexivity.
  - intros F. apply B. apply Forall_app in F. apply F.
  - intros a b H. destruct (l_decls t) as [|d [|d2 l]]; discriminate H.
Qed.

Lemma trel_min us mn mx t v r : trel us mn mx t -> lr_val r = py_int v -> trel us (Some v) mx (add_min r t).
Proof.
  intros [A B C D] E. unfold add_min. destruct (l_max t) as [q|] eqn:EM; split; cbn [l_decls l_min l_max]; auto.
  - rewrite ones_app, A. cbn. rewrite app_nil_r. reflexivity.
  - intros F. apply Forall_app in F. destruct F as [_ F]. inversion F as [|? ? F1 _]. destruct F1.
  - intros a b H _ _. destruct (l_decls t) as [|d l] eqn:ED; [|destruct l; discriminate H]. injection H as <- <-.
    destruct (B (Forall_nil _)) as [B1 B2]. rewrite B2. cbn. rewrite E. auto.
  - intros F. destruct (B F) as [B1 B2]. split; [cbn; rewrite E; reflexivity|exact B2].
  - intros a b H F. discriminate F.
Qed.

Lemma trel_max us mn mx t v r : trel us mn mx t -> lr_val r = py_int v -> trel us mn (Some v) (add_max r t).
Proof.
  intros [A B C D] E. unfold add_max. destruct (l_min t) as [q|] eqn:EM; split; cbn [l_decls l_min l_max]; auto.
  - rewrite ones_app, A. cbn. rewrite app_nil_r. reflexivity.
  - intros F. apply Forall_app in F. destruct F as [_ F]. inversion F as [|? ? F1 _]. destruct F1.
  - intros a b H _ _. destruct (l_decls t) as [|d l] eqn:ED; [|destruct l; discriminate H]. injection H as <- <-.
    destruct (B (Forall_nil _)) as [B1 B2]. rewrite B1. cbn. rewrite E. auto.
  - intros F. destruct (B F) as [B1 B2]. split; [exact B1|cbn; rewrite E; reflexivity].
  - intros a b H _ F. discriminate F.
Qed.

(** every reference of a table *)
Definition refs (P : lref -> Prop) (t : ltab) : Prop :=
  Forall (fun d => match d with LOne r => P r | LRange a b => P a /\ P b end) (l_decls t) /\
  (forall r, l_min t = Some r -> P r) /\ (forall r, l_max t = Some r -> P r).

Lemma refs_empty P : refs P l_empty.
Proof. split; [constructor|]. split; intros r H; discriminate H. Qed.

Lemma refs_one (P : lref -> Prop) r t : P r -> refs P t -> refs P (add_one r t).
Proof. intros H [A [B C]]. split; [|split; assumption]. apply Forall_app. split; [exact A|repeat constructor; exact H]. Qed.
Lemma refs_min (P : lref -> Prop) r t : P r -> refs P t -> refs P (add_min r t).
Proof.
  intros H [A [B C]]. unfold add_min. destruct (l_max t) as [q|] eqn:E; split; cbn [l_decls l_min l_max]; auto.
  - apply Forall_app. split; [exact A|]. repeat constructor; auto.
  - split; discriminate.
  - split; [|discriminate]. intros r' E'. injection E' as <-. exact H.
Qed.
Lemma refs_max (P : lref -> Prop) r t : P r -> refs P t -> refs P (add_max r t).
Proof.
  intros H [A [B C]]. unfold add_max. destruct (l_min t) as [q|] eqn:E; split; cbn [l_decls l_min l_max]; auto.
  - apply Forall_app. split; [exact A|]. repeat constructor; auto.
  - split; discriminate.
  - split; [discriminate|]. intros r' E'. injection E' as <-. exact H.
Qed.

Definition usage_ref (r : lref) : Prop := lr_abs r = (65536 <=? lr_val r) /\ 0 <= lr_val r.
Definition plain_ref (r : lref) : Prop := lr_abs r = true.

(** the list used by the Extractor *)
Definition expanded (us : list pval) (mn mx : option pval) : list pval :=
  match mn, mx, us with
  | Some a, Some b, [] => map VInt (zrange (py_int a) (py_int b + 1))
  | _, _, _ => us
  end.

Lemma zrange_upto a b : zrange a (b + 1) = upto a b.
Proof. unfold zrange, upto. f_equal. f_equal. f_equal. lia. Qed.

Lemma map_vint l : map py_int (map VInt l) = l.
Proof. rewrite map_map. apply map_id. Qed.

Lemma expanded_ones us mn mx t : trel us mn mx t -> Forall is_one (l_decls t) -> map py_int (expanded us mn mx) = ones (l_decls t).
Proof.
  intros [A B C D] F. destruct (B F) as [B1 B2]. rewrite <- A. unfold expanded.
  destruct mn as [a|]; [|reflexivity]. destruct mx as [b|]; [|reflexivity]. cbn in B1, B2.
  destruct D as [D|D]; rewrite D in *; discriminate.
Qed.

Lemma expanded_range us mn mx t a b : trel us mn mx t -> l_decls t = [LRange a b] -> l_min t = None -> l_max t = None ->
  map py_int (expanded us mn mx) = upto (lr_val a) (lr_val b).
Proof.
  intros [A B C D] E N1 N2. destruct (C a b E N1 N2) as [C1 C2]. rewrite E in A. cbn in A. destruct us; [|discriminate A].
  destruct mn as [p|]; [|discriminate C1]. destruct mx as [q|]; [|discriminate C2]. cbn in C1, C2. injection C1 as C1. injection C2 as C2.
  cbn [expanded]. rewrite map_vint, C1, C2. apply zrange_upto.
Qed.

(** the number of a usage with its page *)
Definition with_page (page u : Z) : Z := if negb (Z.shiftr u 16 =? 0) then u else Z.lor (Z.shiftl page 16) u.

Lemma with_page_val page u : 0 <= u -> with_page page u = if 65536 <=? u then u else page * 65536 + u.
Proof.
  intros H. unfold with_page. rewrite shiftr_16_zero by exact H. destruct (65536 <=? u) eqn:E.
  - replace (u <? 65536) with false by lia. reflexivity.
  - replace (u <? 65536) with true by lia. cbn [negb]. apply lor_page. lia.
Qed.

Lemma resolve_usage page r : usage_ref r -> resolve AtMain page r = with_page page (lr_val r).
Proof. intros [A B]. unfold resolve. rewrite with_page_val by exact B. rewrite A. reflexivity. Qed.

Lemma upto_map f a b a' : (forall k, 0 <= k -> a + k <= b -> f (a + k) = a' + k) -> map f (upto a b) = upto a' (a' + (b - a)).
Proof.
  intros H. unfold upto. rewrite map_map. replace (a' + (b - a) - a' + 1) with (b - a + 1) by lia.
  apply map_ext_in. intros k I. apply in_seq in I. apply H; lia.
Qed.

Lemma values_usages us mn mx t page : trel us mn mx t -> simple_tab t -> refs usage_ref t ->
  map (with_page page) (map py_int (expanded us mn mx)) = values AtMain page t.
Proof.
  intros T [S|[a [b [E [N1 [N2 AB]]]]]] [R _].
  - rewrite (expanded_ones _ _ _ _ T S). unfold values, ones. clear T. induction (l_decls t) as [|d l IH]; [reflexivity|].
    inversion S as [|? ? S1 S2]; subst. inversion R as [|? ? R1 R2]; subst. destruct d as [r|]; [|destruct S1]. cbn [flat_map app map resolve_decl].
    rewrite IH by auto. rewrite (resolve_usage page r R1). reflexivity.
  - rewrite (expanded_range _ _ _ _ _ _ T E N1 N2). unfold values. rewrite E in *. cbn [flat_map resolve_decl]. rewrite app_nil_r.
    inversion R as [|? ? R1 _]; subst. destruct R1 as [RA RB]. destruct RA as [A1 A2], RB as [B1 B2]. rewrite (resolve_usage page a), (resolve_usage page b) by (split; assumption).
    rewrite !with_page_val by assumption. rewrite <- A1, <- B1, <- AB. rewrite <- AB in B1. destruct (lr_abs a); symmetry in A1, B1.
    + rewrite (upto_map _ _ _ (lr_val a)); [f_equal; lia|]. intros k K1 K2. rewrite with_page_val by lia. replace (65536 <=? lr_val a + k) with true by lia. reflexivity.
    + rewrite (upto_map _ _ _ (page * 65536 + lr_val a)); [f_equal; lia|]. intros k K1 K2. rewrite with_page_val by lia.
      replace (65536 <=? lr_val a + k) with false by lia. lia.
Qed.

Lemma values_plain us mn mx t page m : trel us mn mx t -> simple_tab t -> refs plain_ref t ->
  map py_int (expanded us mn mx) = values m page t.
Proof.
  intros T [S|[a [b [E [N1 [N2 AB]]]]]] [R _].
  - rewrite (expanded_ones _ _ _ _ T S). unfold values, ones. clear T. induction (l_decls t) as [|d l IH]; [reflexivity|].
    inversion S as [|? ? S1 S2]; subst. inversion R as [|? ? R1 R2]; subst. destruct d as [r|]; [|destruct S1]. cbn [flat_map app map resolve_decl].
    rewrite IH by auto. unfold resolve. rewrite R1. reflexivity.
  - rewrite (expanded_range _ _ _ _ _ _ T E N1 N2). unfold values. rewrite E in *. cbn [flat_map resolve_decl]. rewrite app_nil_r.
    inversion R as [|? ? R1 _]; subst. destruct R1 as [A1 B1]. unfold resolve. rewrite A1, B1. reflexivity.
Qed.

Lemma nth_error_last {A} (l : list A) d : l <> [] -> nth_error l (length l - 1) = Some (last l d).
Proof.
  induction l as [|x l IH]; intros H; [congruence|]. destruct l as [|y l]; [reflexivity|].
  cbn [length] in *. replace (S (S (length l)) - 1)%nat with (S (S (length l) - 1))%nat by lia. cbn [nth_error]. rewrite IH by discriminate. reflexivity.
Qed.

Lemma last_repeat_map {A} (f : A -> Z) (l : list A) k : option_map f (last_repeat l k) = nth_last (map f l) k.
Proof.
  unfold last_repeat. destruct l as [|x l]; [destruct k; reflexivity|]. set (L := x :: l).
  assert (N : L <> []) by discriminate.
  assert (E : nth_last (map f L) k = Some (nth k (map f L) (last (map f L) (f x)))) by reflexivity. rewrite E. clear E.
  destruct (Nat.ltb_spec k (length L)).
  - replace (Nat.min (length L - 1) k) with k by lia. rewrite (nth_error_nth' L x H). cbn [option_map]. f_equal.
    rewrite (nth_indep _ _ (f x)) by (rewrite map_length; exact H). symmetry. apply map_nth.
  - replace (Nat.min (length L - 1) k) with (length L - 1)%nat by lia. rewrite (nth_error_last L x N). cbn [option_map]. f_equal.
    rewrite nth_overflow by (rewrite map_length; exact H). clear - N. induction L as [|y L IH]; [congruence|].
    destruct L as [|z L]; [reflexivity|]. cbn [map last] in *. apply IH. discriminate.
Qed.

(* ------------------------------------------------------------------ *)
(** the local state of the Extractor *)

Record lrel (s : xst) (x : locals) : Prop := {
  lr_us : trel (x_usages s) (x_locals s UsageMinimum) (x_locals s UsageMaximum) (lo_us x);
  lr_ds : trel (x_designators s) (x_locals s DesignatorMinimum) (x_locals s DesignatorMaximum) (lo_ds x);
  lr_ss : trel (x_strings s) (x_locals s StringMinimum) (x_locals s StringMaximum) (lo_ss x);
  lr_rus : refs usage_ref (lo_us x);
  lr_rds : refs plain_ref (lo_ds x);
  lr_rss : refs plain_ref (lo_ss x)
}.

Lemma lrel_clear s : lrel (locals_clear s) lo_init.
Proof. split; try apply trel_empty; apply refs_empty. Qed.

Lemma lrel_init : lrel xst_init lo_init.
Proof. split; try apply trel_empty; apply refs_empty. Qed.

Lemma lrel_step db s i s' x page : constructed i -> kind_of (ic i) = Local -> lrel s x -> x_append db s i = Ok s' ->
  lrel s' (lo_set (ic i) (ival i) (Nat.eqb (payload_width i) 4) page x).
Proof.
  intros C K [U D S RU RD RS] H. unfold x_append, ikd in H. rewrite K in H. injection H as <-.
  assert (UR : usage_tag (ic i) = true -> usage_ref (LR page (Nat.eqb (payload_width i) 4) (ival i))).
  { intros T. assert (NS : signed (ic i) = false) by (destruct (ic i); try discriminate T; reflexivity).
    destruct (constructed_facts i C) as [[F|F] _]; [congruence|]. split; cbn [lr_abs lr_val]; [|exact F].
    apply payload_width_4; auto. }
  destruct x as [us ds ss dl]. cbn [lo_us lo_ds lo_ss] in *.
  destruct (ic i) eqn:EC; try discriminate K; cbn [lo_set]; (split; cbn [lo_us lo_ds lo_ss x_usages x_strings x_designators x_locals]);
    try exact U; try exact D; try exact S; try exact RU; try exact RD; try exact RS; unfold upd;
    repeat match goal with |- context [icls_eqb ?a ?b] => let y := eval vm_compute in (icls_eqb a b) in change (icls_eqb a b) with y end; cbv iota;
    first [apply trel_one; [assumption|reflexivity] | eapply trel_min; [eassumption|reflexivity] | eapply trel_max; [eassumption|reflexivity]
          |apply refs_one; [first [exact (UR eq_refl)|exact eq_refl]|assumption]
          |apply refs_min; [first [exact (UR eq_refl)|exact eq_refl]|assumption]
          |apply refs_max; [first [exact (UR eq_refl)|exact eq_refl]|assumption]].
Qed.

(** what the Extractor looks up at a main item *)
Lemma x_usage_nth db s x g k : lrel s x -> agree s g -> simple_tab (lo_us x) ->
  option_map py_int (x_usage db (expand_ranges s) k) = nth_last (values AtMain (g_page g) (lo_us x)) k /\
  length (x_usages (expand_ranges s)) = length (values AtMain (g_page g) (lo_us x)) /\
  usage_list (x_usage db (expand_ranges s) k) = match nth_last (values AtMain (g_page g) (lo_us x)) k with Some u => [u] | None => [] end.
Proof.
  intros L A SI. pose proof (values_usages _ _ _ _ (g_page g) (lr_us _ _ L) SI (lr_rus _ _ L)) as V.
  change (expanded _ _ _) with (x_usages (expand_ranges s)) in V.
  assert (PG : gval (expand_ranges s) UsagePage = g_page g) by apply (ag_page _ _ A).
  assert (E1 : option_map py_int (x_usage db (expand_ranges s) k) = nth_last (values AtMain (g_page g) (lo_us x)) k).
  { rewrite <- V, map_map. rewrite <- (last_repeat_map (fun u => with_page (g_page g) (py_int u))). unfold x_usage. rewrite PG.
    destruct (last_repeat (x_usages (expand_ranges s)) k) as [u|]; [|reflexivity]. cbn [option_map]. unfold with_page.
    destruct (negb _); cbn [option_map]; [reflexivity|]. rewrite lookup_int. reflexivity. }
  split; [exact E1|]. split; [rewrite <- V, !map_length; reflexivity|]. rewrite <- E1. unfold x_usage.
  destruct (last_repeat (x_usages (expand_ranges s)) k) as [u|]; [|reflexivity].
  destruct (negb (Z.shiftr (py_int u) 16 =? 0)) eqn:Q.
  - cbn [option_map]. destruct u as [z| |]; try reflexivity. cbn [usage_list py_int] in *. destruct (z =? 0) eqn:Z0; [|reflexivity].
    replace z with 0 in Q by lia. discriminate Q.
  - match goal with |- context [lookup db ?v] => destruct (lookup_usage db v) as [n [z [ks EL]]]; rewrite EL end. reflexivity.
Qed.

Lemma last_in {A} (L : list A) d : L <> [] -> In (last L d) L.
Proof.
  induction L as [|b L IH]; intros N; [congruence|]. cbn [last]. destruct L as [|c L]; [left; reflexivity|]. right. apply IH. discriminate.
Qed.

Lemma nth_last_in l k z : nth_last l k = Some z -> In z l.
Proof.
  destruct l as [|a l]; [discriminate|]. set (L := a :: l). intros E. change (Some (nth k L (last L a)) = Some z) in E.
  assert (E' : nth k L (last L a) = z) by congruence. rewrite <- E'. clear E E'. assert (N : L <> []) by discriminate. clearbody L.
  destruct (Nat.ltb_spec k (length L)); [apply nth_In; exact H|]. rewrite nth_overflow by exact H. apply last_in. exact N.
Qed.

Lemma index_or0 l k : nonzero l -> index (match nth_last l k with None => 0 | Some v => v end) = nth_last l k.
Proof.
  intros N. destruct (nth_last l k) as [z|] eqn:E; [|reflexivity]. unfold index. destruct (z =? 0) eqn:Q; [|reflexivity]. exfalso.
  apply nth_last_in in E. unfold nonzero in N. rewrite Forall_forall in N. specialize (N z E). lia.
Qed.

Lemma x_string_nth s x g k m : lrel s x -> simple_tab (lo_ss x) -> nonzero (values m (g_page g) (lo_ss x)) ->
  index (x_string (expand_ranges s) k) = nth_last (values m (g_page g) (lo_ss x)) k.
Proof.
  intros L SI N. pose proof (values_plain _ _ _ _ (g_page g) m (lr_ss _ _ L) SI (lr_rss _ _ L)) as V.
  change (expanded _ _ _) with (x_strings (expand_ranges s)) in V. rewrite <- V in *. rewrite <- (index_or0 _ k N).
  rewrite <- (last_repeat_map py_int). unfold x_string. destruct (last_repeat (x_strings (expand_ranges s)) k); reflexivity.
Qed.

Lemma x_desig_nth s x g k m : lrel s x -> simple_tab (lo_ds x) -> nonzero (values m (g_page g) (lo_ds x)) ->
  index (x_designator (expand_ranges s) k) = nth_last (values m (g_page g) (lo_ds x)) k.
Proof.
  intros L SI N. pose proof (values_plain _ _ _ _ (g_page g) m (lr_ds _ _ L) SI (lr_rds _ _ L)) as V.
  change (expanded _ _ _) with (x_designators (expand_ranges s)) in V. rewrite <- V in *. rewrite <- (index_or0 _ k N).
  rewrite <- (last_repeat_map py_int). unfold x_designator. destruct (last_repeat (x_designators (expand_ranges s)) k); reflexivity.
Qed.

(* ------------------------------------------------------------------ *)
(** values *)

(** what is fixed at a data item *)
Record at_data (db : udb) (s : xst) (i : item) (g : gtab) (x : locals) : Prop := {
  ad_agree : agree s g; ad_lrel : lrel s x; ad_data : data_tag (ic i) = true;
  ad_us : simple_tab (lo_us x); ad_ds : simple_tab (lo_ds x); ad_ss : simple_tab (lo_ss x);
  ad_nd : nonzero (values AtMain (g_page g) (lo_ds x)); ad_ns : nonzero (values AtMain (g_page g) (lo_ss x));
  ad_data_flags : is_constant (ival i) = false
}.

Definition opt_list (o : option Z) : list Z := match o with Some u => [u] | None => [] end.

Lemma nth_last_opt o k : nth_last (opt_list o) k = o.
Proof. destruct o as [u|]; [|reflexivity]. destruct k as [|[|k]]; reflexivity. Qed.


Lemma plain_value_ok db s i n count : exists v, plain_value db s i n count = Ok v /\
  v_kind v = KValue /\ v_way v = VNamed (tag_name (ic i)) (tag_of (ic i)) /\ v_usage v = x_usage db s n /\ v_size v = gval s ReportSize /\
  v_flags v = iv i /\ v_lmin v = Some (gval s LogicalMinimum) /\ v_lmax v = Some (gval s LogicalMaximum) /\ v_named v = None /\
  v_unit v = x_globals s Unit /\ v_uexp v = gval s UnitExponent /\ v_desig v = x_designator s n /\ v_str v = x_string s n /\
  v_count v = count /\
  (or0 (v_pmin v), or0 (v_pmax v)) = effective (gval s PhysicalMinimum) (gval s PhysicalMaximum) (gval s LogicalMinimum) (gval s LogicalMaximum).
Proof.
  unfold plain_value, mk_value. cbn [a_align a_named narr_truthy bind a_lmax a_lmin orb andb a_pmin a_pmax zero_or_none].
  unfold effective. destruct ((gval s PhysicalMinimum =? 0) && (gval s PhysicalMaximum =? 0)); eexists; repeat split.
Qed.

Lemma plain_value_events db s i g x n count v : at_data db s i g x -> plain_value db (expand_ranges s) i n count = Ok v ->
  let us := values AtMain (g_page g) (lo_us x) in
  let ds := values AtMain (g_page g) (lo_ds x) in
  let ss := values AtMain (g_page g) (lo_ss x) in
  let a := mk_attrs g (ic i) (ival i) in
  let sel := Z.to_nat (g_lmax g - g_lmin g + 1) in
  v_kind v = KValue /\ v_count v = count /\
  value_events (g_rid g) v =
    if is_variable (ival i)
    then map (fun _ => EvVar a (nth_last us n) (nth_last ds n) (nth_last ss n) []) (seq 0 (Z.to_nat count))
    else repeat (EvArr a (firstn sel (opt_list (nth_last us n))) (repeat (nth_last ds n) sel) (repeat (nth_last ss n) sel) []) (Z.to_nat count).
Proof.
  intros [A L D U DS SS ND NS NC] H us ds ss a sel.
  destruct (plain_value_ok db (expand_ranges s) i n count) as [v' [E [K [W [VU [SZ [FL [LM [LX [NA [UN [UE [DE [ST [CT PH]]]]]]]]]]]]]]].
  rewrite E in H. injection H as ->. split; [exact K|]. split; [exact CT|].
  assert (AR : is_array v = false) by (unfold is_array; rewrite NA; reflexivity).
  assert (AT : value_attrs (g_rid g) v = a).
  { unfold value_attrs, a, mk_attrs. rewrite AR, W, FL, SZ, LM, LX, UN, UE. cbn [py_int or0]. rewrite (way_tag _ D).
    change (gval (expand_ranges s)) with (gval s). change (x_globals (expand_ranges s)) with (x_globals s). change (gval (expand_ranges s)) with (gval s) in PH.
    rewrite (ag_pmin _ _ A), (ag_pmax _ _ A), (ag_lmin _ _ A), (ag_lmax _ _ A) in PH. rewrite <- PH. cbn [fst snd].
    rewrite (ag_lmin _ _ A), (ag_lmax _ _ A), (ag_size _ _ A), (ag_uexp _ _ A), <- (ag_unit _ _ A). reflexivity. }
  unfold value_events. rewrite AT, AR. rewrite FL, DE, ST, CT, VU. fold (ival i). rewrite NC.
  destruct (x_usage_nth db s x g n L A U) as [_ [_ UL]]. rewrite UL. fold us. fold (opt_list (nth_last us n)).
  rewrite (x_desig_nth s x g n AtMain L DS ND), (x_string_nth s x g n AtMain L SS NS). fold ds ss.
  change (f_lmax a - f_lmin a + 1) with (g_lmax g - g_lmin g + 1). fold sel.
  destruct (is_variable (ival i)); [|reflexivity].
  apply map_ext. intros k. rewrite nth_last_opt. reflexivity.
Qed.

Lemma named_list db s x g : lrel s x -> agree s g -> simple_tab (lo_us x) ->
  array_usages (Some (named_of_usages db (expand_ranges s))) = values AtMain (g_page g) (lo_us x).
Proof.
  intros L A U. unfold named_of_usages. set (s0 := expand_ranges s).
  set (l := flat_map _ _).
  assert (E : map py_int l = values AtMain (g_page g) (lo_us x)).
  { subst l. destruct (x_usage_nth db s x g 0 L A U) as [_ [LEN _]]. fold s0 in LEN. rewrite LEN.
    set (us := values AtMain (g_page g) (lo_us x)) in *.
    assert (Q : forall k, (k < length us)%nat -> exists u, x_usage db s0 k = Some u /\ py_int u = nth k us 0).
    { intros k Hk. destruct (x_usage_nth db s x g k L A U) as [E _]. fold s0 us in E.
      destruct us as [|a us']; [cbn in Hk; lia|]. change (nth_last (a :: us') k) with (Some (nth k (a :: us') (last (a :: us') a))) in E.
      destruct (x_usage db s0 k) as [u|]; [|discriminate E]. exists u. split; [reflexivity|].
      cbn [option_map] in E. assert (E' : py_int u = nth k (a :: us') (last (a :: us') a)) by congruence. rewrite E'. apply nth_indep. exact Hk. }
    clearbody us. clear LEN. assert (G : forall m st, (st + m <= length us)%nat ->
       map py_int (flat_map (fun k => match x_usage db s0 k with Some u => [u] | None => [] end) (seq st m)) = firstn m (skipn st us)).
    { induction m as [|m IH]; intros st Hm; [reflexivity|]. cbn [seq flat_map]. destruct (Q st ltac:(lia)) as [u [E1 E2]]. rewrite E1. cbn [app map].
      rewrite IH by lia. rewrite E2. clear - Hm. revert us Hm. induction st as [|st IHs]; intros us Hm.
      - destruct us as [|b us]; [cbn in Hm; lia|]. reflexivity.
      - destruct us as [|b us]; [cbn in Hm; lia|]. cbn [skipn nth]. apply IHs. cbn in Hm. lia. }
    rewrite G by lia. cbn [skipn]. apply firstn_all. }
  destruct (from_array l) as [r|e] eqn:F; [|exact E].
  rewrite <- E. rewrite <- (c17_back db l r F). symmetry. apply (narr_iter_ints db (NRange r)).
Qed.

Lemma named_value_events db s i g x v : at_data db s i g x ->
  Z.of_nat (length (values AtMain (g_page g) (lo_us x))) = g_lmax g - g_lmin g + 1 ->
  ival i = 0 -> g_unit g = 0 -> g_uexp g = 0 -> effective (g_pmin g) (g_pmax g) (g_lmin g) (g_lmax g) = (g_lmin g, g_lmax g) ->
  named_value db (expand_ranges s) i None (named_of_usages db (expand_ranges s)) = Ok v ->
  let us := values AtMain (g_page g) (lo_us x) in
  let ds := values AtMain (g_page g) (lo_ds x) in
  let ss := values AtMain (g_page g) (lo_ss x) in
  let sel := Z.to_nat (g_lmax g - g_lmin g + 1) in
  v_kind v = KValue /\
  value_events (g_rid g) v =
    [EvArr (mk_attrs g (ic i) (ival i)) (firstn sel us) (repeat (nth_last ds 0) sel) (repeat (nth_last ss 0) sel) []].
Proof.
  intros [A L D U DS SS ND NS NC] SP F0 U0 E0 EF H us ds ss sel.
  pose proof (named_list db s x g L A U) as NL. fold us in NL. fold us in SP.
  pose proof H as HM. apply mk_value_fields in H. cbn [a_way a_usage a_size a_count a_named a_unit a_uexp a_desig a_str a_lmin] in H.
  destruct H as [K [W [VU [SZ [CT [NA [UN [UE [DE [ST LM]]]]]]]]]]. split; [exact K|].
  assert (NE : us <> []).
  { intros EN. unfold named_value, mk_value in HM. cbn [a_named a_lmax a_lmin a_flags orb] in HM.
    destruct (narr_truthy (Some (named_of_usages db (expand_ranges s)))) as [b|e] eqn:T; [|discriminate HM].
    assert (b = false).
    { destruct (truthy_array _ _ T) as [[-> _]|[-> [y [EY [_ P]]]]]; [reflexivity|]. injection EY as <-.
      rewrite (array_size_length _ P), NL, EN in P. cbn in P. lia. }
    subst b. discriminate HM. }
  assert (MD : made v) by (exists KValue; eexists; exact HM).
  assert (AR : is_array v = true) by (unfold is_array; rewrite NA, NL; destruct us; [congruence|reflexivity]).
  assert (FLX : py_int (v_flags v) = 0 /\ v_lmax v = Some (g_lmax g)).
  { assert (NN : ~ no_array (Some (named_of_usages db (expand_ranges s)))) by (intros Q; apply no_array_usages in Q; congruence).
    destruct (c22_array _ _ _ (named_of_usages db (expand_ranges s)) HM eq_refl NN) as [lo [L1 [L2 [P [F1 _]]]]].
    split; [apply F1; left; reflexivity|]. rewrite L2, (array_size_length _ P), NL, SP. rewrite LM in L1. injection L1 as <-.
    change (gval (expand_ranges s)) with (gval s). rewrite (ag_lmin _ _ A). f_equal. lia. }
  destruct FLX as [FL LX].
  assert (AT : value_attrs (g_rid g) v = mk_attrs g (ic i) (ival i)).
  { unfold value_attrs, mk_attrs. rewrite AR, W, FL, SZ, LM, LX, UN, UE, EF, F0, U0, E0. cbn [py_int or0 fst snd]. rewrite (way_tag _ D).
    change (gval (expand_ranges s)) with (gval s). rewrite (ag_lmin _ _ A), (ag_size _ _ A). reflexivity. }
  unfold value_events. rewrite AT, AR, FL, DE, ST, CT, VU, NA, NL. cbn [usage_list].
  rewrite (x_desig_nth s x g 0 AtMain L DS ND), (x_string_nth s x g 0 AtMain L SS NS). fold ds ss. reflexivity.
Qed.

(** the fields of one value *)
Definition field_ok (r : Z) (v : value) (fs : list event) : Prop := fields_of [(r, v)] fs /\ forallb is_field fs = true.

Lemma one_value r v fs : v_kind v = KValue -> value_events r v = fs -> forallb is_field fs = true -> field_ok r v fs.
Proof.
  intros K E F. split; [|exact F]. rewrite <- E, <- (app_nil_r (value_events r v)). apply fi_val; [exact K|constructor].
Qed.

Lemma few_nth l k : at_most_one l -> nth_last l k = nth_last l 0.
Proof. unfold at_most_one. destruct l as [|a [|b l]]; cbn; try lia; [reflexivity|]. intros _. destruct k as [|[|k]]; reflexivity. Qed.

Lemma few_opt l k : at_most_one l -> opt_list (nth_last l k) = l.
Proof. intros F. rewrite few_nth by exact F. unfold at_most_one in F. destruct l as [|a [|b l]]; cbn in *; try lia; reflexivity. Qed.

Lemma few_map l n : at_most_one l -> map (nth_last l) (seq 0 n) = repeat (nth_last l 0) n.
Proof.
  intros F. generalize 0%nat at 1 as st. induction n as [|n IH]; intros st; [reflexivity|]. cbn [seq map repeat]. rewrite few_nth by exact F. f_equal. apply IH.
Qed.

Lemma concat_singles {A} (l : list A) : concat (map (fun x => [x]) l) = l.
Proof. induction l as [|x l IH]; [reflexivity|]. cbn. rewrite IH. reflexivity. Qed.

Lemma forallb_repeat {A} (p : A -> bool) x n : p x = true -> forallb p (repeat x n) = true.
Proof. intros H. induction n; cbn; rewrite ?H; auto. Qed.

Definition kinds (s : xst) : list Z :=
  flat_map (fun l => match lv_head l with Some (k, _) => [py_int k] | None => [] end) (x_current s :: x_stack s).

(** a data item gives values with its fields *)
Definition gives (s s' : xst) (r : Z) (ev : list event) : Prop :=
  exists vs fss, Forall2 (field_ok r) vs fss /\ concat fss = ev /\
    open_leaves s' = open_leaves s ++ map (fun v => LVal r v) vs.

Lemma gives_one s v r ev : gval s ReportID = r -> field_ok r v ev -> gives s (add_value s v) r ev.
Proof.
  intros R F. exists [v], [ev]. split; [repeat constructor; apply F|]. split; [cbn; apply app_nil_r|].
  rewrite add_value_leaves, R. reflexivity.
Qed.

Lemma gives_list {B} s s' r (f : B -> result value) (g : B -> list event) l ev : gval s ReportID = r ->
  add_values s (map f l) = Ok s' -> (forall b v, In b l -> f b = Ok v -> field_ok r v (g b)) -> concat (map g l) = ev ->
  gives s s' r ev.
Proof.
  intros R H F E. apply add_values_spec in H. destruct H as [vs [EV [_ [_ [_ [_ [_ L]]]]]]].
  exists vs, (map g l). split; [|split; [exact E|rewrite L, R; reflexivity]].
  clear - EV F. revert vs EV. induction l as [|b l IH]; intros [|v vs] EV; try discriminate EV; [constructor|].
  cbn [map] in EV. injection EV as E1 E2. constructor; [apply F; [left; reflexivity|exact E1]|]. apply IH; [|exact E2].
  intros b' v' I. apply F. right. exact I.
Qed.

Lemma repeat_map {A} (y : A) n : forall st, repeat y n = map (fun _ => y) (seq st n).
Proof. induction n as [|n IH]; intros st; [reflexivity|]. cbn [repeat seq map]. rewrite <- IH. reflexivity. Qed.

Lemma handle_plain db s i s' g x : heads (x_current s) (x_stack s) -> agree s g -> lrel s x -> data_tag (ic i) = true -> 0 <= g_count g ->
  plain_data (kinds s) (g, x, ic i, ival i) -> handle_data db (expand_ranges s) i = Ok s' ->
  gives (expand_ranges s) s' (g_rid g) (data_events AtMain g x (ic i) (ival i)) /\
  x_stack s' = x_stack s /\ x_innamed s' = x_innamed s /\ lv_head (x_current s') = lv_head (x_current s).
Proof.
  intros HD0 A L D NC PD H. set (s0 := expand_ranges s) in *.
  assert (RID : gval s0 ReportID = g_rid g) by apply (ag_rid _ _ A).
  assert (GV : forall c, gval s0 c = gval s c) by reflexivity.
  unfold handle_data in H. rewrite odd_land, negb_involutive in H. unfold data_events.
  destruct (is_constant (ival i)) eqn:CO.
  - destruct (mk_padding _ _) as [v|e] eqn:EV; [|discriminate H]. cbn [bind] in H. injection H as <-.
    split; [|auto]. apply mk_value_fields in EV. cbn [a_way a_size] in EV. destruct EV as [K [W [_ [SZ _]]]].
    apply gives_one; [exact RID|]. split; [|apply forallb_repeat; reflexivity].
    rewrite <- (app_nil_r (repeat _ _)). pose proof (way_tag _ D) as WT.
    replace (ic i) with (way_class (py_int (v_way v))) at 1 by (rewrite W; exact WT).
    apply fi_pad; [exact K| |constructor]. rewrite SZ, !GV, (ag_size _ _ A), (ag_count _ _ A), Z2Nat.id by exact NC. ring.
  - destruct (PD CO) as [SU [SD [SS [DL [ND [NS [NAMED PD2]]]]]]]. rewrite DL.
    assert (AD : at_data db s i g x) by (split; auto).
    set (us := values AtMain (g_page g) (lo_us x)) in *. set (ds := values AtMain (g_page g) (lo_ds x)) in *. set (ss := values AtMain (g_page g) (lo_ss x)) in *.
    set (a := mk_attrs g (ic i) (ival i)). set (sel := Z.to_nat (g_lmax g - g_lmin g + 1)) in *. set (n := Z.to_nat (g_count g)).
    destruct (x_usage_nth db s x g 0 L A SU) as [_ [LEN _]]. fold s0 us in LEN.
    rewrite LEN, !GV, (ag_count _ _ A), (ag_lmax _ _ A), (ag_lmin _ _ A) in H.
    set (matches := Z.of_nat (length us) =? g_lmax g - g_lmin g + 1) in *.
    assert (NI : (if (g_count g =? 1) && matches then in_named_collection db s0 i else Ok false) = Ok false).
    { destruct ((g_count g =? 1) && matches) eqn:Q; [|reflexivity]. apply andb_true_iff in Q. destruct Q as [Q1 Q2].
      destruct NAMED as [k [o [OP [K2 K4]]]]; [lia|unfold matches in Q2; lia|]. unfold in_named_collection.
      change (x_current s0) with (x_current s). unfold kinds in OP. cbn [flat_map] in OP.
      destruct (lv_head (x_current s)) as [[kk uu]|] eqn:HD.
      - cbn [app] in OP. injection OP as <- _. replace (py_int kk =? 4) with false by lia. rewrite andb_false_r. replace (py_int kk =? 2) with false by lia. reflexivity.
      - destruct (x_stack s) as [|p r]; [discriminate OP|]. destruct HD0 as [HD0 _]. congruence. }
    rewrite NI in H. cbn [bind] in H.
    destruct ((ival i =? 0) && matches) eqn:Q0.
    + (* named values *)
      apply andb_true_iff in Q0. destruct Q0 as [Q1 Q2]. assert (F0 : ival i = 0) by lia. unfold matches in Q2.
      assert (VF : is_variable (ival i) = false) by (rewrite F0; reflexivity). rewrite VF in *.
      destruct PD2 as [MD [MS [PH _]]]. destruct (PH F0 ltac:(lia)) as [U0 [E0 EF]].
      split; [|apply add_values_spec in H; destruct H as [vs [_ [_ [H1 [H2 [H3 _]]]]]]; auto].
      rewrite (repeat_map _ n 0) in H.
      eapply (gives_list s0 s' (g_rid g) _ (fun _ => [EvArr a (firstn sel us) (repeat (nth_last ds 0) sel) (repeat (nth_last ss 0) sel) []])); [exact RID|exact H| |].
      * intros b v _ EV. destruct (named_value_events db s i g x v AD ltac:(fold us; lia) F0 U0 E0 EF EV) as [K VE].
        apply one_value; [exact K|exact VE|reflexivity].
      * rewrite (few_map ds sel MD), (few_map ss sel MS). rewrite (repeat_map _ n 0).
        rewrite <- (map_map (fun _ => EvArr a (firstn sel us) (repeat (nth_last ds 0) sel) (repeat (nth_last ss 0) sel) []) (fun e => [e])). apply concat_singles.
    + rewrite buffered_land, negb_involutive in H. destruct (is_buffered (ival i)) eqn:BU.
      * (* one value of several elements *)
        destruct (plain_value db s0 i 0 (g_count g)) as [v|e] eqn:EV; [|discriminate H]. cbn [bind] in H. injection H as <-.
        split; [|auto]. apply gives_one; [exact RID|].
        destruct (plain_value_events db s i g x 0 (g_count g) v AD EV) as [K [_ VE]].
        fold us ds ss a sel n in VE. destruct (is_variable (ival i)).
        -- destruct (PD2 eq_refl) as [MU [MD MS]]. apply one_value; [exact K| |].
           ++ rewrite VE. apply map_ext. intros k. rewrite (few_nth us k MU), (few_nth ds k MD), (few_nth ss k MS). reflexivity.
           ++ apply forallb_forall. intros e I. apply in_map_iff in I. destruct I as [k [<- _]]. reflexivity.
        -- destruct PD2 as [MD [MS [_ MU]]]. assert (MU' : at_most_one us).
           { apply MU. intros [F1 F2]. rewrite F1 in Q0. unfold matches in Q0. lia. }
           apply one_value; [exact K| |apply forallb_repeat; reflexivity].
           rewrite VE, (few_map ds sel MD), (few_map ss sel MS), (few_opt us 0 MU'). reflexivity.
      * (* one value per element *)
        split; [|apply add_values_spec in H; destruct H as [vs [_ [_ [H1 [H2 [H3 _]]]]]]; auto].
        destruct (is_variable (ival i)) eqn:VF.
        -- eapply (gives_list s0 s' (g_rid g) _ (fun k => [EvVar a (nth_last us k) (nth_last ds k) (nth_last ss k) []])); [exact RID|exact H| |].
           ++ intros k v _ EV. destruct (plain_value_events db s i g x k 1 v AD EV) as [K [_ VE]]. rewrite VF in VE.
              apply one_value; [exact K|exact VE|reflexivity].
           ++ rewrite <- (map_map (fun k => EvVar a (nth_last us k) (nth_last ds k) (nth_last ss k) []) (fun e => [e])). apply concat_singles.
        -- destruct PD2 as [MD [MS [_ MU]]]. assert (MU' : at_most_one us).
           { apply MU. intros [F1 F2]. rewrite F1 in Q0. unfold matches in Q0. lia. }
           eapply (gives_list s0 s' (g_rid g) _ (fun _ => [EvArr a (firstn sel us) (repeat (nth_last ds 0) sel) (repeat (nth_last ss 0) sel) []])); [exact RID|exact H| |].
           ++ intros k v _ EV. destruct (plain_value_events db s i g x k 1 v AD EV) as [K [_ VE]]. rewrite VF in VE. fold us ds ss a sel in VE.
              rewrite (few_opt us k MU'), (few_nth ds k MD), (few_nth ss k MS) in VE. apply one_value; [exact K|exact VE|reflexivity].
           ++ rewrite (few_map ds sel MD), (few_map ss sel MS). rewrite (repeat_map _ n 0).
              rewrite <- (map_map (fun _ => EvArr a (firstn sel us) (repeat (nth_last ds 0) sel) (repeat (nth_last ss 0) sel) []) (fun e => [e])). apply concat_singles.
Qed.

(* ------------------------------------------------------------------ *)
(** the whole run *)

Lemma drawn_app a e b f : drawn a e -> drawn b f -> drawn (a ++ b) (e ++ f).
Proof.
  intros H1 H2. induction H1 as [|k u us ds ss dl ls ev E H1 IH|ls ev H1 IH|r v fs ls ev F B H1 IH]; cbn [app].
  - exact H2.
  - apply dr_open; auto.
  - apply dr_close; auto.
  - rewrite <- app_assoc. apply dr_val; auto.
Qed.

Lemma drawn_vals r vs fss : Forall2 (field_ok r) vs fss -> drawn (map (fun v => LVal r v) vs) (concat fss).
Proof.
  induction 1 as [|v fs vs fss [F B] H IH]; [constructor|]. cbn [map concat]. apply dr_val; auto.
Qed.

Lemma prunes_app l l' x : prunes l l' -> prunes (l ++ x) (l' ++ x).
Proof.
  induction 1 as [l|l a k u b H IH]; [constructor|]. rewrite <- app_assoc. rewrite <- app_assoc in IH. cbn [app] in IH. eapply pr_one. exact IH.
Qed.

Lemma no_empty_snoc l y : no_empty l -> (y = LClose -> forall a k u, l <> a ++ [LOpen k u]) -> no_empty (l ++ [y]).
Proof.
  intros H N a k u b E. destruct (@exists_last _ (LOpen k u :: LClose :: b)) as [q [z EQ]]; [discriminate|].
  destruct b as [|c b].
  - change (l ++ [y] = a ++ [LOpen k u] ++ [LClose]) in E. rewrite app_assoc in E. apply app_inj_tail in E. destruct E as [E1 E2]. apply (N E2 a k u E1).
  - destruct (@exists_last _ (c :: b)) as [b' [z' EB]]; [discriminate|]. rewrite EB in E.
    change (LOpen k u :: LClose :: b' ++ [z']) with ((LOpen k u :: LClose :: b') ++ [z']) in E. rewrite app_assoc in E. apply app_inj_tail in E. destruct E as [E1 _].
    apply (H a k u b'). exact E1.
Qed.

Lemma no_empty_prefix l y : no_empty (l ++ y) -> no_empty l.
Proof. intros H a k u b E. apply (H a k u (b ++ y)). rewrite E, <- app_assoc. reflexivity. Qed.

Lemma no_empty_vals r vs : forall l, no_empty l -> no_empty (l ++ map (fun v => LVal r v) vs).
Proof.
  induction vs as [|v vs IH]; intros l H; cbn [map]; [rewrite app_nil_r; exact H|].
  change (LVal r v :: map (fun v => LVal r v) vs) with ([LVal r v] ++ map (fun v => LVal r v) vs). rewrite app_assoc. apply IH. apply no_empty_snoc; [exact H|discriminate].
Qed.

Lemma eleaves_last m : exists q z, eleaves m = q ++ [z] /\ forall k u, z <> LOpen k u.
Proof.
  destruct m as [v r|k u ms].
  - exists [], (LVal r v). split; [reflexivity|]. discriminate.
  - exists (LOpen k u :: flat_map eleaves ms), LClose. split; [reflexivity|]. discriminate.
Qed.

Lemma members_last ms : ms <> [] -> exists q z, flat_map eleaves ms = q ++ [z] /\ forall k u, z <> LOpen k u.
Proof.
  intros N. destruct (exists_last N) as [p [m ->]]. destruct (eleaves_last m) as [q [z [E F]]].
  exists (flat_map eleaves p ++ q), z. split; [|exact F]. rewrite flat_map_app. cbn [flat_map]. rewrite app_nil_r, E, app_assoc. reflexivity.
Qed.

Record view (s : xst) (g : gtab) (x : locals) (ev : list event) : Prop := {
  vw_agree : agree s g; vw_lrel : lrel s x; vw_count : 0 <= g_count g;
  vw_heads : heads (x_current s) (x_stack s); vw_named : x_innamed s = false;
  vw_leaves : exists fl, drawn fl ev /\ prunes fl (open_leaves s) /\ no_empty (open_leaves s)
}.

Lemma leave_leaves s s1 fl ev : x_leave s true = Ok s1 -> heads (x_current s) (x_stack s) ->
  drawn fl ev -> prunes fl (open_leaves s) -> no_empty (open_leaves s) ->
  (exists fl', drawn fl' (ev ++ [EvEnd]) /\ prunes fl' (open_leaves s1) /\ no_empty (open_leaves s1)) /\ kinds s1 = tl (kinds s).
Proof.
  unfold x_leave. destruct (x_stack s) as [|p r] eqn:ES; [discriminate|]. intros H HD DR PR NE. injection H as <-. destruct HD as [HN HD].
  destruct (x_current s) as [h ms] eqn:EC. cbn [lv_head lv_members] in *. destruct h as [[k u]|]; [|congruence].
  assert (OL : open_leaves s = (flat_map lv_leaves (rev r) ++ lv_leaves p) ++ LOpen k u :: flat_map eleaves ms).
  { unfold open_leaves. rewrite ES, EC. cbn [rev]. rewrite flat_map_app. cbn [flat_map lv_leaves lv_head lv_members app]. rewrite app_nil_r. reflexivity. }
  assert (KI : kinds s = py_int k :: flat_map (fun l => match lv_head l with Some (k, _) => [py_int k] | None => [] end) (p :: r)).
  { unfold kinds. rewrite ES, EC. reflexivity. }
  split; [|rewrite KI; cbn [tl]; destruct p; reflexivity].
  exists (fl ++ [LClose]). split; [apply drawn_app; [exact DR|repeat constructor]|].
  set (s1 := set_levels _ _ _ _).
  destruct ms as [|m ms].
  - assert (O1 : open_leaves s1 = flat_map lv_leaves (rev r) ++ lv_leaves p).
    { subst s1. unfold open_leaves. cbn [set_levels x_stack x_current]. destruct p as [hp mp]. cbn [lv_head lv_members]. rewrite app_nil_r. reflexivity. }
    rewrite <- O1 in OL. split.
    + rewrite <- (app_nil_r (open_leaves s1)). apply (pr_one _ _ k u []).
      replace (open_leaves s1 ++ [LOpen k u; LClose]) with (open_leaves s ++ [LClose]) by (rewrite OL, <- app_assoc; reflexivity).
      apply prunes_app. exact PR.
    + rewrite OL in NE. apply no_empty_prefix in NE. exact NE.
  - set (ml := m :: ms) in *. assert (O1 : open_leaves s1 = open_leaves s ++ [LClose]).
    { rewrite OL. subst s1. unfold open_leaves. cbn [set_levels x_stack x_current]. destruct p as [hp mp].
      assert (LP : forall h m', lv_leaves {| lv_head := h; lv_members := m' |} = match h with Some (k, u) => [LOpen k u] | None => [] end ++ flat_map eleaves m') by reflexivity.
      cbn [lv_head lv_members close_level]. rewrite !LP, flat_map_app. cbn [flat_map eleaves]. rewrite app_nil_r, <- !app_assoc. reflexivity. }
    rewrite O1. split; [apply prunes_app; exact PR|]. apply no_empty_snoc; [exact NE|]. intros _ a k' u' E.
    destruct (members_last ml ltac:(discriminate)) as [q [z [EQ NZ]]]. rewrite OL, EQ in E.
    change (LOpen k u :: q ++ [z]) with ((LOpen k u :: q) ++ [z]) in E. rewrite app_assoc in E. apply app_inj_tail in E. destruct E as [_ E]. apply (NZ k' u' E).
Qed.

Lemma view_step db s i s' g x ev es : constructed i -> ic i <> Push -> ic i <> Pop ->
  view s g x ev -> x_append db s i = Ok s' ->
  let r := m_step lo_init lo_set sees (g, x) (wire i) in
  plain_stream (kinds s) (snd r ++ es) ->
  view s' (fst (fst r)) (snd (fst r)) (ev ++ flat_map (obs_at (full_obs AtMain)) (snd r)) /\ plain_stream (kinds s') es.
Proof.
  intros C N1 N2 [A L NC HD IN [fl [DR [PR NE]]]] H. unfold m_step, wire. cbn [w_cls w_val w_ext].
  pose proof H as H0. unfold x_append, ikd in H. destruct (kind_of (ic i)) eqn:K.
  - (* main *)
    set (s0 := expand_ranges s) in *.
    destruct (data_tag (ic i)) eqn:DT.
    + assert (EH : (let* s1 := handle_data db s0 i in Ok (locals_clear s1)) = Ok s').
      { destruct (ic i); try discriminate DT; exact H. }
      destruct (handle_data db s0 i) as [s1|e] eqn:E1; [|discriminate EH]. cbn [bind] in EH. injection EH as <-.
      assert (MK : hid_kind (ic i) = KMain) by (destruct (ic i); try discriminate DT; reflexivity).
      rewrite MK. cbn [fst snd sees app]. intros PS.
      assert (PS2 : plain_data (kinds s) (g, x, ic i, ival i) /\ plain_stream (kinds s) es).
      { destruct (ic i); try discriminate DT; exact PS. }
      destruct PS2 as [PD PS2].
      destruct (handle_plain db s i s1 g x HD A L DT NC PD E1) as [[vs [fss [F2 [EV OL]]]] [S1 [I1 LH]]].
      destruct (handle_data_spec db s0 i s1 g x DT NC ltac:(eapply agree_globals; [|exact A]; reflexivity) HD E1) as [[G1 H1 R1] _].
      split.
      * split.
        -- eapply agree_globals; [|exact A]. exact G1.
        -- apply lrel_clear.
        -- exact NC.
        -- apply H1. exact HD.
        -- cbn [locals_clear x_innamed]. congruence.
        -- exists (fl ++ map (fun v => LVal (g_rid g) v) vs). rewrite clear_same, OL. change (open_leaves s0) with (open_leaves s). split; [|split].
           ++ apply drawn_app; [exact DR|]. unfold sees. cbn [flat_map obs_at]. rewrite app_nil_r.
              replace (full_obs AtMain g x (ic i) (ival i)) with (concat fss); [apply drawn_vals; exact F2|].
              rewrite EV. destruct (ic i); try discriminate DT; reflexivity.
           ++ apply prunes_app. exact PR.
           ++ apply no_empty_vals. exact NE.
      * replace (kinds (locals_clear s1)) with (kinds s); [exact PS2|]. unfold kinds. cbn [locals_clear x_current x_stack flat_map]. rewrite S1, LH. reflexivity.
    + destruct (ic i) eqn:EC; try discriminate K; try discriminate DT; cbn [hid_kind fst snd sees app plain_stream].
      * (* Collection *)
        cbn [bind] in H. injection H as <-. intros [SU PS]. split; [|exact PS]. split.
        -- eapply agree_globals; [|exact A]. reflexivity.
        -- apply lrel_clear.
        -- exact NC.
        -- cbn [locals_clear x_enter set_levels x_current x_stack heads]. split; [discriminate|exact HD].
        -- exact IN.
        -- assert (O1 : open_leaves (locals_clear (x_enter s0 (iv i) (x_usage db s0 0))) = open_leaves s ++ [LOpen (iv i) (x_usage db s0 0)]).
           { unfold open_leaves. cbn [locals_clear x_enter set_levels x_stack x_current rev]. change (x_stack s0) with (x_stack s). change (x_current s0) with (x_current s).
             rewrite flat_map_app. cbn [flat_map lv_leaves lv_head lv_members app]. rewrite !app_nil_r. reflexivity. }
           rewrite O1. exists (fl ++ [LOpen (iv i) (x_usage db s0 0)]). split; [|split].
           ++ apply drawn_app; [exact DR|]. unfold sees. cbn [flat_map obs_at full_obs app]. apply dr_open; [|constructor].
              destruct (x_usage_nth db s x g 0 L A SU) as [E _]. fold s0 in E. rewrite E. destruct (values AtMain (g_page g) (lo_us x)); reflexivity.
           ++ apply prunes_app. exact PR.
           ++ apply no_empty_snoc; [exact NE|discriminate].
      * (* EndCollection *)
        change (x_innamed s0) with (x_innamed s) in H. rewrite IN in H.
        destruct (x_leave s0 true) as [s1|e] eqn:E1; [|discriminate H]. cbn [bind] in H. intros PS.
        destruct (leave_leaves s0 s1 fl ev E1 HD DR PR NE) as [[fl' [DR' [PR' NE']]] KI].
        destruct (x_leave_keep s0 s1 E1 HD) as [[G1 H1 R1] [_ [I1 _]]].
        assert (V : view (locals_clear s1) g lo_init (ev ++ [EvEnd])).
        { split.
          - eapply agree_globals; [|exact A]. exact G1.
          - apply lrel_clear.
          - exact NC.
          - apply H1. exact HD.
          - cbn [locals_clear x_innamed]. rewrite I1. exact IN.
          - exists fl'. auto. }
        injection H as <-. split.
        -- destruct (x_stack s1) as [|p r] eqn:ES.
           ++ destruct V as [V1 V2 V3 V4 V5 V6]. split; [| |exact V3|exact V4|exact V5|exact V6].
              ** eapply agree_globals; [|exact V1]. reflexivity.
              ** destruct V2. split; assumption.
           ++ exact V.
        -- assert (KS : kinds (locals_clear match x_stack s1 with [] => x_ended s1 | _ :: _ => s1 end) = tl (kinds s)).
           { change (kinds s0) with (kinds s) in KI. rewrite <- KI. unfold kinds. destruct (x_stack s1) eqn:Q; cbn [locals_clear x_ended x_current x_stack]; rewrite ?Q; reflexivity. }
           rewrite KS. exact PS.
  - (* global *)
    injection H as <-.
    assert (MK : hid_kind (ic i) = KGlobal) by (destruct (ic i); try discriminate K; reflexivity).
    rewrite MK. cbn [fst snd flat_map app]. rewrite app_nil_r. intros PS. split; [|exact PS].
    split; auto.
    + apply (agree_set s _ g (ic i) (iv i)); auto.
    + destruct L. split; assumption.
    + destruct (constructed_facts i C) as [CS _].
      destruct (ic i) eqn:EC; try discriminate K; destruct g; try exact NC.
      destruct CS as [CS|CS]; [discriminate CS|exact CS].
    + exists fl. auto.
  - (* local *)
    pose proof (lrel_step db s i s' x (g_page g) C K L H0) as L'.
    injection H as <-.
    assert (MK : hid_kind (ic i) = KLocal) by (destruct (ic i); try discriminate K; reflexivity).
    rewrite MK. cbn [fst snd flat_map app]. rewrite app_nil_r. intros PS. split; [|destruct (ic i); exact PS].
    split.
    + eapply agree_globals; [|exact A]. destruct (ic i); reflexivity.
    + exact L'.
    + exact NC.
    + destruct (ic i); exact HD.
    + destruct (ic i); exact IN.
    + exists fl. split; [exact DR|]. destruct (ic i); split; assumption.
Qed.

Lemma view_run db l : forall s s' g x ev, Forall constructed l -> push_free l -> view s g x ev -> x_run db s l = Ok s' ->
  let r := m_run lo_init lo_set sees (g, x) (map wire l) in
  plain_stream (kinds s) (snd r) ->
  view s' (fst (fst r)) (snd (fst r)) (ev ++ flat_map (obs_at (full_obs AtMain)) (snd r)).
Proof.
  induction l as [|i l IH]; intros s s' g x ev C P V R.
  - cbn in R. injection R as <-. cbn. rewrite app_nil_r. auto.
  - inversion C as [|? ? C1 C2]; subst. inversion P as [|? ? [P1 P1'] P2]; subst. cbn [map x_run m_run] in *.
    destruct (x_append db s i) as [s1|e] eqn:E1; [|discriminate R]. cbn [bind] in R.
    pose proof (fun es => view_step db s i s1 g x ev es C1 P1 P1' V E1) as ST.
    destruct (m_step lo_init lo_set sees (g, x) (wire i)) as [[g1 x1] o1]. cbn [fst snd] in ST.
    specialize (IH s1 s' g1 x1 (ev ++ flat_map (obs_at (full_obs AtMain)) o1) C2 P2).
    destruct (m_run lo_init lo_set sees (g1, x1) (map wire l)) as [[g2 x2] o2]. cbn [fst snd] in *.
    intros PS. destruct (ST o2 PS) as [V1 PS1]. specialize (IH V1 R PS1). rewrite flat_map_app, app_assoc. exact IH.
Qed.

Lemma c47 db l t : Forall constructed l -> push_free l -> closes (map ic l) -> plain_stream [] (main_states (map wire l)) ->
  extract db l = Ok t ->
  exists fl, drawn fl (host_view AtMain (map wire l)) /\ prunes fl (scoped 0 t) /\ no_empty (scoped 0 t).
Proof.
  intros C P CL PS X. destruct (extract_final db l t C P CL X) as [s [R [ES [EN [EH [-> _]]]]]].
  assert (V0 : view xst_init g_init lo_init []).
  { split; [apply agree_init|apply lrel_init|cbn; lia|reflexivity|reflexivity|]. exists []. split; [constructor|]. split; [constructor|].
    intros a k u b E. destruct a; discriminate E. }
  assert (EM : main_states (map wire l) = snd (m_run lo_init lo_set sees (g_init, lo_init) (map wire l))).
  { change (main_states (map wire l)) with (snd (h_run sees (H g_init [] lo_init) (map wire l))).
    destruct (m_run_host sees (map wire l) g_init [] lo_init) as [st' E]; [apply Forall_map; exact P|]. rewrite E. reflexivity. }
  rewrite EM in PS. destruct (view_run db l xst_init s g_init lo_init [] C P V0 R PS) as [_ _ _ _ _ [fl [DR [PR NE]]]].
  cbn [app] in DR. rewrite <- (proj1 (run_obs (full_obs AtMain) (map wire l) g_init lo_init)) in DR.
  change (host_view AtMain (map wire l)) with (seen AtMain l). rewrite seen_machine by exact P. unfold m_full.
  rewrite insert_leaves, <- (top_leaves s ES EH). exists fl. auto.
Qed.

Lemma fields_of_app a e b f : fields_of a e -> fields_of b f -> fields_of (a ++ b) (e ++ f).
Proof.
  intros H1 H2. induction H1; cbn [app]; [exact H2| |]; rewrite <- app_assoc; [apply fi_val|eapply fi_pad]; eauto.
Qed.

Lemma filter_all {A} (p : A -> bool) l : forallb p l = true -> filter p l = l.
Proof. induction l as [|a l IH]; [reflexivity|]. cbn [forallb filter]. intros H. apply andb_true_iff in H. destruct H as [-> H]. rewrite IH; auto. Qed.

Lemma drawn_fields ls ev : drawn ls ev -> fields_of (numbered ls) (filter is_field ev).
Proof.
  induction 1 as [|k u us ds ss dl ls ev E H IH|ls ev H IH|r v fs ls ev F B H IH]; cbn [numbered flat_map filter is_field app].
  - constructor.
  - exact IH.
  - exact IH.
  - rewrite filter_app, (filter_all _ fs) by exact B. change (r, v) with (r, v). apply (fields_of_app [(r, v)] fs); assumption.
Qed.

Lemma numbered_app a b : numbered (a ++ b) = numbered a ++ numbered b.
Proof. apply flat_map_app. Qed.

Lemma prunes_numbered l l' : prunes l l' -> numbered l' = numbered l.
Proof. induction 1 as [l|l a k u b H IH]; [reflexivity|]. rewrite <- IH, !numbered_app. reflexivity. Qed.

Lemma c45 db l t : Forall constructed l -> push_free l -> closes (map ic l) -> plain_stream [] (main_states (map wire l)) ->
  extract db l = Ok t ->
  fields_of (numbered (scoped 0 t)) (filter is_field (host_view AtMain (map wire l))).
Proof.
  intros C P CL PS X. destruct (c47 db l t C P CL PS X) as [fl [D [PR _]]]. rewrite (prunes_numbered _ _ PR). apply drawn_fields. exact D.
Qed.
