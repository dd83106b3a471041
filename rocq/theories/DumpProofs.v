(* DumpProofs.v -- a dumped script rebuilds the tree (C50) *)
From Coq Require Import ZifyBool ZifyNat.
From Verif Require Import Py Usage Item Parser Optimizer Descriptor Extractor TextFormats UsageTable UsageModules Dumper PyExpr TableProofs ParserFacts StreamSpec ExtractSpec ExtractFacts ExtractAgain DumpSpec DumpFacts.
Local Open Scope list_scope.
Local Open Scope Z_scope.
Ltac Zify.zify_post_hook ::= Z.div_mod_to_equations.

(* ------------------------------------------------------------------ *)
(** usages *)

Definition shown_usage (u : pval) : Prop :=
  (exists z, 0 <= z /\ (u = VInt z \/ u = lookup default_db (VInt z))) \/ exists d, In d all_decls /\ u = usage_of d.

Lemma lookup_int db z : py_int (lookup db (VInt z)) = z.
Proof. unfold lookup. destruct (negb _); [destruct (db z) as [[n k]|]|]; reflexivity. Qed.

Lemma register_decls_some l : forall db z e, register_decls db l z = Some e -> db z = Some e \/ exists d, In d l /\ u_value d = z /\ entry d = Some e.
Proof.
  unfold register_decls. induction l as [|d l IH]; intros db z e H; cbn [fold_left] in H; [auto|].
  destruct (IH _ _ _ H) as [H1|[d' [I E]]]; [|right; exists d'; split; [right; exact I|exact E]].
  unfold register in H1. destruct (z =? u_value d) eqn:E; [|auto]. right. exists d. split; [left; reflexivity|]. split; [lia|exact H1].
Qed.

Lemma default_some z e : default_db z = Some e -> exists d, In d all_decls /\ u_value d = z /\ entry d = Some e.
Proof.
  unfold default_db, all_decls.
  assert (G : forall (ms : list (string * list udecl)) db, fold_left (fun d m => register_decls d (snd m)) ms db z = Some e ->
    db z = Some e \/ exists d, In d (flat_map snd ms) /\ u_value d = z /\ entry d = Some e).
  { induction ms as [|m ms IH]; intros db H; cbn [fold_left] in H; [auto|]. destruct (IH _ H) as [H1|[d [I E]]].
    - destruct (register_decls_some _ _ _ _ H1) as [H2|[d [I E]]]; [auto|]. right. exists d. split; [|exact E]. cbn [flat_map]. apply in_app_iff. auto.
    - right. exists d. split; [|exact E]. cbn [flat_map]. apply in_app_iff. auto. }
  intros H. destruct (G modules empty_db H) as [H1|H1]; [discriminate H1|exact H1].
Qed.

Definition reads (t : text) (z : Z) : bool :=
  match expression t with
  | Some e => match eval e with Some (OVal o) => py_int o =? z | _ => false end
  | None => false
  end.

Lemma reads_ok t z : reads t z = true -> exists e o, expression t = Some e /\ eval e = Some (OVal o) /\ py_int o = z.
Proof.
  unfold reads. destruct (expression t) as [e|]; [|discriminate]. destruct (eval e) as [[| o | | | | | |]|] eqn:V; try discriminate.
  intros H. exists e, o. repeat split; [exact V|lia].
Qed.

Lemma table_reads : forallb (fun d => existsb (Z.eqb (u_value d)) misprinted || reads (str (u_name d)) (u_value d)) all_decls = true.
Proof. vm_compute. reflexivity. Qed.

#[local] Opaque modules default_db all_decls.

Lemma usage_text u : shown_usage u -> ~ In (py_int u) misprinted ->
  exists e o, expression (show u) = Some e /\ eval e = Some (OVal o) /\ py_int o = py_int u.
Proof.
  assert (TD : forall d, In d all_decls -> ~ In (u_value d) misprinted -> exists e o, expression (str (u_name d)) = Some e /\ eval e = Some (OVal o) /\ py_int o = u_value d).
  { intros d I N. pose proof table_reads as T. rewrite forallb_forall in T. specialize (T d I). apply orb_true_iff in T. destruct T as [T|T].
    - exfalso. apply N. apply existsb_exists in T. destruct T as [x [Ix Ex]]. replace (u_value d) with x by lia. exact Ix.
    - apply reads_ok. exact T. }
  intros [[z [Z [-> | ->]]]|[d [I ->]]] N; [| |exact (TD d I N)].
  - destruct (expression_dec z) as [e [E V]]. exists e, (VInt z). auto.
  - rewrite lookup_int in *. unfold lookup.
    assert (HX : exists e o, expression (show (VUsage (hex_of_Z z) z [])) = Some e /\ eval e = Some (OVal o) /\ py_int o = z).
    { exists (ENum z), (VInt z). split; [apply hex_of_word; exact Z|]. split; reflexivity. }
    destruct (negb (Z.shiftr z 16 =? 0)); [|exact HX]. destruct (default_db z) as [[n k]|] eqn:D; [|exact HX].
    destruct (default_some z _ D) as [d [I [V E]]]. unfold entry in E. assert (n = u_name d) by congruence. subst n z.
    exact (TD d I N).
Qed.

Lemma shown_lookup u : shown_usage u -> shown_usage (lookup default_db u) /\ py_int (lookup default_db u) = py_int u.
Proof.
  intros [[z [Z [-> | ->]]]|[d [I ->]]]; rewrite ?lookup_int; [| |split; [right; exists d; auto|reflexivity]].
  - split; [|reflexivity]. left. exists z. auto.
  - assert (E : lookup default_db (lookup default_db (VInt z)) = lookup default_db (VInt z)).
    { unfold lookup at 2 3. destruct (negb _); [destruct (default_db z) as [[n k]|]|]; reflexivity. }
    rewrite E, lookup_int. split; [|reflexivity]. left. exists z. auto.
Qed.

(* ------------------------------------------------------------------ *)
(** flags, units, ways and kinds *)

Lemma flags_reads : forallb (fun i => reads (qualify (str "Value.") false (str (flags_name i))) i) (zrange 0 512) = true.
Proof. vm_compute. reflexivity. Qed.

Lemma in_zrange z n : 0 <= z < n -> In z (zrange 0 n).
Proof. intros H. unfold zrange. apply in_map_iff. exists (Z.to_nat z). split; [lia|]. apply in_seq. lia. Qed.

Lemma qualify_digits p t : digits t = true -> qualify p false t = t.
Proof.
  unfold digits. induction t as [|c t IH]; intros H; [reflexivity|]. cbn [forallb] in H. apply andb_true_iff in H. destruct H as [H1 H2].
  cbn [qualify]. destruct (between_digit c H1) as [_ [_ ->]]. f_equal. auto.
Qed.

Definition shown_flags (f : pval) : Prop :=
  (exists i, f = VInt i) \/ (exists i, f = VNamed (flags_name i) i) \/ exists n i, In (n, i) value_constants /\ f = VNamed n i.

Lemma table_pairs l P : forallb (fun e => P (fst e) (snd e)) l = true -> forall (n : string) (i : Z), In (n, i) l -> P n i = true.
Proof. intros H n i I. rewrite forallb_forall in H. apply (H (n, i) I). Qed.

Lemma flags_text f : shown_flags f -> 0 <= py_int f < 512 ->
  exists e o, expression (qualify (str "Value.") false (show f)) = Some e /\ eval e = Some (OVal o) /\ py_int o = py_int f.
Proof.
  intros [[i ->] | [[i ->] | [n [i [I ->]]]]] H; [| |].
  - unfold show. cbn [pval_name]. destruct (word_dec i (proj1 H)) as [_ D]. rewrite (qualify_digits _ _ D). destruct (expression_dec i) as [e [E V]]. exists e, (VInt i). auto.
  - apply reads_ok. cbn [py_int] in *. pose proof flags_reads as T. rewrite forallb_forall in T. apply (T i (in_zrange i 512 H)).
  - apply reads_ok. cbn [py_int]. clear H. revert n i I. apply (table_pairs value_constants). vm_compute. reflexivity.
Qed.

Definition unit_systems : list (string * Z) := [("SILinear", 1); ("SIRotation", 2); ("EnglishLinear", 3); ("EnglishRotation", 4)]%string.
Definition shown_unit (u : pval) : Prop :=
  (exists z, 0 <= z /\ (u = VInt z \/ u = usual_unit (VInt z))) \/ exists n z, In (n, z) unit_systems /\ u = VNamed n z.

Lemma units_read : forallb (fun e => (snd e =? 0xf011) || reads (qualify (str "Unit.") false (str (snd (fst e)))) (snd e)) usual_units = true.
Proof. vm_compute. reflexivity. Qed.

Lemma unit_text u : shown_unit u -> py_int u <> 0xf011 ->
  exists e o, expression (qualify (str "Unit.") false (show u)) = Some e /\ eval e = Some (OVal o) /\ py_int o = py_int u.
Proof.
  intros [[z [Z H]]|[n [z [I ->]]]] N.
  2: { apply reads_ok. cbn [py_int show pval_name]. clear N. revert n z I. apply (table_pairs unit_systems). vm_compute. reflexivity. }
  assert (HI : exists e o, expression (qualify (str "Unit.") false (show (VInt z))) = Some e /\ eval e = Some (OVal o) /\ py_int o = z).
  { unfold show. cbn [pval_name]. destruct (word_dec z Z) as [_ D]. rewrite (qualify_digits _ _ D). destruct (expression_dec z) as [e [E V]]. exists e, (VInt z). auto. }
  destruct H as [-> | ->]; [exact HI|]. unfold usual_unit in *. cbn [py_int] in *.
  destruct (find (fun e => snd e =? z) usual_units) as [[[a n] y]|] eqn:F; [|exact HI].
  apply find_some in F. destruct F as [I E]. pose proof units_read as T. rewrite forallb_forall in T. specialize (T _ I). cbn [fst snd py_int] in *.
  apply orb_true_iff in T. destruct T as [T|T]; [lia|]. apply reads_ok. exact T.
Qed.

Definition way_class (c : icls) : Prop := c = Input \/ c = Output \/ c = Feature.
Definition way_of (c : icls) : pval := VNamed (tag_name c) (tag_of c).
Definition shown_way (w : pval) : Prop := exists c, way_class c /\ w = way_of c.

Lemma way_text w : shown_way w -> exists e, expression (str "Value." ++ show w) = Some e /\ eval e = Some (OVal w).
Proof. intros [c [[->|[->| ->]] ->]]; eexists; split; reflexivity. Qed.

Definition shown_kind (k : pval) : Prop := (exists n z, In (n, z) collection_rev /\ k = VNamed n z) \/ 7 <= py_int k.

Lemma kind_text k : shown_kind k -> py_int k < 7 -> exists e, expression (str "Collection." ++ show k) = Some e /\ eval e = Some (OVal k).
Proof.
  intros [[n [z [I ->]]]|H] L; [|lia]. cbn [collection_rev In] in I.
  repeat (destruct I as [I|I]; [injection I as <- <-; eexists (EAttr (EName _) _); split; [vm_compute; reflexivity|vm_compute; reflexivity]|]). destruct I.
Qed.

(* ------------------------------------------------------------------ *)
(** arguments *)

Fixpoint eval_args (l : list (option string * expr)) : option (list (option string * obj)) :=
  match l with
  | [] => Some []
  | (k, x) :: r => match eval x, eval_args r with Some o, Some os => Some ((k, o) :: os) | _, _ => None end
  end.

Lemma eval_call f args : eval (ECall f args) = match eval f, eval_args args with Some o, Some os => call o os | _, _ => None end.
Proof. reflexivity. Qed.

Fixpoint eval_list (l : list expr) : option (list pval) :=
  match l with
  | [] => Some []
  | x :: r => match eval x, eval_list r with Some (OVal v), Some vs => Some (v :: vs) | _, _ => None end
  end.

Lemma eval_elist l : eval (EList l) = option_map OList (eval_list l).
Proof. reflexivity. Qed.

(** [p] is a run of keyword arguments that turns [a] into [a'] *)
Definition kwx : Type := string * text * expr * obj.
Definition Kw (a : vargs) (seen : list string) (p : text) (a' : vargs) : Prop :=
  exists l : list kwx,
    p = flat_map (fun x => kw_text (fst x)) l /\
    Forall (fun x => kw_ok (fst x) /\ eval (snd (fst x)) = Some (snd x)) l /\
    set_keywords a seen (map (fun x => (Some (fst (fst (fst x))), snd x)) l) = Some a'.

Lemma Kw_nil a seen : Kw a seen [] a.
Proof. exists []. repeat split. constructor. Qed.

Lemma set_keywords_skip n l : forall a seen a', set_keywords a (n :: seen) l = Some a' -> set_keywords a seen l = Some a'.
Proof.
  assert (G : forall l a s1 s2 a', (forall x, existsb (String.eqb x) s2 = true -> existsb (String.eqb x) s1 = true) ->
    set_keywords a s1 l = Some a' -> set_keywords a s2 l = Some a').
  { clear. induction l as [|[[k|] o] l IH]; intros a s1 s2 a' S H; cbn [set_keywords] in *; try exact H; try discriminate H.
    destruct (existsb (String.eqb k) s1) eqn:E1; [discriminate H|]. destruct (existsb (String.eqb k) s2) eqn:E2; [rewrite (S k E2) in E1; discriminate E1|].
    destruct (set_keyword a k o) as [a1|]; [|discriminate H]. apply (IH a1 (k :: s1) (k :: s2)); [|exact H].
    intros x. cbn [existsb]. rewrite !orb_true_iff. intros [X|X]; [left; exact X|right; apply S; exact X]. }
  intros a seen a' H. apply (G l a (n :: seen) seen a'); [|exact H]. intros x X. cbn [existsb]. rewrite X. apply orb_true_r.
Qed.

Lemma Kw_skip n a seen p a' : Kw a (n :: seen) p a' -> Kw a seen p a'.
Proof. intros [l [P [F S]]]. exists l. repeat split; auto. apply (set_keywords_skip n). exact S. Qed.

Lemma Kw_one n t e o a a1 seen p a' : good_name n -> expression t = Some e -> eval e = Some o ->
  existsb (String.eqb n) seen = false -> set_keyword a n o = Some a1 -> Kw a1 (n :: seen) p a' -> Kw a seen (keyword n t ++ p) a'.
Proof.
  intros G E V N K [l [P [F S]]]. exists ((n, t, e, o) :: l). subst p. repeat split.
  - constructor; [|exact F]. cbn [fst snd]. repeat split; [apply G|apply G|exact E|exact V].
  - cbn [map fst snd set_keywords]. rewrite N, K. exact S.
Qed.

Lemma Kw_value w we u ue ut uo n p a' : expression (str "Value." ++ show w) = Some we -> eval we = Some (OVal w) ->
  expression ut = Some ue -> eval ue = Some uo -> usage_arg uo = Some u -> Kw (default_args w u n) [] p a' ->
  exists e, expression (str "Value(Value." ++ show w ++ str ", " ++ ut ++ str ", " ++ show_int n ++ p ++ str ")") = Some e /\
    eval e = built (mk_value KValue a').
Proof.
  intros W WV U UV UA [l [P [F S]]]. destruct (expression_dec n) as [ne [NE NV]].
  exists (ECall (EName "Value") ((None, we) :: (None, ue) :: (None, ne) :: map kw_arg (map fst l))). split.
  - apply expression_call. change (str "Value(Value.") with (str "Value(" ++ str "Value."). rewrite <- app_assoc.
    rewrite (app_assoc (str "Value.")). change (read rd_init (str "Value(" ++ ?t)) with (read (Rd [] [XArgs (EName "Value") [] None] None) t).
    change (str ", ") with [","%char; " "%char]. cbn [app]. rewrite (read_arg _ we) by exact W. rewrite read_space.
    rewrite (read_arg _ ue) by exact U. rewrite read_space. cbn [app]. change (str ")") with [")"%char].
    assert (Q : p = flat_map kw_text (map fst l)). { rewrite P. clear. induction l as [|x l IH]; [reflexivity|]. cbn [map flat_map]. rewrite IH. reflexivity. }
    rewrite Q.
    rewrite (read_kws (map fst l)) with (e := ne); [reflexivity| |exact NE]. clear - F. induction F as [|x l [H _] F IH]; constructor; auto.
  - rewrite eval_call. cbn [eval_args]. rewrite WV, UV, NV.
    assert (A : eval_args (map kw_arg (map fst l)) = Some (map (fun x : string * text * expr * obj => (Some (fst (fst (fst x))), snd x)) l)).
    { clear - F. induction F as [|[[[a b] c] d] l [_ H] F IH]; [reflexivity|]. cbn [map fst snd] in *. change (kw_arg (a, b, c)) with (Some a, c). cbn [eval_args]. rewrite H, IH. reflexivity. }
    rewrite A. change (eval (EName "Value")) with (Some (OClass "Value")). cbv iota. unfold call.
    cbn [String.eqb Ascii.eqb Bool.eqb]. rewrite UA. change (py_int (VInt n)) with n. rewrite S. reflexivity.
Qed.

(* ------------------------------------------------------------------ *)
(** values *)

Definition after_range : list string := ["physicalMax"; "physicalMin"; "logicalMax"; "namedArray"; "logicalMin"; "flags"]%string.

Ltac kw1 E V := eapply Kw_one; [split; vm_compute; reflexivity|exact E|exact V|reflexivity|reflexivity|].

Lemma Kw_rest v w u n f lm lx pm px nm : shown_unit (v_unit v) -> py_int (v_unit v) <> 0xf011 ->
  exists un, py_int un = py_int (v_unit v) /\
  Kw (VArgs w u n f lm lx pm px nm (VInt 0) 0 0 0 1 None) after_range (dump_rest v)
     (VArgs w u n f lm lx pm px nm un (v_uexp v) (v_desig v) (v_str v) (v_count v)
            (if v_align v =? Z.min 8 (v_size v) then None else Some (v_align v))).
Proof.
  intros U N.
  assert (G : exists un, py_int un = py_int (v_unit v) /\ forall p a',
    Kw (VArgs w u n f lm lx pm px nm un 0 0 0 1 None) ("unit"%string :: after_range) p a' ->
    Kw (VArgs w u n f lm lx pm px nm (VInt 0) 0 0 0 1 None) after_range
       ((if py_int (v_unit v) =? 0 then [] else keyword "unit" (qualify (str "Unit.") false (show (v_unit v)))) ++ p) a').
  { destruct (py_int (v_unit v) =? 0) eqn:E.
    - exists (VInt 0). split; [cbn [py_int]; lia|]. intros p a' K. cbn [app]. apply (Kw_skip "unit"). exact K.
    - destruct (unit_text _ U N) as [e [o [X [V Q]]]]. exists o. split; [exact Q|]. intros p a' K. kw1 X V. exact K. }
  destruct G as [un [Q G]]. exists un. split; [exact Q|]. unfold dump_rest. apply G.
  unfold unless.
  destruct (v_uexp v =? 0) eqn:E1; [assert (A : v_uexp v = 0) by lia; rewrite A; cbn [app]; apply (Kw_skip "unitExponent")|
    destruct (expression_dec (v_uexp v)) as [e1 [X1 V1]]; kw1 X1 V1]; clear E1;
  (destruct (v_desig v =? 0) eqn:E2; [assert (B : v_desig v = 0) by lia; rewrite B; cbn [app]; apply (Kw_skip "designator")|
    destruct (expression_dec (v_desig v)) as [e2 [X2 V2]]; kw1 X2 V2]; clear E2;
  (destruct (v_str v =? 0) eqn:E3; [assert (C : v_str v = 0) by lia; rewrite C; cbn [app]; apply (Kw_skip "string")|
    destruct (expression_dec (v_str v)) as [e3 [X3 V3]]; kw1 X3 V3]; clear E3;
  (destruct (v_count v =? 1) eqn:E4; [assert (D : v_count v = 1) by lia; rewrite D; cbn [app]; apply (Kw_skip "count")|
    destruct (expression_dec (v_count v)) as [e4 [X4 V4]]; kw1 X4 V4]; clear E4;
  (destruct (v_align v =? Z.min 8 (v_size v)); [apply Kw_nil|
    destruct (expression_dec (v_align v)) as [e5 [X5 V5]]; rewrite <- (app_nil_r (keyword "alignment" _)); kw1 X5 V5; apply Kw_nil])))).
Qed.

Definition shown_array (a : narr) : Prop :=
  match a with NList l => Forall shown_usage l | NRange r => shown_usage (r_min r) /\ shown_usage (r_max r) end.

Definition right_array (a : narr) : Prop :=
  match a with NList l => Forall printed_right l | NRange r => printed_right (r_min r) /\ printed_right (r_max r) end.

Lemma array_text n a : shown_array a -> right_array a -> exists t e arr o,
  (match a with
   | NRange r => keyword "namedArray" (show_range r)
   | NList l => keyword "namedArray" (str "[" ++ line) ++ flat_map (fun u => indentation (S n) ++ show u ++ str "," ++ line) l ++ indentation (S n) ++ str "]"
   end) = keyword "namedArray" t /\
  expression t = Some e /\ eval e = Some o /\ o = match arr with NList l => OList l | NRange r => ORange r end /\
  same_array (Some a) (Some arr) /\ narr_len arr = narr_len a.
Proof.
  intros HS R. destruct a as [l|[x y]]; cbn [shown_array right_array r_min r_max] in *.
  - assert (G : exists es os, Forall (fun x => expression (fst x) = Some (snd x)) (combine (map show l) es) /\ length es = length l /\
      eval_list es = Some os /\ map py_int os = map py_int l).
    { induction l as [|u l IH]; [exists [], []; repeat split; constructor|]. inversion HS as [|? ? S1 S2]; inversion R as [|? ? R1 R2]; subst.
      destruct (IH S2 R2) as [es [os [F [L [V M]]]]]. destruct (usage_text u S1 R1) as [e [o [X [Y Z]]]].
      exists (e :: es), (o :: os). cbn [map combine length eval_list]. rewrite Y, V, M, Z. repeat split; [constructor; [exact X|exact F]|lia]. }
    destruct G as [es [os [F [L [V M]]]]].
    exists (str "[" ++ line ++ flat_map (fun u => indentation (S n) ++ show u ++ str "," ++ line) l ++ indentation (S n) ++ str "]"), (EList es), (NList os), (OList os).
    assert (FC : flat_map (fun x : text * expr => indentation (S n) ++ fst x ++ str "," ++ line) (combine (map show l) es) = flat_map (fun u => indentation (S n) ++ show u ++ str "," ++ line) l).
    { clear - L. revert es L. induction l as [|u l IH]; intros [|e es] L; try discriminate L; [reflexivity|]. cbn [map combine flat_map fst]. rewrite IH by (cbn in L; lia). reflexivity. }
    assert (MS : map snd (combine (map show l) es) = es).
    { clear - L. revert es L. induction l as [|u l IH]; intros [|e es] L; try discriminate L; [reflexivity|]. cbn [map combine snd]. rewrite IH by (cbn in L; lia). reflexivity. }
    split; [unfold keyword; rewrite <- !app_assoc; reflexivity|]. split; [rewrite <- FC; etransitivity; [exact (expression_list (S n) (combine (map show l) es) F)|rewrite MS; reflexivity]|].
    split; [rewrite eval_elist, V; reflexivity|]. split; [reflexivity|]. split; [exact M|]. cbn [narr_len]. do 2 f_equal.
    rewrite <- (map_length py_int os), M, map_length. reflexivity.
  - destruct HS as [S1 S2], R as [R1 R2]. destruct (usage_text x S1 R1) as [e1 [o1 [X1 [V1 Q1]]]]. destruct (usage_text y S2 R2) as [e2 [o2 [X2 [V2 Q2]]]].
    exists (show_range (URange x y)), (ECall (EName "UsageRange") [(None, e1); (None, e2)]), (NRange (URange o1 o2)), (ORange (URange o1 o2)).
    split; [reflexivity|]. split.
    { apply expression_call. unfold show_range. cbn [r_min r_max]. change (read rd_init (str "UsageRange(" ++ ?t)) with (read (Rd [] [XArgs (EName "UsageRange") [] None] None) t).
      change (str ", ") with [","%char; " "%char]. cbn [app]. rewrite (read_arg _ e1) by exact X1. rewrite read_space. change (str ")") with [")"%char].
      rewrite (read_last _ e2) by exact X2. reflexivity. }
    split; [rewrite eval_call; cbn [eval_args]; rewrite V1, V2; reflexivity|]. split; [reflexivity|]. split; [cbn; auto|].
    cbn [narr_len]. unfold range_len. cbn [r_min r_max]. rewrite Q1, Q2. reflexivity.
Qed.

Inductive shown_value (v : value) : Prop :=
| sv_padding w n : shown_way w -> mk_padding w n = Ok v -> shown_value v
| sv_align w n : shown_way w -> mk_align w n (VInt 3) = Ok v -> shown_value v
| sv_plain :
    v_kind v = KValue -> shown_way (v_way v) -> v_named v = None ->
    match v_usage v with Some u => shown_usage u | None => True end ->
    shown_flags (v_flags v) -> shown_unit (v_unit v) ->
    Z.land (py_int (v_flags v)) 1 <> 0 \/ (v_lmin v <> None /\ v_lmax v <> None) ->
    (v_pmin v = v_lmin v /\ v_pmax v = v_lmax v) \/ (exists p q, v_pmin v = Some p /\ v_pmax v = Some q /\ ~ (p = 0 /\ q = 0)) -> shown_value v
| sv_named arr a k :
    v_kind v = KValue -> shown_way (v_way v) -> v_named v = Some arr -> shown_array arr ->
    narr_len arr = Ok k -> k <> 0 ->
    match v_usage v with Some u => shown_usage u | None => True end ->
    v_flags v = (if usage_given (v_usage v) then VNamed "Variable" 2 else VInt 0) ->
    shown_unit (v_unit v) -> v_lmin v = Some a -> v_lmax v = Some (k + a - 1) -> v_pmin v = Some a -> v_pmax v = None ->
    shown_value v.

(** the usage argument *)
Lemma usage_argument u : match u with Some u => shown_usage u | None => True end ->
  match usage_list u with [] => True | z :: _ => z <> 0 /\ ~ In z misprinted end ->
  exists e o u', expression (match u with Some u => if truthy u then show_usage default_db u else str "None" | None => str "None" end) = Some e /\
    eval e = Some o /\ usage_arg o = Some u' /\ usage_list u' = usage_list u /\ usage_given u' = usage_given u.
Proof.
  intros S N.
  assert (HN : exists e o u', expression (str "None") = Some e /\ eval e = Some o /\ usage_arg o = Some u' /\ usage_list u' = [] /\ usage_given u' = false).
  { exists (EName "None"), ONone, None. repeat split. }
  destruct u as [u|]; [|exact HN]. destruct (truthy u) eqn:T.
  - destruct (shown_lookup u S) as [S' L]. assert (NI : py_int u <> 0 /\ ~ In (py_int u) misprinted).
    { destruct u as [z|m z|m z ks]; cbn [usage_list truthy py_int] in *; try exact N. destruct (z =? 0); [discriminate T|exact N]. }
    destruct NI as [NZ NM]. rewrite <- L in NM. destruct (usage_text _ S' NM) as [e [o [X [V Q]]]]. exists e, (OVal o), (Some o).
    split; [exact X|]. split; [exact V|]. split; [reflexivity|]. cbn [usage_list usage_given]. rewrite L in Q.
    assert (TO : truthy o = true) by (destruct o; cbn in *; [lia|reflexivity|reflexivity]). split; [|rewrite TO, T; reflexivity].
    destruct u as [z|m z|m z ks], o as [y|i y|i y kk]; cbn [py_int] in *; subst; try reflexivity; replace (z =? 0) with false by lia; reflexivity.
  - destruct HN as [e [o [u' [X [V [A [B C]]]]]]]. exists e, o, u'. repeat split; auto; [|cbn; rewrite C, T; reflexivity].
    destruct u as [z|m z|m z ks]; try discriminate T. cbn in *. destruct (z =? 0); [exact B|discriminate T].
Qed.

Definition from_logical : list string := ["logicalMin"; "flags"]%string.

Lemma value_text v n : shown_value v -> dumpable_value v -> exists body e w,
  dump_value default_db n v = Ok (indentation n ++ body ++ str "," ++ line) /\
  expression body = Some e /\ eval e = Some (OTree (TValue w)) /\ rebuilt v w.
Proof.
  intros S D. destruct S as [w sz W M|w sz W M|K W NA U FL UN LB PP|arr a k K W NA SA LEN K0 U FL UN LM LX PM PX].
  - (* Padding *)
    assert (KV : v_kind v = KPadding /\ v_way v = w /\ v_size v = sz).
    { unfold mk_padding, mk_value in M. cbn in M. injection M as <-. auto. }
    destruct KV as [KV [WV SV]]. destruct (way_text w W) as [we [WE WX]]. destruct (expression_dec sz) as [ne [NE NX]].
    exists (str "Padding(Value." ++ show w ++ str ", " ++ show_int sz ++ str ")"), (ECall (EName "Padding") [(None, we); (None, ne)]), v.
    split. { unfold dump_value. rewrite KV, WV, SV. change (str "),") with (str ")" ++ str ","). rewrite <- !app_assoc. reflexivity. }
    split.
    { apply expression_call. change (str "Padding(Value.") with (str "Padding(" ++ str "Value."). rewrite <- app_assoc. rewrite (app_assoc (str "Value.")).
      change (read rd_init (str "Padding(" ++ ?t)) with (read (Rd [] [XArgs (EName "Padding") [] None] None) t).
      change (str ", ") with [","%char; " "%char]. cbn [app]. rewrite (read_arg _ we) by exact WE. rewrite read_space. change (str ")") with [")"%char].
      rewrite (read_last _ ne) by exact NE. reflexivity. }
    split.
    { rewrite eval_call. cbn [eval_args]. rewrite WX, NX. change (eval (EName "Padding")) with (Some (OClass "Padding")). cbv iota. unfold call.
      cbn [String.eqb Ascii.eqb Bool.eqb]. change (py_int (VInt sz)) with sz. rewrite M. reflexivity. }
    constructor; try reflexivity. unfold same_array. destruct (v_named v) as [[l|r]|]; auto.
  - (* Align *)
    assert (KV : v_kind v = KAlign sz /\ v_way v = w).
    { unfold mk_align, mk_value in M. cbn in M. injection M as <-. auto. }
    destruct KV as [KV WV]. destruct (way_text w W) as [we [WE WX]]. destruct (expression_dec sz) as [ne [NE NX]].
    exists (str "Align(Value." ++ show w ++ str ", " ++ show_int sz ++ str ")"), (ECall (EName "Align") [(None, we); (None, ne)]), v.
    split. { unfold dump_value. rewrite KV, WV. change (str "),") with (str ")" ++ str ","). rewrite <- !app_assoc. reflexivity. }
    split.
    { apply expression_call. change (str "Align(Value.") with (str "Align(" ++ str "Value."). rewrite <- app_assoc. rewrite (app_assoc (str "Value.")).
      change (read rd_init (str "Align(" ++ ?t)) with (read (Rd [] [XArgs (EName "Align") [] None] None) t).
      change (str ", ") with [","%char; " "%char]. cbn [app]. rewrite (read_arg _ we) by exact WE. rewrite read_space. change (str ")") with [")"%char].
      rewrite (read_last _ ne) by exact NE. reflexivity. }
    split.
    { rewrite eval_call. cbn [eval_args]. rewrite WX, NX. change (eval (EName "Align")) with (Some (OClass "Align")). cbv iota. unfold call.
      cbn [String.eqb Ascii.eqb Bool.eqb]. change (py_int (VInt sz)) with sz. rewrite M. reflexivity. }
    constructor; try reflexivity. unfold same_array. destruct (v_named v) as [[l|r]|]; auto.
  - (* bounds *)
    destruct (D K) as [DU [DF [DN _]]]. destruct (way_text _ W) as [we [WE WX]]. destruct (usage_argument _ U DU) as [ue [uo [u' [UE [UX [UA [UL UG]]]]]]].
    assert (HF : exists f fl, dump_flags v = Ok fl /\ py_int f = py_int (v_flags v) /\ forall P a', Kw (VArgs (v_way v) u' (v_size v) f (Some 1) None None None None (VInt 0) 0 0 0 1 None) ["flags"%string] P a' ->
      Kw (default_args (v_way v) u' (v_size v)) [] (fl ++ P) a').
    { unfold dump_flags. destruct (py_int (v_flags v) =? 2) eqn:E.
      - exists (VInt 2), []. split; [reflexivity|]. split; [cbn [py_int]; lia|]. intros P a' HK. apply (Kw_skip "flags"). exact HK.
      - rewrite NA. cbn [narr_truthy bind andb negb]. destruct (flags_text _ FL DF) as [e [o [X [V Q]]]]. eexists o, _. split; [reflexivity|]. split; [exact Q|].
        intros P a' HK. unfold default_args. kw1 X V. exact HK. }
    destruct HF as [f [fl [DFL [FQ HF]]]].
    pose (same := opt_eqb (v_pmin v) (v_lmin v) && opt_eqb (v_pmax v) (v_lmax v)).
    pose (pm := if same then None else v_pmin v). pose (px := if same then None else v_pmax v).
    destruct (Kw_rest v (v_way v) u' (v_size v) f (v_lmin v) (v_lmax v) pm px None UN DN) as [un [UQ HR]].
    pose (P := (if opt_eqb (v_lmin v) (Some 1) then [] else keyword "logicalMin" match v_lmin v with Some z => show_int z | None => str "None" end) ++ dump_range n v ++ dump_rest v).
    assert (HP : Kw (VArgs (v_way v) u' (v_size v) f (Some 1) None None None None (VInt 0) 0 0 0 1 None) ["flags"%string] P
      (VArgs (v_way v) u' (v_size v) f (v_lmin v) (v_lmax v) pm px None un (v_uexp v) (v_desig v) (v_str v) (v_count v)
            (if v_align v =? Z.min 8 (v_size v) then None else Some (v_align v)))).
    { assert (HB : Kw (VArgs (v_way v) u' (v_size v) f (v_lmin v) None None None None (VInt 0) 0 0 0 1 None) from_logical (dump_range n v ++ dump_rest v)
        (VArgs (v_way v) u' (v_size v) f (v_lmin v) (v_lmax v) pm px None un (v_uexp v) (v_desig v) (v_str v) (v_count v)
            (if v_align v =? Z.min 8 (v_size v) then None else Some (v_align v)))).
      { assert (HQ : Kw (VArgs (v_way v) u' (v_size v) f (v_lmin v) (v_lmax v) None None None (VInt 0) 0 0 0 1 None) ["logicalMax"; "namedArray"; "logicalMin"; "flags"]%string
          ((if same then [] else match v_pmin v with None => [] | Some z => keyword "physicalMin" (show_int z) end ++ match v_pmax v with None => [] | Some z => keyword "physicalMax" (show_int z) end) ++ dump_rest v)
          (VArgs (v_way v) u' (v_size v) f (v_lmin v) (v_lmax v) pm px None un (v_uexp v) (v_desig v) (v_str v) (v_count v)
            (if v_align v =? Z.min 8 (v_size v) then None else Some (v_align v)))).
        { unfold pm, px in *. destruct same.
          - cbn [app]. apply (Kw_skip "physicalMin"). apply (Kw_skip "physicalMax"). exact HR.
          - rewrite <- app_assoc. destruct (v_pmin v) as [p|].
            + destruct (expression_dec p) as [pe [PE PV]]. kw1 PE PV. destruct (v_pmax v) as [q|].
              * destruct (expression_dec q) as [qe [QE QV]]. kw1 QE QV. exact HR.
              * cbn [app]. apply (Kw_skip "physicalMax"). exact HR.
            + cbn [app]. apply (Kw_skip "physicalMin"). destruct (v_pmax v) as [q|].
              * destruct (expression_dec q) as [qe [QE QV]]. kw1 QE QV. exact HR.
              * cbn [app]. apply (Kw_skip "physicalMax"). exact HR. }
        unfold dump_range. rewrite NA. rewrite <- app_assoc. apply (Kw_skip "namedArray"). fold same.
        destruct (v_lmax v) as [b|] eqn:LX.
        - destruct (expression_dec b) as [be [BE BX]]. kw1 BE BX. exact HQ.
        - cbn [app]. apply (Kw_skip "logicalMax"). exact HQ. }
      unfold P. destruct (v_lmin v) as [a|] eqn:LM.
      - cbn [opt_eqb]. destruct (a =? 1) eqn:E.
        + assert (a = 1) by lia. subst a. cbn [app]. apply (Kw_skip "logicalMin"). exact HB.
        + destruct (expression_dec a) as [ae [AE AV]]. kw1 AE AV. exact HB.
      - cbn [opt_eqb]. assert (NE : expression (str "None") = Some (EName "None")) by reflexivity.
        assert (NV : eval (EName "None") = Some ONone) by reflexivity. kw1 NE NV. exact HB. }
    specialize (HF _ _ HP). destruct (Kw_value _ _ _ _ _ _ _ _ _ WE WX UE UX UA HF) as [e [EX EV]].
    eexists _, e, _. split; [|split; [exact EX|]].
    { unfold dump_value. rewrite K, DFL. cbn [bind]. change (str "),") with (str ")" ++ str ","). unfold P. rewrite <- !app_assoc. reflexivity. }
    rewrite EV. unfold mk_value. cbn [a_align a_named narr_truthy bind a_lmax a_lmin a_flags a_pmin a_pmax a_way a_usage a_size a_unit a_uexp a_desig a_str a_count].
    assert (HL : (match v_lmax v with None => true | Some _ => false end || match v_lmin v with None => true | Some _ => false end) && negb false
       && (Z.land (py_int f) fl_Constant =? 0) = false).
    { rewrite FQ. change fl_Constant with 1. destruct LB as [LB|[L1 L2]].
      - replace (Z.land (py_int (v_flags v)) 1 =? 0) with false by lia. apply andb_false_r.
      - destruct (v_lmin v); [|contradiction]. destruct (v_lmax v); [|contradiction]. reflexivity. }
    rewrite HL.
    assert (HPP : (if zero_or_none pm && zero_or_none px then (v_lmin v, v_lmax v) else (Some (or_zero pm), Some (or_zero px))) = (v_pmin v, v_pmax v)).
    { assert (OE : forall x y, opt_eqb x y = true <-> x = y).
      { intros [x|] [y|]; cbn [opt_eqb]; split; intros H; try discriminate H; try reflexivity; [f_equal; lia|injection H as ->; lia]. }
      unfold pm, px, same. destruct (opt_eqb (v_pmin v) (v_lmin v) && opt_eqb (v_pmax v) (v_lmax v)) eqn:E.
      - apply andb_true_iff in E. destruct E as [E1 E2]. apply OE in E1. apply OE in E2. cbn [zero_or_none andb]. congruence.
      - destruct PP as [[P1 P2]|[p [q [P1 [P2 P3]]]]].
        + apply OE in P1. apply OE in P2. rewrite P1, P2 in E. discriminate E.
        + rewrite P1, P2. cbn [zero_or_none or_zero]. replace ((p =? 0) && (q =? 0)) with false by lia. reflexivity. }
    rewrite HPP. cbn [built]. split; [reflexivity|].
    constructor; cbn [v_kind v_way v_usage v_size v_flags v_lmin v_lmax v_pmin v_pmax v_named v_unit v_uexp v_desig v_str v_count v_align]; auto.
    + rewrite NA. exact I.
    + destruct (v_align v =? Z.min 8 (v_size v)) eqn:E; [lia|reflexivity].
  - (* named array *)
    destruct (D K) as [DU [DF [DN DA]]]. rewrite NA in DA. destruct (way_text _ W) as [we [WE WX]]. destruct (usage_argument _ U DU) as [ue [uo [u' [UE [UX [UA [UL UG]]]]]]].
    assert (RA : right_array arr) by (destruct arr; exact DA).
    destruct (array_text n arr SA RA) as [t [ae [arr' [ao [AT [AE [AX [AO [SAME LEN']]]]]]]]].
    assert (HF : dump_flags v = Ok []).
    { unfold dump_flags. rewrite FL, NA. cbn [narr_truthy]. rewrite LEN. cbn [bind]. replace (negb (k =? 0)) with true by lia. destruct (usage_given (v_usage v)); reflexivity. }
    destruct (Kw_rest v (v_way v) u' (v_size v) (VInt 2) (Some a) None None None (Some arr') UN DN) as [un [UQ HR]].
    pose (P := (if opt_eqb (v_lmin v) (Some 1) then [] else keyword "logicalMin" match v_lmin v with Some z => show_int z | None => str "None" end) ++ dump_range n v ++ dump_rest v).
    assert (HP : Kw (default_args (v_way v) u' (v_size v)) [] P
      (VArgs (v_way v) u' (v_size v) (VInt 2) (Some a) None None None (Some arr') un (v_uexp v) (v_desig v) (v_str v) (v_count v)
            (if v_align v =? Z.min 8 (v_size v) then None else Some (v_align v)))).
    { assert (HB : Kw (VArgs (v_way v) u' (v_size v) (VInt 2) (Some a) None None None None (VInt 0) 0 0 0 1 None) from_logical (dump_range n v ++ dump_rest v)
        (VArgs (v_way v) u' (v_size v) (VInt 2) (Some a) None None None (Some arr') un (v_uexp v) (v_desig v) (v_str v) (v_count v)
            (if v_align v =? Z.min 8 (v_size v) then None else Some (v_align v)))).
      { replace (dump_range n v) with (keyword "namedArray" t) by (unfold dump_range; rewrite NA, <- AT; destruct arr; reflexivity).
        eapply Kw_one; [split; vm_compute; reflexivity|exact AE|exact AX|reflexivity|rewrite AO; destruct arr'; reflexivity|].
        apply (Kw_skip "logicalMax"). apply (Kw_skip "physicalMin"). apply (Kw_skip "physicalMax"). exact HR. }
      apply (Kw_skip "flags"). unfold P. rewrite LM. cbn [opt_eqb]. destruct (a =? 1) eqn:E.
      - assert (a = 1) by lia. subst a. cbn [app]. apply (Kw_skip "logicalMin"). exact HB.
      - destruct (expression_dec a) as [le [LE LV]]. unfold default_args. kw1 LE LV. exact HB. }
    destruct (Kw_value _ _ _ _ _ _ _ _ _ WE WX UE UX UA HP) as [e [EX EV]].
    eexists _, e, _. split; [|split; [exact EX|]].
    { unfold dump_value. rewrite K, HF. cbn [bind]. change (str "),") with (str ")" ++ str ","). unfold P. rewrite <- !app_assoc. reflexivity. }
    rewrite EV. unfold mk_value. cbn [a_align a_named narr_truthy bind a_lmax a_lmin a_flags a_pmin a_pmax orb andb a_way a_usage a_size a_unit a_uexp a_desig a_str a_count].
    rewrite LEN', LEN. cbn [bind]. replace (negb (k =? 0)) with true by lia. cbn [negb andb zero_or_none]. cbn [built]. split; [reflexivity|].
    constructor; cbn [v_kind v_way v_usage v_size v_flags v_lmin v_lmax v_pmin v_pmax v_named v_unit v_uexp v_desig v_str v_count v_align]; auto.
    + rewrite FL. unfold usage_given in UG. destruct u' as [x|]; [destruct (truthy x)|]; unfold usage_given; rewrite <- UG; reflexivity.
    + rewrite NA. exact SAME.
    + destruct (v_align v =? Z.min 8 (v_size v)) eqn:E; [lia|reflexivity].
Qed.

(* ------------------------------------------------------------------ *)
(** trees *)

Fixpoint shown (t : tree) : Prop :=
  let all := fix all ms := match ms with [] => True | m :: r => shown m /\ all r end in
  match t with
  | TValue v => shown_value v
  | TTop ms | TReport _ ms => all ms
  | TColl k u ms => shown_kind k /\ match u with Some u => shown_usage u | None => True end /\ all ms
  end.

Definition shown_all (ms : list tree) : Prop := Forall shown ms.
Definition dumpable_all (ms : list tree) : Prop := Forall dumpable ms.

Lemma all_shown ms : (fix all ms := match ms with [] => True | m :: r => shown m /\ all r end) ms <-> Forall shown ms.
Proof. induction ms as [|m ms IH]; split; intros H; [constructor|exact I|destruct H; constructor; [assumption|apply IH; assumption]|inversion H; subst; split; [assumption|apply IH; assumption]]. Qed.

Lemma all_dumpable ms : (fix all ms := match ms with [] => True | m :: r => dumpable m /\ all r end) ms <-> Forall dumpable ms.
Proof. induction ms as [|m ms IH]; split; intros H; [constructor|exact I|destruct H; constructor; [assumption|apply IH; assumption]|inversion H; subst; split; [assumption|apply IH; assumption]]. Qed.

Fixpoint dump_members (n : nat) (ms : list tree) : result text :=
  match ms with
  | [] => Ok []
  | m :: r => let* a := dump default_db (S n) m in let* b := dump_members n r in Ok (a ++ b)
  end.

Lemma dump_eq n t : dump default_db n t =
  match t with
  | TValue v => dump_value default_db n v
  | TTop ms => let* b := dump_members n ms in Ok (bracketed n (str "TopLevel(" ++ line) b)
  | TReport id ms => let* b := dump_members n ms in Ok (bracketed n (str "Report(" ++ show_int id ++ str "," ++ line) b)
  | TColl k u ms => let* b := dump_members n ms in
      Ok (bracketed n (str "Collection(Collection." ++ show k ++ str ", " ++ match u with Some u => show_usage default_db u | None => str "None" end ++ str "," ++ line) b)
  end.
Proof.
  assert (G : forall ms, (fix go (ms : list tree) : result text := match ms with [] => Ok [] | m :: r => let* a := dump default_db (S n) m in let* b := go r in Ok (a ++ b) end) ms = dump_members n ms).
  { induction ms as [|m ms IH]; [reflexivity|]. cbn [dump_members]. rewrite <- IH. reflexivity. }
  destruct t; [reflexivity|..]; rewrite <- G; reflexivity.
Qed.

Definition written (n : nat) (t : tree) : Prop := exists body e t',
  dump default_db n t = Ok (indentation n ++ body ++ str "," ++ line) /\
  expression body = Some e /\ eval e = Some (OTree t') /\ same_tree t t'.

Lemma written_members n ms : Forall (written (S n)) ms -> exists l ns,
  dump_members n ms = Ok (flat_map (fun x => member_text (S n) (fst x)) l) /\
  Forall (fun x => expression (fst x) = Some (snd x)) l /\
  eval_args (map (fun x => (None, snd x)) l) = Some (map (fun t => (None, OTree t)) ns) /\ same_members ms ns.
Proof.
  induction 1 as [|m ms [body [e [t' [D [X [V S]]]]]] F [l [ns [DM [FX [EV SM]]]]]].
  - exists [], []. repeat split; constructor.
  - exists ((body, e) :: l), (t' :: ns). cbn [dump_members]. rewrite D, DM. cbn [bind]. split; [reflexivity|]. split; [constructor; [exact X|exact FX]|].
    split; [cbn [map eval_args fst snd]; rewrite V, EV; reflexivity|constructor; assumption].
Qed.

Lemma trees_all ns : trees (map (fun t => (None, OTree t)) ns) = Some ns.
Proof. induction ns as [|t ns IH]; [reflexivity|]. cbn [map trees]. rewrite IH. reflexivity. Qed.

(** the text between the brackets of an object with members *)
Lemma read_bracket n l f args k : Forall (fun x => expression (fst x) = Some (snd x)) l ->
  read (Rd [] (XArgs f args None :: k) None) (line ++ flat_map (fun x => member_text (S n) (fst x)) l ++ indentation n ++ str ")") =
  Some (Rd [] k (Some (ECall f (args ++ map (fun x => (None, snd x)) l)))).
Proof.
  intros F. unfold line at 1. cbn [app]. rewrite read_line by reflexivity. rewrite read_members by exact F. unfold indentation. rewrite read_spaces. reflexivity.
Qed.

(** an object with members *)
Definition object_text (n : nat) (t : tree) (body : text) : Prop :=
  match t with
  | TValue _ => False
  | _ => dump default_db n t = Ok ((match n with O => prelude | S _ => [] end) ++ indentation n ++ body ++ (match n with O => [] | S _ => str "," end) ++ line ++ (match n with O => postlude | S _ => [] end))
  end.

Lemma object_written n t : (match t with TValue _ => False | _ => True end) -> shown t -> dumpable t ->
  (match t with TTop ms | TReport _ ms | TColl _ _ ms => Forall (written (S n)) ms | TValue _ => False end) ->
  exists body e t', object_text n t body /\ expression body = Some e /\ eval e = Some (OTree t') /\ same_tree t t'.
Proof.
  intros NV HS D W. destruct t as [v|id ms|ms|k u ms]; [destruct NV| | |]; destruct (written_members n ms W) as [l [ns [DM [FX [EV SM]]]]].
  - destruct (expression_dec id) as [ie [IE IV]].
    exists (str "Report(" ++ show_int id ++ str "," ++ line ++ flat_map (fun x => member_text (S n) (fst x)) l ++ indentation n ++ str ")"),
      (ECall (EName "Report") ((None, ie) :: map (fun x => (None, snd x)) l)), (TReport id ns).
    split. { unfold object_text. rewrite dump_eq, DM. cbn [bind]. unfold bracketed. rewrite <- !app_assoc. reflexivity. }
    split. { apply expression_call. change (read rd_init (str "Report(" ++ ?t)) with (read (Rd [] [XArgs (EName "Report") [] None] None) t).
      change (str ",") with [","%char]. cbn [app]. rewrite (read_arg _ ie) by exact IE. rewrite read_bracket by exact FX. reflexivity. }
    split; [|constructor; exact SM]. rewrite eval_call. cbn [eval_args]. rewrite IV, EV. change (eval (EName "Report")) with (Some (OClass "Report")). cbv iota. unfold call.
    cbn [String.eqb Ascii.eqb Bool.eqb]. rewrite trees_all. reflexivity.
  - exists (str "TopLevel(" ++ line ++ flat_map (fun x => member_text (S n) (fst x)) l ++ indentation n ++ str ")"),
      (ECall (EName "TopLevel") (map (fun x => (None, snd x)) l)), (TTop ns).
    split. { unfold object_text. rewrite dump_eq, DM. cbn [bind]. unfold bracketed. rewrite <- !app_assoc. reflexivity. }
    split. { apply expression_call. change (read rd_init (str "TopLevel(" ++ ?t)) with (read (Rd [] [XArgs (EName "TopLevel") [] None] None) t). rewrite read_bracket by exact FX. reflexivity. }
    split; [|constructor; exact SM]. rewrite eval_call, EV. change (eval (EName "TopLevel")) with (Some (OClass "TopLevel")). cbv iota. unfold call.
    cbn [String.eqb Ascii.eqb Bool.eqb]. rewrite trees_all. reflexivity.
  - cbn [shown dumpable] in HS, D. destruct HS as [SK [SU _]]. destruct D as [DK [DU _]]. destruct (kind_text k SK DK) as [ke [KE KV]].
    assert (HU : exists ue uo u', expression (match u with Some u => show_usage default_db u | None => str "None" end) = Some ue /\ eval ue = Some uo /\ usage_arg uo = Some u' /\
      option_map py_int u' = option_map py_int u).
    { destruct u as [u|]; [|exists (EName "None"), ONone, None; repeat split]. destruct (shown_lookup u SU) as [SL L]. unfold printed_right in DU. rewrite <- L in DU.
      destruct (usage_text _ SL DU) as [e [o [X [V Q]]]]. exists e, (OVal o), (Some o). repeat split; [exact X|exact V|]. cbn [option_map]. congruence. }
    destruct HU as [ue [uo [u' [UE [UV [UA UQ]]]]]].
    exists (str "Collection(Collection." ++ show k ++ str ", " ++ match u with Some u => show_usage default_db u | None => str "None" end ++ str "," ++ line ++ flat_map (fun x => member_text (S n) (fst x)) l ++ indentation n ++ str ")"),
      (ECall (EName "Collection") ((None, ke) :: (None, ue) :: map (fun x => (None, snd x)) l)), (TColl k u' ns).
    split. { unfold object_text. rewrite dump_eq, DM. cbn [bind]. unfold bracketed. rewrite <- !app_assoc. reflexivity. }
    split. { apply expression_call. change (str "Collection(Collection.") with (str "Collection(" ++ str "Collection."). rewrite <- app_assoc. rewrite (app_assoc (str "Collection.")).
      change (read rd_init (str "Collection(" ++ ?t)) with (read (Rd [] [XArgs (EName "Collection") [] None] None) t).
      change (str ", ") with [","%char; " "%char]. change (str ",") with [","%char]. cbn [app]. rewrite (read_arg _ ke) by exact KE. rewrite read_space. rewrite (read_arg _ ue) by exact UE. rewrite read_bracket by exact FX. reflexivity. }
    split; [|constructor; [reflexivity|exact UQ|exact SM]]. rewrite eval_call. cbn [eval_args]. rewrite KV, UV, EV. change (eval (EName "Collection")) with (Some (OClass "Collection")). cbv iota. unfold call.
    cbn [String.eqb Ascii.eqb Bool.eqb]. rewrite UA, trees_all. reflexivity.
Qed.

Lemma tree_written t : shown t -> dumpable t -> forall n, written (S n) t.
Proof.
  revert t.
  assert (HO : forall n t, (match t with TValue _ => False | _ => True end) -> shown t -> dumpable t ->
    (match t with TTop ms | TReport _ ms | TColl _ _ ms => Forall (written (S (S n))) ms | TValue _ => False end) -> written (S n) t).
  { intros n t NV S D W. destruct (object_written (Datatypes.S n) t NV S D W) as [body [e [t' [O [X [V SM]]]]]]. exists body, e, t'. repeat split; auto.
    destruct t; [destruct NV|..]; cbn [object_text app] in O; rewrite O, app_nil_r; reflexivity. }
  assert (HM : forall ms, Forall (fun t => shown t -> dumpable t -> forall n, written (S n) t) ms -> Forall shown ms -> Forall dumpable ms -> forall n, Forall (written (S n)) ms).
  { induction 1 as [|m ms H F IH]; intros S D n; constructor; [apply H; [apply (Forall_inv S)|apply (Forall_inv D)]|apply IH; [apply (Forall_inv_tail S)|apply (Forall_inv_tail D)]]. }
  apply (tree_all (fun t => shown t -> dumpable t -> forall n, written (S n) t)).
  - intros v S D n. destruct (value_text v (Datatypes.S n) S D) as [body [e [w [X [Y [Z R]]]]]]. exists body, e, (TValue w). repeat split; auto. constructor. exact R.
  - intros id ms F S D n. apply HO; [exact I|exact S|exact D|]. apply HM; [exact F|apply all_shown; exact S|apply all_dumpable; exact D].
  - intros ms F S D n. apply HO; [exact I|exact S|exact D|]. apply HM; [exact F|apply all_shown; exact S|apply all_dumpable; exact D].
  - intros k u ms F S D n. apply HO; [exact I|exact S|exact D|]. apply HM; [exact F|apply all_shown; apply S|apply all_dumpable; apply D].
Qed.

Lemma any_written t : (match t with TValue _ => False | _ => True end) -> shown t -> dumpable t ->
  exists s t', dump default_db 0 t = Ok s /\ script s t' /\ same_tree t t'.
Proof.
  intros NV S D. destruct (object_written 0 t NV S D) as [body [e [t' [O [X [V SM]]]]]].
  { destruct t as [v|id ms|ms|k u ms]; [destruct NV| | |]; apply Forall_forall; intros m M; apply tree_written.
    - apply (proj1 (Forall_forall _ _) (proj1 (all_shown ms) S) m M).
    - apply (proj1 (Forall_forall _ _) (proj1 (all_dumpable ms) D) m M).
    - apply (proj1 (Forall_forall _ _) (proj1 (all_shown ms) S) m M).
    - apply (proj1 (Forall_forall _ _) (proj1 (all_dumpable ms) D) m M).
    - apply (proj1 (Forall_forall _ _) (proj1 (all_shown ms) (proj2 (proj2 S))) m M).
    - apply (proj1 (Forall_forall _ _) (proj1 (all_dumpable ms) (proj2 (proj2 D))) m M). }
  eexists _, t'. split; [destruct t; [destruct NV|exact O..]|]. split; [|exact SM]. exists body, e. split; [|auto]. reflexivity.
Qed.

Lemma top_written ms : shown (TTop ms) -> dumpable (TTop ms) -> exists s t', dump default_db 0 (TTop ms) = Ok s /\ script s t' /\ same_tree (TTop ms) t'.
Proof. apply any_written. exact I. Qed.
