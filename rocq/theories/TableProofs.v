(* TableProofs.v -- the usage constants of the package *)
From Coq Require Import ZifyBool DecimalString DecimalZ.
From Verif Require Import Py Usage Item HidSpec ItemFacts ParserFacts UsageTable UsageModules.
Local Open Scope Z_scope.
Ltac Zify.zify_post_hook ::= Z.div_mod_to_equations.

Fixpoint kinds_eqb (a b : list utype) : bool :=
  match a, b with
  | [], [] => true
  | x :: a', y :: b' => utype_eqb x y && kinds_eqb a' b'
  | _, _ => false
  end.

Lemma utype_eqb_eq a b : utype_eqb a b = true -> a = b.
Proof. destruct a, b; simpl; congruence. Qed.

Lemma kinds_eqb_eq a b : kinds_eqb a b = true -> a = b.
Proof.
  revert b. induction a as [|x a IH]; intros [|y b] H; simpl in H; try discriminate; auto.
  apply andb_true_iff in H. destruct H as [H1 H2]. apply utype_eqb_eq in H1. subst.
  f_equal; auto.
Qed.

Definition entry_eqb (a b : option (string * list utype)) : bool :=
  match a, b with
  | Some (n, k), Some (n', k') => String.eqb n n' && kinds_eqb k k'
  | None, None => true
  | _, _ => false
  end.

Lemma entry_eqb_eq a b : entry_eqb a b = true -> a = b.
Proof.
  destruct a as [[n k]|], b as [[n' k']|]; simpl; try discriminate; auto.
  intros H. apply andb_true_iff in H. destruct H as [H1 H2].
  apply String.eqb_eq in H1. apply kinds_eqb_eq in H2. congruence.
Qed.

Definition all_decls : list udecl := flat_map snd modules.

Lemma in_all m ds d : In (m, ds) modules -> In d ds -> In d all_decls.
Proof. intros H1 H2. apply in_flat_map. exists (m, ds). auto. Qed.

Definition entry (d : udecl) := Some (u_name d, u_kinds d).

#[local] Opaque t_arcade modules default_db.
Definition table_ok : bool :=
  forallb (fun d => entry_eqb (default_db (u_value d)) (entry d)
                    && (65536 <=? u_value d) && (u_value d <? 0xff000000)) all_decls.

Lemma table_ok_true : table_ok = true.
Proof. vm_compute. reflexivity. Qed.

Lemma default_entry d :
  In d all_decls -> default_db (u_value d) = entry d /\ 65536 <= u_value d < 0xff000000.
Proof.
  intros H. pose proof table_ok_true as T. unfold table_ok in T.
  rewrite forallb_forall in T. specialize (T d H).
  apply andb_true_iff in T. destruct T as [T T3]. apply andb_true_iff in T. destruct T as [T1 T2].
  apply entry_eqb_eq in T1. split; auto. lia.
Qed.

(* which entry a number has after any calls *)
Definition button_entry (z : Z) := entry (button_decl (z - 0x90000)).
Definition ordinal_entry (z : Z) := entry (ordinal_decl (z - 0xa0000)).

Definition call_ok (c : call) : Prop :=
  match c with CButton n | COrdinal n => 0 <= n < 65536 | CArcade => True end.

Lemma register_decls_other l db z :
  (forall d, In d l -> u_value d <> z) -> register_decls db l z = db z.
Proof.
  unfold register_decls. revert db. induction l as [|d l IH]; intros db H; simpl; auto.
  rewrite IH by (intros; apply H; simpl; auto).
  unfold register. specialize (H d (or_introl eq_refl)).
  destruct (z =? u_value d) eqn:E; auto. lia.
Qed.

Lemma arcade_page : forallb (fun d => 0xff000000 <=? u_value d) t_arcade = true.
Proof. vm_compute. reflexivity. Qed.

Definition low_ok (db : udb) : Prop :=
  forall z, z < 0xff000000 ->
  if (0x90000 <=? z) && (z <? 0xa0000) then db z = default_db z \/ db z = button_entry z
  else if (0xa0000 <=? z) && (z <? 0xb0000) then db z = default_db z \/ db z = ordinal_entry z
  else db z = default_db z.

Lemma low_ok_call db c : call_ok c -> low_ok db -> low_ok (db_call db c).
Proof.
  intros C H z Hz. specialize (H z Hz). destruct c as [n|n|]; simpl in C.
  - unfold db_call. change (register_decls db [button_decl n] z)
      with (register db (u_name (button_decl n)) (0x90000 + n) (u_kinds (button_decl n)) z).
    unfold register. destruct (z =? 0x90000 + n) eqn:E; auto.
    assert (z = 0x90000 + n) by lia. clear E.
    replace ((0x90000 <=? z) && (z <? 0xa0000)) with true in * by lia.
    right. unfold button_entry. replace (z - 0x90000) with n by lia. reflexivity.
  - unfold db_call. change (register_decls db [ordinal_decl n] z)
      with (register db (u_name (ordinal_decl n)) (0xa0000 + n) (u_kinds (ordinal_decl n)) z).
    unfold register. destruct (z =? 0xa0000 + n) eqn:E; auto.
    assert (z = 0xa0000 + n) by lia. clear E.
    replace ((0x90000 <=? z) && (z <? 0xa0000)) with false in * by lia.
    replace ((0xa0000 <=? z) && (z <? 0xb0000)) with true in * by lia.
    right. unfold ordinal_entry. replace (z - 0xa0000) with n by lia. reflexivity.
  - unfold db_call. rewrite register_decls_other; auto.
    intros d Hd. pose proof arcade_page as A. rewrite forallb_forall in A. specialize (A d Hd). lia.
Qed.

Lemma low_ok_after h : Forall call_ok h -> low_ok (db_after h).
Proof.
  unfold db_after.
  assert (G : forall db, low_ok db -> Forall call_ok h -> low_ok (fold_left db_call h db)).
  { induction h as [|c h IH]; intros db L F; simpl; auto. inversion F; subst.
    apply IH; auto. apply low_ok_call; auto. }
  apply G. intros z _. destruct (_ && _); auto. destruct (_ && _); auto.
Qed.

Definition pages_ok : bool :=
  forallb (fun d =>
    (if (0x90000 <=? u_value d) && (u_value d <? 0xa0000)
     then entry_eqb (button_entry (u_value d)) (entry d) else true)
    && (if (0xa0000 <=? u_value d) && (u_value d <? 0xb0000)
        then entry_eqb (ordinal_entry (u_value d)) (entry d) else true)) all_decls.

Lemma pages_ok_true : pages_ok = true.
Proof. vm_compute. reflexivity. Qed.

Lemma after_entry h d :
  Forall call_ok h -> In d all_decls -> db_after h (u_value d) = entry d.
Proof.
  intros F I. destruct (default_entry d I) as [D B].
  pose proof (low_ok_after h F (u_value d) (proj2 B)) as L.
  pose proof pages_ok_true as P. unfold pages_ok in P. rewrite forallb_forall in P.
  specialize (P d I). apply andb_true_iff in P. destruct P as [P1 P2].
  destruct ((0x90000 <=? u_value d) && (u_value d <? 0xa0000)).
  - apply entry_eqb_eq in P1. destruct L as [->| ->]; auto.
  - destruct ((0xa0000 <=? u_value d) && (u_value d <? 0xb0000)).
    + apply entry_eqb_eq in P2. destruct L as [->| ->]; auto.
    + congruence.
Qed.

Lemma lookup_entry db d :
  65536 <= u_value d -> db (u_value d) = entry d -> lookup db (VInt (u_value d)) = usage_of d.
Proof.
  intros B E. unfold lookup. rewrite shiftr_16_zero by lia.
  replace (u_value d <? 65536) with false by lia. cbv [negb]. rewrite E. reflexivity.
Qed.

Lemma c19 h m ds d :
  Forall call_ok h -> In (m, ds) modules -> In d ds ->
  lookup (db_after h) (VInt (u_value d)) = usage_of d.
Proof.
  intros F M D. pose proof (in_all m ds d M D) as I.
  apply lookup_entry; [apply (default_entry d I)|]. apply after_entry; auto.
Qed.

Lemma c19_unique m ds d m' ds' d' :
  In (m, ds) modules -> In d ds -> In (m', ds') modules -> In d' ds' ->
  u_value d = u_value d' -> usage_of d = usage_of d'.
Proof.
  intros M D M' D' E.
  rewrite <- (c19 [] m ds d), <- (c19 [] m' ds' d'), E; auto.
Qed.

(* numbers registered by calls *)
Lemma after_gen z e c0 :
  (forall c db, call_ok c -> db z = e -> db_call db c z = e) ->
  (forall db, db_call db c0 z = e) ->
  forall h db, Forall call_ok h -> db z = e \/ In c0 h -> fold_left db_call h db z = e.
Proof.
  intros K1 K2. induction h as [|c h IH]; intros db F H; cbn [fold_left].
  - destruct H as [H|H]; [exact H|destruct H].
  - inversion F as [|? ? C F']; subst. apply IH; auto. destruct H as [H|[->|H]]; auto.
Qed.

Lemma arcade_other db z : z < 0xff000000 -> register_decls db t_arcade z = db z.
Proof.
  intros Hz. apply register_decls_other. intros d Hd.
  pose proof arcade_page as A. rewrite forallb_forall in A. specialize (A d Hd). lia.
Qed.

Lemma one_decl db d z :
  register_decls db [d] z = if z =? u_value d then entry d else db z.
Proof. reflexivity. Qed.

Lemma after_button h n :
  0 <= n < 65536 -> In (CButton n) h -> Forall call_ok h ->
  db_after h (0x90000 + n) = entry (button_decl n).
Proof.
  intros Hn I F. unfold db_after. apply after_gen with (c0 := CButton n); auto.
  - intros c db C H. destruct c as [k|k|]; cbn [db_call call_ok] in *.
    + rewrite one_decl. cbn [u_value button_decl]. destruct (_ =? _) eqn:E; auto.
      replace k with n by lia. reflexivity.
    + rewrite one_decl. cbn [u_value ordinal_decl]. destruct (_ =? _) eqn:E; auto. lia.
    + rewrite arcade_other; auto. lia.
  - intros db. cbn [db_call]. rewrite one_decl. cbn [u_value button_decl].
    rewrite Z.eqb_refl. reflexivity.
Qed.

Lemma after_ordinal h n :
  0 <= n < 65536 -> In (COrdinal n) h -> Forall call_ok h ->
  db_after h (0xa0000 + n) = entry (ordinal_decl n).
Proof.
  intros Hn I F. unfold db_after. apply after_gen with (c0 := COrdinal n); auto.
  - intros c db C H. destruct c as [k|k|]; cbn [db_call call_ok] in *.
    + rewrite one_decl. cbn [u_value button_decl]. destruct (_ =? _) eqn:E; auto. lia.
    + rewrite one_decl. cbn [u_value ordinal_decl]. destruct (_ =? _) eqn:E; auto.
      replace k with n by lia. reflexivity.
    + rewrite arcade_other; auto. lia.
  - intros db. cbn [db_call]. rewrite one_decl. cbn [u_value ordinal_decl].
    rewrite Z.eqb_refl. reflexivity.
Qed.

Lemma c19_calls h n :
  Forall call_ok h ->
  (In (CButton n) h -> lookup (db_after h) (VInt (0x90000 + n)) = usage_of (button_decl n)) /\
  (In (COrdinal n) h -> lookup (db_after h) (VInt (0xa0000 + n)) = usage_of (ordinal_decl n)).
Proof.
  intros F. split; intros I; pose proof F as F'; rewrite Forall_forall in F'; apply F' in I as B;
    cbn [call_ok] in B.
  - change (0x90000 + n) with (u_value (button_decl n)).
    apply lookup_entry; [cbn [u_value button_decl]; lia|].
    change (u_value (button_decl n)) with (0x90000 + n). apply after_button; auto.
  - change (0xa0000 + n) with (u_value (ordinal_decl n)).
    apply lookup_entry; [cbn [u_value ordinal_decl]; lia|].
    change (u_value (ordinal_decl n)) with (0xa0000 + n). apply after_ordinal; auto.
Qed.

Lemma arcade_ok : forallb (fun d =>
   entry_eqb (register_decls empty_db t_arcade (u_value d)) (entry d)) t_arcade = true.
Proof. vm_compute. reflexivity. Qed.

Lemma register_decls_same l db db' z :
  (exists d, In d l /\ u_value d = z) -> register_decls db l z = register_decls db' l z.
Proof.
  revert db db'. induction l as [|d l IH]; intros db db' [e [I E]]; [destruct I|].
  change (register_decls db (d :: l) z)
    with (register_decls (register db (u_name d) (u_value d) (u_kinds d)) l z).
  change (register_decls db' (d :: l) z)
    with (register_decls (register db' (u_name d) (u_value d) (u_kinds d)) l z).
  destruct (In_dec Z.eq_dec z (map u_value l)) as [J|J].
  - apply IH. apply in_map_iff in J. destruct J as [x [X1 X2]]. eauto.
  - destruct I as [<-|I]; [|exfalso; apply J; apply in_map_iff; eauto].
    rewrite !(register_decls_other l) by (intros x Hx Q; apply J; apply in_map_iff; eauto).
    unfold register. rewrite E, Z.eqb_refl. reflexivity.
Qed.

Lemma c19_arcade h d :
  Forall call_ok h -> In CArcade h -> In d t_arcade ->
  lookup (db_after h) (VInt (u_value d)) = usage_of d.
Proof.
  intros F I D.
  pose proof arcade_page as A. rewrite forallb_forall in A. specialize (A d D).
  apply lookup_entry; [lia|]. unfold db_after.
  assert (AE : register_decls empty_db t_arcade (u_value d) = entry d).
  { pose proof arcade_ok as Q. rewrite forallb_forall in Q. apply entry_eqb_eq, Q, D. }
  refine (after_gen _ _ CArcade _ _ h default_db F (or_intror I)).
  - intros c db C H. destruct c as [k|k|]; cbn [db_call call_ok] in *.
    + rewrite one_decl. cbn [u_value button_decl]. destruct (_ =? _) eqn:E; auto. lia.
    + rewrite one_decl. cbn [u_value ordinal_decl]. destruct (_ =? _) eqn:E; auto. lia.
    + rewrite (register_decls_same _ db empty_db (u_value d) (ex_intro _ d (conj D eq_refl))). exact AE.
  - intros db. cbn [db_call].
    rewrite (register_decls_same _ db empty_db (u_value d) (ex_intro _ d (conj D eq_refl))). exact AE.
Qed.

(* ------------------------------------------------------------------ *)
(** names *)

Definition misnamed : list (string * string) :=
  [("desktop", "TabletPCSystem"); ("desktop", "Start"); ("desktop", "Select");
   ("simulation", "AntiTorqueControl")]%string.

Definition pair_eqb (a b : string * string) : bool :=
  String.eqb (fst a) (fst b) && String.eqb (snd a) (snd b).

Definition decl_eqb (a b : udecl) : bool :=
  String.eqb (u_name a) (u_name b) && (u_value a =? u_value b) && kinds_eqb (u_kinds a) (u_kinds b).

Definition names_ok : bool :=
  forallb (fun m => forallb (fun d =>
    Bool.eqb (match eval_name (u_name d) with Some d' => decl_eqb d' d | None => false end)
             (negb (existsb (pair_eqb (fst m, u_attr d)) misnamed))) (snd m)) modules.

Lemma names_ok_true : names_ok = true.
Proof. vm_compute. reflexivity. Qed.

Lemma decl_eqb_usage a b : decl_eqb a b = true -> usage_of a = usage_of b.
Proof.
  unfold decl_eqb, usage_of. intros H. apply andb_true_iff in H. destruct H as [H H3].
  apply andb_true_iff in H. destruct H as [H1 H2]. apply String.eqb_eq in H1. apply kinds_eqb_eq in H3.
  f_equal; auto. lia.
Qed.

Lemma kinds_eqb_refl k : kinds_eqb k k = true.
Proof. induction k as [|x k IH]; simpl; auto. rewrite IH. destruct x; reflexivity. Qed.

Lemma usage_decl_eqb a b : usage_of a = usage_of b -> decl_eqb a b = true.
Proof.
  unfold decl_eqb, usage_of. intros H. injection H as H1 H2 H3.
  rewrite H1, H2, H3, String.eqb_refl, Z.eqb_refl, kinds_eqb_refl. reflexivity.
Qed.

Lemma misnamed_in m a : existsb (pair_eqb (m, a)) misnamed = true <-> In (m, a) misnamed.
Proof.
  rewrite existsb_exists. split.
  - intros [[x y] [I E]]. unfold pair_eqb in E. simpl in E.
    apply andb_true_iff in E. destruct E as [E1 E2].
    apply String.eqb_eq in E1. apply String.eqb_eq in E2. congruence.
  - intros I. exists (m, a). split; auto. unfold pair_eqb. simpl. rewrite !String.eqb_refl. auto.
Qed.

Lemma c20_partial m ds d :
  In (m, ds) modules -> In d ds ->
  (exists d', eval_name (u_name d) = Some d' /\ usage_of d' = usage_of d)
  <-> ~ In (m, u_attr d) misnamed.
Proof.
  intros M D. pose proof names_ok_true as T. unfold names_ok in T.
  rewrite forallb_forall in T. specialize (T _ M). rewrite forallb_forall in T. specialize (T _ D).
  cbn [fst snd] in T. apply eqb_prop in T. rewrite <- misnamed_in.
  destruct (existsb _ misnamed).
  - split; [|intros H; congruence]. intros [d' [E U]]. rewrite E in T.
    rewrite usage_decl_eqb in T; auto; discriminate.
  - split; [discriminate|]. intros _. destruct (eval_name (u_name d)) as [d'|]; [|discriminate].
    exists d'. split; auto. apply decl_eqb_usage; auto.
Qed.

Lemma strip_prefix_app p s : strip_prefix p (p ++ s) = Some s.
Proof. induction p as [|c p IH]; simpl; auto. rewrite Ascii.eqb_refl. exact IH. Qed.

Lemma strip_paren_app s : strip_paren (s ++ ")") = Some s.
Proof.
  induction s as [|c s IH]; auto. cbn [append strip_paren]. rewrite IH.
  destruct s; reflexivity.
Qed.

Lemma dec_roundtrip n : 0 <= n -> NilZero.int_of_string (dec_of_Z n) = Some (Z.to_int n).
Proof.
  intros Hn. unfold dec_of_Z. destruct n as [|p|p]; [reflexivity| |lia].
  apply NilZero.isi; simpl; [|discriminate].
  intros E; injection E as E. exact (DecimalPos.Unsigned.to_uint_nonnil p E).
Qed.

Lemma call_arg_ok f n : 0 <= n -> call_arg f (f ++ dec_of_Z n ++ ")") = Some n.
Proof.
  intros H. unfold call_arg. rewrite strip_prefix_app, strip_paren_app, dec_roundtrip by auto.
  rewrite of_to. reflexivity.
Qed.

Lemma c20_calls n :
  0 <= n ->
  eval_name (u_name (button_decl n)) = Some (button_decl n) /\
  eval_name (u_name (ordinal_decl n)) = Some (ordinal_decl n).
Proof.
  intros H. split; cbn [u_name button_decl ordinal_decl]; unfold eval_name.
  - change (split_dot ("button.Button(" ++ dec_of_Z n ++ ")"))
      with (Some ("button"%string, ("Button(" ++ dec_of_Z n ++ ")")%string)).
    cbv iota beta zeta.
    change (skip_spaces ("Button(" ++ dec_of_Z n ++ ")")) with ("Button(" ++ dec_of_Z n ++ ")")%string.
    change (String.eqb "button" "button") with true. cbv iota.
    rewrite call_arg_ok by auto. reflexivity.
  - change (split_dot ("ordinal.Ordinal(" ++ dec_of_Z n ++ ")"))
      with (Some ("ordinal"%string, ("Ordinal(" ++ dec_of_Z n ++ ")")%string)).
    cbv iota beta zeta.
    change (skip_spaces ("Ordinal(" ++ dec_of_Z n ++ ")")) with ("Ordinal(" ++ dec_of_Z n ++ ")")%string.
    change (String.eqb "ordinal" "button") with false.
    change (String.eqb "ordinal" "ordinal") with true. cbv iota.
    rewrite call_arg_ok by auto. reflexivity.
Qed.

(** Usage page numbers and names of the HID Usage Tables, by module *)
Definition hut_page : list (string * (Z * string)) :=
  [("desktop", (1, "GenericDesktop")); ("simulation", (2, "Simulation")); ("vr", (3, "VR"));
   ("game", (5, "Game")); ("device", (6, "Device")); ("keyboard", (7, "Keyboard"));
   ("led", (8, "Led")); ("button", (9, "Button")); ("ordinal", (10, "Ordinal"));
   ("telephony", (11, "TelephonyDevice")); ("consumer", (12, "Consumer"));
   ("digitizers", (13, "Digitizers")); ("pid", (15, "PID")); ("sensors", (32, "Sensors"));
   ("lighting", (89, "Lighting")); ("camera", (144, "Camera"))]%string.

Definition misplaced : list (string * string) :=
  [("desktop", "SystemDisplayRotationLockButton")]%string.

Definition places_ok : bool :=
  forallb (fun m =>
    match find (fun p => String.eqb (fst p) (fst m)) hut_page with
    | Some p => match pageName (fst (snd p)) with
                | Some n => String.eqb n (snd (snd p))
                | None => false
                end && forallb (fun d =>
        Bool.eqb (u_value d / 65536 =? fst (snd p))
                 (negb (existsb (pair_eqb (fst m, u_attr d)) misplaced))) (snd m)
    | None => false
    end) modules.

Lemma places_ok_true : places_ok = true.
Proof. vm_compute. reflexivity. Qed.

Lemma find_fst {A} (l : list (string * A)) m p :
  find (fun p => String.eqb (fst p) m) l = Some p -> In (m, snd p) l.
Proof.
  intros H. apply find_some in H. destruct H as [I E]. apply String.eqb_eq in E. subst m.
  destruct p; exact I.
Qed.

Lemma c21 m ds :
  In (m, ds) modules ->
  exists p n, In (m, (p, n)) hut_page /\ pageName p = Some n /\
    forall d, In d ds -> u_value d / 65536 = p <-> ~ In (m, u_attr d) misplaced.
Proof.
  intros M. pose proof places_ok_true as T. unfold places_ok in T.
  rewrite forallb_forall in T. specialize (T _ M). cbn [fst snd] in T.
  destruct (find _ hut_page) as [[q [p n]]|] eqn:F; [|discriminate].
  apply find_fst in F. cbn [fst snd] in F, T. apply andb_true_iff in T. destruct T as [N T].
  exists p, n. split; [exact F|]. split.
  { destruct (pageName p) as [k|]; [|discriminate]. apply String.eqb_eq in N. congruence. }
  intros d D.
  rewrite forallb_forall in T. specialize (T _ D). apply eqb_prop in T.
  rewrite <- Z.eqb_eq, T, negb_true_iff.
  assert (X : existsb (pair_eqb (m, u_attr d)) misplaced = true <-> In (m, u_attr d) misplaced).
  { rewrite existsb_exists. split.
    - intros [[x y] [I E]]. unfold pair_eqb in E. cbn [fst snd] in E.
      apply andb_true_iff in E. destruct E as [E1 E2].
      apply String.eqb_eq in E1. apply String.eqb_eq in E2. congruence.
    - intros I. exists (m, u_attr d). split; [exact I|]. unfold pair_eqb. cbn [fst snd].
      rewrite !String.eqb_refl. reflexivity. }
  rewrite <- X. destruct (existsb _ misplaced); intuition congruence.
Qed.

Definition desktop_decls : list udecl :=
  match find_module "desktop" with Some l => l | None => [] end.

Lemma desktop_in : In ("desktop"%string, desktop_decls) modules.
Proof.
  unfold desktop_decls, find_module.
  destruct (find _ modules) as [p|] eqn:E.
  - apply find_some in E. destruct E as [I E]. apply String.eqb_eq in E.
    destruct p as [n l]. cbn [fst] in E. subst n. exact I.
  - exfalso. revert E. vm_compute. discriminate.
Qed.

Definition attr_decl (a : string) : udecl :=
  match find (fun d => String.eqb (u_attr d) a) desktop_decls with
  | Some d => d | None => button_decl 0 end.

Lemma attr_decl_in a :
  find (fun d => String.eqb (u_attr d) a) desktop_decls <> None ->
  In (attr_decl a) desktop_decls.
Proof.
  unfold attr_decl. destruct (find _ _) as [d|] eqn:E; [|congruence]. intros _.
  apply find_some in E. tauto.
Qed.

Lemma c20_refuted : exists m ds d,
  In (m, ds) modules /\ In d ds /\
  ~ exists d', eval_name (u_name d) = Some d' /\ usage_of d' = usage_of d.
Proof.
  exists "desktop"%string, desktop_decls, (attr_decl "TabletPCSystem"%string).
  assert (I : In (attr_decl "TabletPCSystem"%string) desktop_decls)
    by (apply attr_decl_in; vm_compute; discriminate).
  split; [exact desktop_in|]. split; [exact I|].
  intros H. apply (c20_partial "desktop" desktop_decls _ desktop_in I) in H.
  apply H. vm_compute. left. reflexivity.
Qed.

Lemma c21_refuted : exists m ds d d',
  In (m, ds) modules /\ In d ds /\ In d' ds /\ u_value d / 65536 <> u_value d' / 65536.
Proof.
  exists "desktop"%string, desktop_decls, (attr_decl "Mouse"%string),
    (attr_decl "SystemDisplayRotationLockButton"%string).
  split; [exact desktop_in|].
  split; [apply attr_decl_in; vm_compute; discriminate|].
  split; [apply attr_decl_in; vm_compute; discriminate|].
  vm_compute. discriminate.
Qed.
