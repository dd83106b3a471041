(* Properties_Small.v -- passes run twice, comparing items, arithmetic of
   named constants: C66 to C69.  Proofs are in Idem.v, MainIdem.v and
   CompareProofs.v. *)
From Coq Require Import ZifyBool.
From Verif Require Import Py Usage Item ItemFacts Optimizer OptFacts PassFacts
  Idem MainIdem Compare CompareProofs.
Local Open Scope list_scope.
Local Open Scope Z_scope.

Definition once_is_enough (p : pass) (l : list item) : Prop :=
  run_pass p (run_pass p l) = run_pass p l.

(** C66: six passes leave their own output alone, whatever the stream. *)
Theorem C66_partial : forall db p,
  In p [designator_uniq; physical_merge; global_merge; designator_merge db;
        string_merge db; usage_merge db] ->
  forall l, once_is_enough p l.
Proof.
  intros db p I l. unfold once_is_enough.
  destruct I as [<-|[<-|[<-|[<-|[<-|[<-|[]]]]]]].
  - apply du_idem.
  - apply pm_idem.
  - apply gm_idem.
  - apply rm_idem. left. reflexivity.
  - apply rm_idem. right. left. reflexivity.
  - apply rm_idem. right. right. reflexivity.
Qed.
Print Assumptions C66_partial.

(** MainMerge does on streams that end by closing a collection and have no
    count of 0. *)
Theorem C66_main_partial : forall l,
  (exists l' i, l = l' ++ [i] /\ kind_of (ic i) = Main /\ is_data (ic i) = false) ->
  Forall (fun i => ic i = ReportCount -> ival i > 0) l ->
  once_is_enough main_merge l.
Proof. exact mm_idem. Qed.
Print Assumptions C66_main_partial.

(* a stream on which every pass but UsagePage does something *)
Definition busy : list item :=
  map (fun p => Item (fst p) (VInt (snd p)))
    [(Usage, 0x10002); (DesignatorIndex, 0); (Collection, 1); (ReportSize, 1);
     (ReportCount, 1); (LogicalMinimum, 0); (LogicalMaximum, 1);
     (PhysicalMinimum, 0); (PhysicalMaximum, 1);
     (Usage, 0x90001); (StringIndex, 4); (Input, 2); (ReportSize, 1);
     (Usage, 0x90002); (StringIndex, 5); (Input, 2);
     (Usage, 0x90003); (StringIndex, 6); (Input, 2);
     (DesignatorIndex, 3); (DesignatorIndex, 4); (DesignatorIndex, 5);
     (Feature, 2); (EndCollection, 0)].

Definition all_but_page (l : list item) : list item :=
  run_pass (usage_merge empty_db) (run_pass (designator_merge empty_db)
    (run_pass (string_merge empty_db) (run_pass global_merge
      (run_pass physical_merge (run_pass main_merge
        (run_pass designator_uniq l)))))).

Example C66_case :
  length busy = 24%nat /\
  length (run_pass designator_uniq busy) = 23%nat /\
  length (run_pass physical_merge busy) = 22%nat /\
  length (run_pass global_merge busy) = 22%nat /\
  length (run_pass (designator_merge empty_db) busy) = 23%nat /\
  length (run_pass main_merge busy) = 23%nat /\
  length (all_but_page busy) = 16%nat /\
  (exists l' i, busy = l' ++ [i] /\ kind_of (ic i) = Main /\ is_data (ic i) = false) /\
  Forall (fun i => ic i = ReportCount -> ival i > 0) busy.
Proof.
  repeat match goal with |- (_ = _) /\ _ => split; [vm_compute; reflexivity|] end.
  split.
  - exists (removelast busy), (Item EndCollection (VInt 0)).
    vm_compute. auto.
  - apply Forall_forall. intros x Hx.
    repeat (destruct Hx as [<-|Hx]; [discriminate || (intros _; reflexivity)|]). destruct Hx.
Qed.

(** False for UsagePage, which takes the short usages it wrote for usages of
    page 0, and so for the whole optimiser; for MainMerge when a count is 0
    or the last data items are not followed by the end of a collection. *)
Definition unclosed66 : list item :=
  map (fun p => Item (fst p) (VInt (snd p)))
    [(ReportCount, 1); (Collection, 1); (Collection, 0); (Input, 2)].
Definition zero66 : list item :=
  map (fun p => Item (fst p) (VInt (snd p)))
    [(ReportCount, 1); (Input, 2); (ReportCount, 0); (Input, 2);
     (ReportCount, 1); (Input, 2); (EndCollection, 0)].

Theorem C66_refuted :
  ~ once_is_enough (usage_page_pass empty_db) busy /\
  optimize empty_db (optimize empty_db busy) <> optimize empty_db busy /\
  ~ once_is_enough main_merge unclosed66 /\
  ~ once_is_enough main_merge zero66.
Proof. repeat split; intros H; vm_compute in H; discriminate H. Qed.
Print Assumptions C66_refuted.

(** C67: == is an equivalence, and on items built by the constructors it is
    equality of the bytes. *)
Theorem C67 : forall db1 db2 c1 c2 v1 v2 a b x y,
  mk_item db1 c1 v1 = Ok a -> mk_item db2 c2 v2 = Ok b ->
  bytes a = Ok x -> bytes b = Ok y ->
  (item_eqb a b = true <-> x = y).
Proof. exact c67. Qed.
Print Assumptions C67.

Theorem C67_equivalence :
  (forall a, item_eqb a a = true) /\
  (forall a b, item_eqb a b = true -> item_eqb b a = true) /\
  (forall a b c, item_eqb a b = true -> item_eqb b c = true -> item_eqb a c = true).
Proof. exact c67_equiv. Qed.
Print Assumptions C67_equivalence.

(* the same item written with an int and with a constant; another class with
   the same tag; a neighbouring value of another width *)
Example C67_case :
  let a := Item Unit (VNamed "Centimeter" 0x11) in
  let b := Item Unit (VNamed "cm" 0x11) in
  let c := Item ReportID (VInt 255) in
  let d := Item StringMinimum (VInt 255) in
  mk_item empty_db Unit (Some (VInt 0x11)) = Ok a /\
  mk_item empty_db ReportID (Some (VInt 255)) = Ok c /\
  mk_item empty_db StringMinimum (Some (VInt 255)) = Ok d /\
  item_eqb a b = true /\ bytes a = bytes b /\
  item_eqb c d = false /\ bytes c = Ok [0x85; 255] /\ bytes d = Ok [0x89; 255].
Proof. vm_compute. repeat split. Qed.

(** C68: < is irreflexive and leaves no two different items incomparable;
    among items of one class it is a strict order. *)
Theorem C68_always :
  (forall a, item_ltb a a = false) /\
  (forall a b, item_ltb a b = true \/ item_ltb b a = true \/ item_eqb a b = true).
Proof. exact c68_always. Qed.
Print Assumptions C68_always.

Theorem C68_partial :
  (forall a b, ic a = ic b -> item_ltb a b = true -> item_ltb b a = false) /\
  (forall a b c, ic a = ic b -> ic b = ic c ->
     item_ltb a b = true -> item_ltb b c = true -> item_ltb a c = true).
Proof. exact c68. Qed.
Print Assumptions C68_partial.

Example C68_case :
  let i z := Item LogicalMinimum (VInt z) in
  item_ltb (i (-3)) (i 4) = true /\ item_ltb (i 4) (i 100) = true.
Proof. vm_compute. auto. Qed.

(** Between classes it is neither asymmetric nor transitive. *)
Theorem C68_refuted :
  (exists a b, item_ltb a b = true /\ item_ltb b a = true) /\
  (exists a b c, item_ltb a b = true /\ item_ltb b c = true /\
                 item_ltb a c = false /\ item_eqb a c = false).
Proof.
  split.
  - exists (Item Input (VNamed "Variable" 2)), (Item ReportSize (VInt 8)).
    vm_compute. auto.
  - exists (Item ReportSize (VInt 8)), (Item Input (VNamed "Variable" 2)),
      (Item UsagePage (VInt 1)).
    vm_compute. auto.
Qed.
Print Assumptions C68_refuted.

(** C69: an expression over named constants that has a value has the value it
    would have over ints; the comparisons agree with those of the ints. *)
Theorem C69_partial : forall e v, ceval e = Ok v -> forall z, plainly e z <-> z = py_int v.
Proof. exact ceval_sound. Qed.
Print Assumptions C69_partial.

Theorem C69_flags : forall e, flag_expr e -> exists v, ceval e = Ok v.
Proof. exact flag_ok. Qed.
Print Assumptions C69_flags.

Theorem C69_compare :
  (forall a b r, py_lt a b = Ok r -> r = (py_int a <? py_int b)) /\
  (forall a b r, py_gt a b = Ok r -> r = (py_int b <? py_int a)) /\
  (forall a b, py_eq a b = (py_int a =? py_int b)).
Proof. exact c69_compare. Qed.
Print Assumptions C69_compare.

(* Volatile | Variable & ~Constant, and (Centimeter << 4) + 1 *)
Example C69_case :
  let e := CBin OOr (CLit (VNamed "Volatile" 128))
             (CBin OAnd (CLit (VNamed "Variable" 2)) (CInv (CLit (VNamed "Constant" 1)))) in
  flag_expr e /\ ceval e = Ok (VInt 130) /\
  ceval (CBin OAdd (CBin OShl (CLit (VNamed "Centimeter" 0x11)) (CLit (VInt 4))) (CLit (VInt 1)))
  = Ok (VInt 0x111).
Proof. vm_compute. repeat split; auto. Qed.

(** Not every expression has a value: the reflected methods are missing for
    all operators but | and &, and there is no subtraction at all. *)
Theorem C69_exactly : forall o a b, py_binop o a b = Err TypeError <->
  is_named a = false /\ is_named b = true /\ o <> OAnd /\ o <> OOr \/
  is_named a = true /\ o = OSub.
Proof. exact c69_type. Qed.
Print Assumptions C69_exactly.

(** < and > have a value, or raise TypeError when the int is on the side of
    the comparison that has no method. *)
Theorem C69_compare_exactly : forall a b,
  (py_lt a b = Err TypeError /\ is_named a = false /\ is_named b = true \/
   py_lt a b = Ok (py_int a <? py_int b) /\ (is_named a = true \/ is_named b = false)) /\
  (py_gt a b = Err TypeError /\ is_named a = true /\ is_named b = false \/
   py_gt a b = Ok (py_int b <? py_int a) /\ (is_named a = false \/ is_named b = true)).
Proof. intros [a|a n|a n ts] [b|b m|b m us]; cbn; auto 10. Qed.
Print Assumptions C69_compare_exactly.

(* Variable < 4 and 4 > Variable are true, Variable > 1 and 1 < Variable raise TypeError *)
Example C69_compare_case : let v := VNamed "Variable" 2 in
  py_gt v (VInt 1) = Err TypeError /\ py_lt v (VInt 4) = Ok true /\ py_gt (VInt 4) v = Ok true /\ py_lt (VInt 1) v = Err TypeError.
Proof. vm_compute. auto. Qed.

(* 1 + Variable, Volatile - Constant, 4 < Variable *)
Theorem C69_refuted :
  (exists e z, plainly e z /\ ceval e = Err TypeError) /\
  (exists a b z, plainly (CBin OSub (CLit a) (CLit b)) z /\
     is_named a = true /\ py_binop OSub a b = Err TypeError) /\
  (exists a b, py_lt a b = Err TypeError /\ py_gt a b = Ok true).
Proof.
  split; [|split].
  - exists (CBin OAdd (CLit (VInt 1)) (CLit (VNamed "Variable" 2))), 3.
    split; [exists 1, 2; repeat split; reflexivity|reflexivity].
  - exists (VNamed "Volatile" 128), (VNamed "Constant" 1), 127.
    split; [exists 128, 1; repeat split; reflexivity|split; reflexivity].
  - exists (VInt 4), (VNamed "Variable" 2). auto.
Qed.
Print Assumptions C69_refuted.
