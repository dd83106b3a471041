(* PrintProofs.v -- the Dumper on the trees of scripts (C78) *)
From Coq Require Import ZifyBool ZifyNat.
From Verif Require Import Py Usage Item Parser Optimizer Descriptor Extractor TextFormats UsageTable UsageModules HidSpec StreamSpec
  Dumper PyExpr DumpSpec PrintSpec TableProofs ExtractAgain DumpFacts DumpProofs DumpExtract NameTree DumpCompile.
Local Open Scope list_scope.
Local Open Scope Z_scope.
Ltac Zify.zify_post_hook ::= Z.div_mod_to_equations.
#[local] Opaque modules default_db all_decls.

Lemma pr_usage u : script_usage u -> shown_usage u.
Proof.
  intros [[z [Z ->]]|[m [l [d [M [D ->]]]]]]; [left; exists z; auto|]. right. exists d. split; [|reflexivity].
  Transparent all_decls. unfold all_decls. apply in_flat_map. exists (m, l). auto.
Qed.

Ltac members H := repeat (destruct H as [H|H]; [subst|]); [..|destruct H].

Lemma pr_way w : script_way w -> shown_way w.
Proof.
  intros H. unfold script_way in H. cbn [In] in H. members H; [exists Input|exists Output|exists Feature]; (split; [unfold way_class; auto|reflexivity]).
Qed.

Lemma pr_flags f : script_flags f -> shown_flags f.
Proof.
  intros [[i ->]|H]; [left; exists i; reflexivity|]. right. right. cbn [In] in H.
  members H; do 2 eexists; (split; [|reflexivity]); vm_compute; tauto.
Qed.

Lemma pr_unit u : script_unit u -> shown_unit u.
Proof.
  intros [[z [Z ->]]|H]; [left; exists z; auto|]. cbn [In] in H.
  members H; first [right; do 2 eexists; split; [|reflexivity]; vm_compute; tauto|
    left; match goal with |- context [VNamed _ ?z] => exists z end; split; [lia|right; vm_compute; reflexivity]].
Qed.

Lemma pr_kind k : script_kind k -> shown_kind k.
Proof.
  intros H. left. unfold script_kind in H. cbn [In] in H. members H; do 2 eexists; (split; [|reflexivity]); vm_compute; tauto.
Qed.

Lemma pr_array a : script_array a -> shown_array a /\ exists k, narr_len a = Ok k /\ k <> 0.
Proof.
  destruct a as [l|r]; cbn [script_array shown_array narr_len].
  - intros [N F]. split; [eapply Forall_impl; [|exact F]; intros u; apply pr_usage|]. exists (Z.of_nat (List.length l)). split; [reflexivity|].
    destruct l; [contradiction|]. cbn [List.length]. lia.
  - intros [A [B C]]. split; [split; apply pr_usage; assumption|]. unfold range_len.
    exists (py_int (r_max r) - py_int (r_min r) + 1). replace (py_int (r_max r) - py_int (r_min r) + 1 <? 0) with false by lia. split; [reflexivity|lia].
Qed.

Lemma pr_value v : script_value v -> shown_value v.
Proof.
  intros [a A M|w n W M|w n W M]; [|eapply sv_padding; [apply pr_way; exact W|exact M]|eapply sv_align; [apply pr_way; exact W|exact M]].
  destruct A as [W U F UN AR]. unfold mk_value in M. destruct a as [way us sz fl lmin lmax pmin pmax nm un ux de st ct al].
  cbn [a_way a_usage a_size a_flags a_lmin a_lmax a_pmin a_pmax a_named a_unit a_uexp a_desig a_str a_count a_align] in *.
  assert (US : match us with Some u => shown_usage u | None => True end) by (destruct us; [apply pr_usage; exact U|exact I]).
  destruct nm as [arr|].
  - destruct AR as [AR [-> [-> ->]]]. destruct (pr_array arr AR) as [SA [k [L K]]]. cbn [narr_truthy] in M. rewrite L in M. cbn [bind] in M.
    replace (negb (k =? 0)) with true in M by lia. cbn [orb negb andb zero_or_none] in M.
    destruct lmin as [lm|]; [|discriminate M]. injection M as <-.
    apply (sv_named _ arr lm k); cbn [v_kind v_way v_usage v_size v_flags v_lmin v_lmax v_pmin v_pmax v_named v_unit v_uexp v_desig v_str v_count v_align]; auto.
    + apply pr_way; exact W.
    + destruct us; reflexivity.
    + apply pr_unit; exact UN.
  - cbn [narr_truthy bind] in M. change fl_Constant with 1 in M. cbn [negb] in M. rewrite andb_true_r in M.
    destruct ((match lmax with None => true | Some _ => false end || match lmin with None => true | Some _ => false end) && (Z.land (py_int fl) 1 =? 0)) eqn:E; [discriminate M|].
    assert (LB : Z.land (py_int fl) 1 <> 0 \/ lmin <> None /\ lmax <> None).
    { apply andb_false_iff in E. destruct E as [E|E]; [|left; lia]. right. destruct lmin; [|destruct lmax; discriminate E]. destruct lmax; [|discriminate E]. split; discriminate. }
    destruct (zero_or_none pmin && zero_or_none pmax) eqn:ZP; injection M as <-.
    + apply sv_plain; cbn [v_kind v_way v_usage v_size v_flags v_lmin v_lmax v_pmin v_pmax v_named v_unit v_uexp v_desig v_str v_count v_align]; auto.
      * apply pr_way; exact W.
      * apply pr_flags; exact F.
      * apply pr_unit; exact UN.
    + apply sv_plain; cbn [v_kind v_way v_usage v_size v_flags v_lmin v_lmax v_pmin v_pmax v_named v_unit v_uexp v_desig v_str v_count v_align]; auto.
      * apply pr_way; exact W.
      * apply pr_flags; exact F.
      * apply pr_unit; exact UN.
      * right. do 2 eexists. split; [reflexivity|]. split; [reflexivity|]. destruct pmin, pmax; cbn [zero_or_none or_zero] in *; lia.
Qed.

Lemma pr_tree t : script_tree t -> shown t.
Proof.
  revert t.
  assert (G : forall ms, Forall (fun t => script_tree t -> shown t) ms ->
    (fix all ms := match ms with [] => True | m :: r => script_tree m /\ all r end) ms ->
    (fix all ms := match ms with [] => True | m :: r => shown m /\ all r end) ms).
  { induction 1 as [|m ms H F IH]; [auto|]. intros [A B]. split; [exact (H A)|exact (IH B)]. }
  apply (tree_all (fun t => script_tree t -> shown t)).
  - intros v. apply pr_value.
  - intros id ms F H. apply G; auto.
  - intros ms F H. apply G; auto.
  - intros k u ms F [K [U H]]. split; [apply pr_kind; exact K|]. split; [destruct u as [u|]; [apply pr_usage; exact U|exact I]|]. apply G; auto.
Qed.

Lemma c78 t : script_tree t -> is_value t = false -> dumpable t ->
  exists s t', dump default_db 0 t = Ok s /\ script s t' /\ same_tree t t' /\
    forall db opt, compile db opt t' = compile default_db opt t.
Proof.
  intros SC NV D. pose proof (pr_tree t SC) as SH.
  destruct (any_written t) as [s [t' [W [X Y]]]]; auto; [destruct t; [discriminate NV|exact I..]|].
  exists s, t'. split; [exact W|]. split; [exact X|]. split; [exact Y|]. intros db opt. apply c51; [exact Y|]. apply shown_kinds. exact SH.
Qed.
