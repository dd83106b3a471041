(* Properties_Prefix.v -- C101: what follows does not change the bytes before. *)
From Verif Require Import Py Usage Item Parser Optimizer Descriptor UsageModules HidSpec StreamSpec
  Properties_Stream Properties_Extract Properties_Ids Properties_Numbered Properties_Apart PrefixSpec PrefixProofs.
Local Open Scope list_scope.
Local Open Scope Z_scope.

(** C101.  Full statement (false, see C101_refuted): optimised, too.  The bytes
    of the shorter tree, but for those that end the collections the additions
    are in, begin the bytes of the longer one; the shorter tree compiles if the
    longer one does. *)
Theorem C101_partial db n t t' b' : goes_on n t t' -> compile db false t' = Ok b' ->
  exists p q, compile db false t = Ok (p ++ repeat 0xc0 n) /\ b' = p ++ q.
Proof. exact (c101_compiles db n t t' b'). Qed.
Print Assumptions C101_partial.

(** more in the inner collection, in its Report, in the outer collection and
    after it; an addition may need a gap *)
Definition short101 : tree := TTop [TColl (VInt 1) mouse [axis97 0x10030; TReport 1 [pad98; TColl (VInt 0) mouse [axis97 0x10031]]]].
Definition long101 : tree := TTop [TColl (VInt 1) mouse [axis97 0x10030; TReport 1 [pad98; TColl (VInt 0) mouse [axis97 0x10031; align99; axis97 0x10032]; pad98]; TReport 2 [axis97 0x10038]];
  TColl (VInt 1) mouse [align99]].

Example C101_case : goes_on 2 short101 long101 /\
  (exists b, compile default_db false short101 = Ok b /\ length b = 76%nat) /\ (exists b, compile default_db false long101 = Ok b /\ length b = 138%nat).
Proof.
  split.
  - apply (go_top_in 2 []), (go_coll_in 1 _ _ [axis97 0x10030]), (go_report_in 1 1 [pad98]), (go_coll _ _ [axis97 0x10031]).
  - split; eexists; split; vm_compute; reflexivity.
Qed.

(** Optimised, a field may be joined with the one added after it. *)
Theorem C101_refuted : exists db n t t' b b', goes_on n t t' /\ compile db true t = Ok b /\ compile db true t' = Ok b' /\
  forall p q, b = p ++ repeat 0xc0 n -> b' <> p ++ q.
Proof.
  exists default_db, 1%nat, (TTop [TColl (VInt 1) mouse [axis97 0x10030]]), (TTop [TColl (VInt 1) mouse [axis97 0x10030; axis97 0x10031]]). do 2 eexists.
  split; [apply (go_top_in 1 []), (go_coll _ _ [axis97 0x10030])|]. split; [vm_compute; reflexivity|]. split; [vm_compute; reflexivity|].
  intros p q E. apply (f_equal (@removelast Z)) in E. cbn [repeat] in E. rewrite removelast_last in E. subst p. vm_compute. discriminate.
Qed.
Print Assumptions C101_refuted.
