(* Properties_Calm.v -- C104: what follows a closed tree does not change its optimised bytes. *)
From Verif Require Import Py Usage Item Parser Optimizer Descriptor UsageModules HidSpec StreamSpec TreeSpec
  Properties_Stream Properties_Extract Properties_Ids Properties_Numbered Properties_Apart PrefixSpec CalmProofs.
Local Open Scope list_scope.
Local Open Scope Z_scope.

(** C104: when a tree ends with a collection and another one goes on after it,
    not in it, and compiles, then the first one compiles and its optimised bytes
    begin those of the other. *)
Theorem C104 db t t' b' : closed_tree t -> goes_on 0 t t' -> compile db true t' = Ok b' ->
  exists b q, compile db true t = Ok b /\ b' = b ++ q.
Proof. exact (c104 db t t' b'). Qed.
Print Assumptions C104.

(** in the last Report and after it; what follows leaves out the items that
    have the same value before *)
Definition short104 : tree := TTop [TColl (VInt 1) mouse [axis97 0x10030; axis97 0x10031]; TReport 1 [pad98; TColl (VInt 1) mouse [axis97 0x10030]]].
Definition long104 : tree := TTop [TColl (VInt 1) mouse [axis97 0x10030; axis97 0x10031]; TReport 1 [pad98; TColl (VInt 1) mouse [axis97 0x10030]; axis97 0x10032; pad98];
  TColl (VInt 1) mouse [align99; axis97 0x10038]].

Example C104_case : closed_tree short104 /\ goes_on 0 short104 long104 /\
  (exists b, compile default_db true short104 = Ok b /\ length b = 44%nat) /\ (exists b, compile default_db true long104 = Ok b /\ length b = 67%nat).
Proof.
  split; [apply (cl_top [TColl (VInt 1) mouse [axis97 0x10030; axis97 0x10031]]), (cl_report 1 [pad98]), cl_coll|]. split.
  - apply (go_top_in 0 [TColl (VInt 1) mouse [axis97 0x10030; axis97 0x10031]]), (go_report 1 [pad98; _]).
  - split; eexists; split; vm_compute; reflexivity.
Qed.

(** The tree has to be closed: a field may be joined with the one after it. *)
Theorem C104_condition : exists db t t' b b', goes_on 0 t t' /\ compile db true t = Ok b /\ compile db true t' = Ok b' /\ forall q, b' <> b ++ q.
Proof.
  exists default_db, (TTop [axis97 0x10030]), (TTop [axis97 0x10030; axis97 0x10031]). do 2 eexists.
  split; [apply (go_top [axis97 0x10030])|]. split; [vm_compute; reflexivity|]. split; [vm_compute; reflexivity|].
  intros q. cbn [app]. discriminate.
Qed.
Print Assumptions C104_condition.
