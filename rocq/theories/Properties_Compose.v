(* Properties_Compose.v -- C82: devices with reports of their own. *)
From Verif Require Import Py Usage Item Parser Optimizer Descriptor HidSpec Spec ParserFacts StreamSpec
  StreamProofs StreamTree ComposeSpec ComposeProofs Properties_Stream Properties_Tree.
Local Open Scope list_scope. Local Open Scope Z_scope.

(** C82: when the values of the second list of members come after Reports of
    their own and are in no report of the first, the two lists together
    compile exactly when each does, to the bytes of the first followed by the
    bytes of the second. *)
Theorem C82 : forall db ms1 ms2 b, starts_reports (TTop ms2) -> apart (TTop ms1) (TTop ms2) ->
  compile db false (TTop (ms1 ++ ms2)) = Ok b <->
  exists b1 b2, compile db false (TTop ms1) = Ok b1 /\ compile db false (TTop ms2) = Ok b2 /\ b = b1 ++ b2.
Proof. exact c82. Qed.
Print Assumptions C82.

(** A keyboard-like device with a one bit value in report 1, and one with a
    one bit value and an aligned one in report 2. *)
Definition first82 : list tree := [device [TReport 1 [tv (vari 0x90001 1 1 0 4 None None)]]].
Definition second82 : list tree :=
  [device [TReport 2 [tv (vari 0x90002 1 1 0 5 None None); tv (mk_align input 8 (VInt 3)); tv (vari 0x10030 8 100 0 0 None None)]]].

Example C82_case : starts_reports (TTop second82) /\ apart (TTop first82) (TTop second82) /\
  reports_of (TTop first82) = [(8, 1)] /\ reports_of (TTop second82) = [(8, 2); (8, 2); (8, 2)] /\
  (exists b1 b2, compile empty_db false (TTop first82) = Ok b1 /\ compile empty_db false (TTop second82) = Ok b2 /\
     length b1 = 35%nat /\ length b2 = 64%nat).
Proof.
  split; [intros r; reflexivity|].
  split. { intros x I J. vm_compute in I, J. destruct I as [<-|[]]. destruct J as [J|[J|[J|[]]]]; discriminate J. }
  split; [vm_compute; reflexivity|]. split; [vm_compute; reflexivity|].
  eexists. eexists. split; [vm_compute; reflexivity|]. split; [vm_compute; reflexivity|]. split; reflexivity.
Qed.

(** Both conditions are needed: in a report that the first device already
    filled the padding is another, and a value before the first Report falls
    into the last report of the first device. *)
Theorem C82_conditions : exists ms1 ms2 ms3 b1 b2 b3 b12 b13,
  compile empty_db false (TTop ms1) = Ok b1 /\ compile empty_db false (TTop ms2) = Ok b2 /\
  compile empty_db false (TTop ms3) = Ok b3 /\
  compile empty_db false (TTop (ms1 ++ ms2)) = Ok b12 /\ compile empty_db false (TTop (ms1 ++ ms3)) = Ok b13 /\
  starts_reports (TTop ms2) /\ apart (TTop ms1) (TTop ms3) /\
  b12 <> b1 ++ b2 /\ b13 <> b1 ++ b3.
Proof.
  exists first82, [device [TReport 1 [tv (mk_align input 8 (VInt 3)); tv (vari 0x10030 8 100 0 0 None None)]]],
    [device [tv (mk_align input 8 (VInt 3)); tv (vari 0x10030 8 100 0 0 None None)]].
  eexists. eexists. eexists. eexists. eexists.
  do 5 (split; [vm_compute; reflexivity|]).
  split; [intros r; reflexivity|].
  split. { intros x I J. vm_compute in I, J. destruct I as [<-|[]]. destruct J as [J|[J|[]]]; discriminate J. }
  split; intros H; discriminate H.
Qed.
Print Assumptions C82_conditions.
