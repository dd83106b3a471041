(* Properties_Members.v -- C88: scripts that build trees by append and pop. *)
From Verif Require Import Py Item Descriptor Members MembersSpec MembersProofs.
Local Open Scope list_scope.
Local Open Scope Z_scope.

(** Every sequence of calls is a history, and a container ends up as if
    written out with what was there before, less what the pops reach, and what
    the appends leave behind; it fails just when the pops reach too far. *)
Theorem C88_history : forall b cs ms, container b ->
  exists k l, history (map (fun c => match c with Append m => Some m | Pop => None end) cs) k l /\
  calls cs (b ms) =
    if (k <=? List.length ms)%nat then Ok (b (firstn (List.length ms - k) ms ++ l)) else Err IndexError.
Proof.
  intros b cs ms C. destruct (history_exists (map as_option cs)) as [k [l H]]. exists k, l. split; [exact H|].
  eapply history_calls; [exact C|exact H|reflexivity].
Qed.
Print Assumptions C88_history.

(** Whichever way the calls are read as a history, this is the result. *)
Theorem C88_unique : forall b cs ms k l, container b ->
  history (map (fun c => match c with Append m => Some m | Pop => None end) cs) k l ->
  calls cs (b ms) =
    if (k <=? List.length ms)%nat then Ok (b (firstn (List.length ms - k) ms ++ l)) else Err IndexError.
Proof. intros b cs ms k l C H. eapply history_calls; [exact C|exact H|reflexivity]. Qed.
Print Assumptions C88_unique.

(** In place: t[i][j]...append(m) adds m at the end of that node and alters
    nothing else in the tree. *)
Theorem C88_append : forall m is t t', edit (Append m) is t = Ok t' ->
  exists p o, leads t is p o /\ grown p m t t'.
Proof. exact edit_append. Qed.
Print Assumptions C88_append.

(** t[i][j]...pop() removes the last member of that node and nothing else. *)
Theorem C88_pop : forall is t t', edit Pop is t = Ok t' ->
  exists p o m, leads t is p o /\ grown p m t' t.
Proof. exact edit_pop. Qed.
Print Assumptions C88_pop.

(** They succeed just when the indices lead to a container, with a member to
    remove. *)
Theorem C88_defined : forall c is t,
  (exists t', edit c is t = Ok t') <->
  exists p o n, leads t is p o /\ has_children o n /\ (c = Pop -> n <> 0%nat).
Proof. exact edit_defined. Qed.
Print Assumptions C88_defined.

(** t[i] and len(t) *)
Theorem C88_getitem : forall t i s, t_getitem t i = Ok s <->
  exists n k, has_children t n /\ denotes i n k /\ child t k s.
Proof.
  intros t i s. rewrite getitem_denotes. split; intros [n [k [C [D H]]]]; exists n, k.
  - destruct H as [H _]. auto.
  - repeat (split; [assumption|]). eapply denotes_index; eauto.
Qed.
Print Assumptions C88_getitem.

Theorem C88_len : forall t n, t_len t = Ok (Z.of_nat n) <-> has_children t n.
Proof.
  intros t n. destruct t as [v|id ms|ms|k u ms]; cbn [t_len has_children members_of];
    [split; [discriminate|intros []]| | |];
    (split; [intros H; injection H as H; apply Nat2Z.inj; exact H|intros <-; reflexivity]).
Qed.
Print Assumptions C88_len.

(** TopLevel(Report(1), Report(2)): pop, append Report(3), append Report(4), pop *)
Example C88_case :
  calls [Pop; Append (TReport 3 []); Append (TReport 4 []); Pop] (TTop [TReport 1 []; TReport 2 []]) =
  Ok (TTop [TReport 1 []; TReport 3 []]) /\
  history [None; Some (TReport 3 []); Some (TReport 4 []); None] 1 [TReport 3 []].
Proof.
  split; [reflexivity|]. apply (history_pop []); [apply undone_nil|]. apply history_leaves.
  apply (leaves_some []); [apply undone_nil|]. apply leaves_none.
  apply (undone_pair _ [] []); apply undone_nil.
Qed.

(** t[-1][0].append(Report(9)) and t[0].pop() *)
Example C88_edit_case :
  let t := TTop [TReport 1 [TTop []]; TReport 2 [TColl (VInt 1) None []]] in
  edit (Append (TReport 9 [])) [-1; 0] t =
    Ok (TTop [TReport 1 [TTop []]; TReport 2 [TColl (VInt 1) None [TReport 9 []]]]) /\
  edit Pop [0] t = Ok (TTop [TReport 1 []; TReport 2 [TColl (VInt 1) None []]]) /\
  edit Pop [1; 0] t = Err IndexError /\ t_getitem t (-3) = Err IndexError /\ t_len t = Ok 2.
Proof. repeat split; reflexivity. Qed.
