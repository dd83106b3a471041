(* Properties_Names.v -- C51 to C53: names do not reach the output; from bytes
   to a script and back to bytes. *)
From Verif Require Import Py Usage Item Parser Optimizer Descriptor Extractor TextFormats UsageModules HidSpec Spec StreamSpec OptSpec AllSpec
  ExtractSpec Dumper PyExpr DumpSpec ItemFacts ParserFacts OptFacts StreamTree Properties_Stream ExtractAgain Properties_Extract
  Properties_Dump NameTree DumpCompile.
Local Open Scope list_scope.
Local Open Scope Z_scope.

(** Two trees that are the same but for the names of constants compile to the
    same bytes or fail with the same exception, optimised or not, whatever
    usages are registered. *)
Theorem C51 db db' opt t t' : same_tree t t' -> kinds_ok t -> compile db' opt t' = compile db opt t.
Proof. exact (c51 db db' opt t t'). Qed.
Print Assumptions C51.

Definition named51 : tree :=
  TTop [TColl (VNamed "Application" 1) mouse
    [TReport 1 [tv (mk_value KValue (VArgs (VNamed "Input" 8) (Some (VUsage "GenericDesktop.X" 0x10030 [DV])) 8 (VNamed "Variable" 2)
                      (Some 0) (Some 100) None None None (VNamed "Centimeter" 0x11) 0 0 0 1 None));
                tv (mk_value KValue (VArgs (VNamed "Input" 8) None 8 (VInt 2) (Some 0) None None None
                      (Some (NRange (URange (VUsage "Keyboard.A" 0x70004 [Sel]) (VUsage "Keyboard.F" 0x70009 [Sel])))) (VInt 0) 0 0 3 1 None))]]].

Definition plain51 : tree :=
  TTop [TColl (VInt 1) (Some (VInt 0x10002))
    [TReport 1 [tv (mk_value KValue (VArgs (VInt 8) (Some (VInt 0x10030)) 8 (VInt 2)
                      (Some 0) (Some 100) None None None (VInt 0x11) 0 0 0 1 None));
                tv (mk_value KValue (VArgs (VInt 8) None 8 (VInt 2) (Some 0) None None None
                      (Some (NRange (URange (VInt 0x70004) (VInt 0x70009)))) (VInt 0) 0 0 3 1 None))]]].

Example C51_case : same_tree named51 plain51 /\ kinds_ok named51 /\
  exists b b0, compile default_db true named51 = Ok b /\ compile default_db false named51 = Ok b0 /\ length b = 37%nat /\ length b0 = 83%nat.
Proof.
  split; [|split].
  - match goal with |- same_tree ?a ?b => let a' := eval vm_compute in a in let b' := eval vm_compute in b in change (same_tree a' b') end.
    repeat (constructor; try reflexivity).
  - cbn. repeat split; discriminate.
  - eexists. eexists. split; [vm_compute; reflexivity|]. split; [vm_compute; reflexivity|]. split; vm_compute; reflexivity.
Qed.

(** A negative collection type counts from the end of the list of types when
    it is an int. *)
Theorem C51_negative_kind : exists t t' b e, same_tree t t' /\ compile empty_db false t = Ok b /\ compile empty_db false t' = Err e.
Proof.
  exists (TColl (VInt (-1)) mouse []), (TColl (VNamed "Other" (-1)) mouse []). eexists. eexists.
  split; [repeat (constructor; try reflexivity)|]. split; vm_compute; reflexivity.
Qed.
Print Assumptions C51_negative_kind.

(** Full statement (false, see C52_refuted): without [dumpable]. *)
Theorem C52_partial blob t : decompile default_db blob = Ok t -> dumpable t ->
  exists s t', decompile_text default_db blob = Ok s /\ script s t' /\
    forall db opt, compile db opt t' = compile default_db opt t.
Proof. exact (c52 blob t). Qed.
Print Assumptions C52_partial.

(** see also C50_case *)
Example C52_case : decompile default_db blob50 = Ok tree50 /\ dumpable tree50 /\
  match value_of text50 with
  | Some (OTree t') => exists b, compile empty_db true t' = Ok b /\ compile default_db true tree50 = Ok b /\ length b = 121%nat
  | _ => False
  end.
Proof.
  destruct C50_case as [H [D _]]. split; [exact H|]. split; [exact D|].
  match goal with |- match ?x with _ => _ end => let y := eval vm_compute in x in change x with y end.
  cbv beta iota. eexists. split; [vm_compute; reflexivity|]. split; vm_compute; reflexivity.
Qed.

Theorem C52_refuted : Forall (fun blob => exists t s,
  decompile default_db blob = Ok t /\ decompile_text default_db blob = Ok s /\
  (exists b, compile default_db false t = Ok b) /\
  forall t', script s t' -> compile default_db false t' <> compile default_db false t) lost50.
Proof.
  assert (G : forall t s, match value_of s with Some (OTree t') => compile default_db false t' <> compile default_db false t | _ => True end ->
    forall t', script s t' -> compile default_db false t' <> compile default_db false t).
  { intros t s H t' X. rewrite (script_value s t' X) in H. exact H. }
  unfold lost50. repeat apply Forall_cons; [..|apply Forall_nil].
  all: match goal with |- exists t s, decompile ?d ?b = _ /\ _ =>
         exists (match decompile d b with Ok t => t | Err _ => TTop [] end), (match decompile_text d b with Ok s => s | Err _ => [] end) end.
  all: split; [vm_compute; reflexivity|]; split; [vm_compute; reflexivity|]; split; [eexists; vm_compute; reflexivity|]; apply G.
  all: vm_compute; try exact I; discriminate.
Qed.
Print Assumptions C52_refuted.

(** C53 when the script is right (C50), under the conditions of C48 on the
    original bytes, and when 4-byte usages have a page.  Missing: the others,
    see C48_refuted, C50_refuted, and the optimised output. *)
Theorem C53_partial blob ws t : blob_means blob ws -> Forall number_allowed ws -> Forall long_form_needed ws ->
  unstacked (map w_what ws) -> closes (map w_cls ws) -> plain_stream [] (main_states ws) ->
  zeros_first (map state_rid (data_states ws)) -> buffers_fit (data_states ws) -> naturally_aligned (host_view AtMain ws) ->
  decompile default_db blob = Ok t -> dumpable t ->
  exists s t', decompile_text default_db blob = Ok s /\ script s t' /\
    forall db b, compile db false t' = Ok b ->
    exists ev, reads_as b ev /\ placed [] ev = placed [] (host_view AtMain ws).
Proof. exact (c53 blob ws t). Qed.
Print Assumptions C53_partial.

Definition blob53 : list Z := match serialize again48 with Ok b => b | Err _ => [] end.

Definition tree53 : tree := tree_of (decompile default_db blob53).

Example C53_case : blob_means blob53 (map wire again48) /\ Forall number_allowed (map wire again48) /\ Forall long_form_needed (map wire again48) /\
  unstacked (map w_what (map wire again48)) /\ closes (map w_cls (map wire again48)) /\ plain_stream [] (main_states (map wire again48)) /\
  zeros_first (map state_rid (data_states (map wire again48))) /\ buffers_fit (data_states (map wire again48)) /\
  naturally_aligned (host_view AtMain (map wire again48)) /\
  decompile default_db blob53 = Ok tree53 /\ dumpable tree53 /\ exists b, compile default_db false tree53 = Ok b /\ length blob53 = 62%nat.
Proof.
  destruct C48_case as [_ [_ [C [P [Z [U [N _]]]]]]].
  split; [apply serialize_means; vm_compute; reflexivity|].
  split. { vm_compute. repeat constructor; intros [X|[X|X]]; discriminate X. }
  split. { match goal with |- Forall _ ?q => let q' := eval vm_compute in q in change q with q' end.
           repeat apply Forall_cons; [..|apply Forall_nil]; intros _ X; discriminate X. }
  split. { vm_compute. repeat constructor; discriminate. }
  split; [exact C|]. split; [exact P|]. split; [exact Z|]. split; [exact U|]. split; [exact N|].
  split; [vm_compute; reflexivity|]. split; [|eexists; split; vm_compute; reflexivity].
  clear. match goal with |- dumpable ?t => let t' := eval vm_compute in t in change (dumpable t') end.
  cbn [dumpable]. unfold dumpable_value, printed_right.
  repeat split; try discriminate; cbn [v_named]; repeat constructor; cbn; intuition discriminate.
Qed.

(** C53 is false for a button of one bit followed by an axis of three, which
    moves to the fourth bit. *)
Definition items53 : list item := nth 0 moved48 [].
Definition bad53 : list Z := match serialize items53 with Ok b => b | Err _ => [] end.
Definition tree_bad53 : tree := tree_of (decompile default_db bad53).

Lemma bad53_ok : blob_means bad53 (map wire items53) /\ decompile default_db bad53 = Ok tree_bad53 /\ dumpable tree_bad53.
Proof.
  split; [apply serialize_means; vm_compute; reflexivity|]. split; [vm_compute; reflexivity|].
  match goal with |- dumpable ?t => let t' := eval vm_compute in t in change (dumpable t') end.
  cbn [dumpable]. unfold dumpable_value, printed_right.
  repeat split; try discriminate; cbn [v_named]; repeat constructor; cbn; intuition discriminate.
Qed.

Lemma bad53_moved : exists b, compile default_db false tree_bad53 = Ok b /\
  forall ev, reads_as b ev -> placed [] ev <> placed [] (host_view AtMain (map wire items53)).
Proof.
  let c := eval vm_compute in (compile default_db false tree_bad53) in match c with Ok ?b => exists b end.
  split; [vm_compute; reflexivity|]. intros ev RA Q.
  match type of RA with reads_as ?b _ =>
    pose proof (fun l H C => host_concrete default_db tree_bad53 l b H C AtMain) as HC end.
  specialize (HC _ ltac:(vm_compute; reflexivity) ltac:(vm_compute; reflexivity)).
  apply RA in HC. subst ev. vm_compute in Q. discriminate Q.
Qed.

Theorem C53_refuted : exists blob ws s t b, blob_means blob ws /\ decompile_text default_db blob = Ok s /\ script s t /\
  compile default_db false t = Ok b /\ forall ev, reads_as b ev -> placed [] ev <> placed [] (host_view AtMain ws).
Proof.
  destruct bad53_ok as [M [D P]]. destruct bad53_moved as [b [C Q]].
  destruct (c52 bad53 tree_bad53 D P) as [s [t' [W [X Y]]]].
  exists bad53, (map wire items53), s, t', b. repeat (split; [assumption|]). split; [|exact Q]. rewrite Y. exact C.
Qed.
Print Assumptions C53_refuted.
