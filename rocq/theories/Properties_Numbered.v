(* Properties_Numbered.v -- C98: reports are all numbered or none is. *)
From Verif Require Import Py Usage Item Parser Optimizer Descriptor UsageModules HidSpec Spec StreamSpec OptSpec TreeSpec
  ItemFacts ParserFacts OptFacts PassFacts StreamTree Properties_Stream Properties_Extract LayoutSpec Properties_Layout
  Properties_Ids IdsSpec IdsProofs NumberedSpec NumberedProofs.
Local Open Scope list_scope.
Local Open Scope Z_scope.

(** C98.  Full statement (false, see C98_refuted): every tree that compiles.
    Missing: trees with a value before the first Report other than Report(0)
    and, optimised, those that do not end in a collection. *)
Theorem C98_numbered_partial db opt t b m ev : well_formed t -> (opt = true -> closed_tree t) -> compile db opt t = Ok b -> host_reads m b ev ->
  starts_numbered t -> Forall (fun r => 1 <= r) (field_ids ev).
Proof. exact (c98 db opt t b m ev). Qed.
Print Assumptions C98_numbered_partial.

Theorem C98_unnumbered_partial db opt t b m ev : well_formed t -> (opt = true -> closed_tree t) -> compile db opt t = Ok b -> host_reads m b ev ->
  never_numbered t -> Forall (fun r => r = 0) (field_ids ev).
Proof. exact (c98_never db opt t b m ev). Qed.
Print Assumptions C98_unnumbered_partial.

Definition pad98 : tree := tv (mk_padding (VNamed "Input" 8) 3).

(** values after their Report, in Report(0) and in a collection of their own *)
Definition tree98 : tree :=
  TTop [TColl (VInt 1) mouse [TReport 0 []; TReport 7 [axis97 0x10030]; axis97 0x10031; TReport 0 [pad98]; TReport 9 []; TColl (VInt 0) mouse [axis97 0x10032]]].

(** only Report(0) *)
Definition tree98_bare : tree := TTop [TColl (VInt 1) mouse [axis97 0x10030; TReport 0 [axis97 0x10031; pad98]]].

Example C98_case :
  (well_formed tree98 /\ closed_tree tree98 /\ starts_numbered tree98 /\
   exists b, compile default_db true tree98 = Ok b /\ exists ev, host_reads AtMain b ev /\ field_ids ev = [7; 7; 7; 9]) /\
  (well_formed tree98_bare /\ closed_tree tree98_bare /\ never_numbered tree98_bare /\
   exists b, compile default_db true tree98_bare = Ok b /\ exists ev, host_reads AtMain b ev /\ field_ids ev = [0; 0; 0]).
Proof.
  assert (A : forall t b ids, compile default_db true t = Ok b ->
    serialize (match stream_items default_db t with Ok l => optimize default_db l | Err _ => [] end) = Ok b ->
    field_ids (host_view AtMain (map wire (match stream_items default_db t with Ok l => optimize default_db l | Err _ => [] end))) = ids ->
    exists b, compile default_db true t = Ok b /\ exists ev, host_reads AtMain b ev /\ field_ids ev = ids).
  { intros t b i C S E. exists b. split; [exact C|]. eexists. split; [|exact E]. eexists. split; [apply serialize_means; exact S|reflexivity]. }
  split; (split; [wf; unfold axis97, pad98; wf|]); (split; [apply (cl_top []); apply cl_coll|]); (split; [|eapply A; [vm_compute; reflexivity..]]).
  - exists [0], 7. eexists. split; [reflexivity|discriminate].
  - intros id I. vm_compute in I. intuition congruence.
Qed.

(** A value before the first Report: report 0 is read next to report 1, which
    HID excludes, since a host expects every report to begin with its id as
    soon as there is one. *)
Definition tree98_mixed : tree := TTop [TColl (VInt 1) mouse [axis97 0x10030; TReport 1 [axis97 0x10031]]].

Theorem C98_refuted : exists b ev, compile default_db false tree98_mixed = Ok b /\ reads_as b ev /\ field_ids ev = [0; 1].
Proof.
  exists (match compile default_db false tree98_mixed with Ok b => b | Err _ => [] end), (tree_layout tree98_mixed).
  assert (C : compile default_db false tree98_mixed = Ok (match compile default_db false tree98_mixed with Ok b => b | Err _ => [] end)) by (vm_compute; reflexivity).
  split; [exact C|]. split; [|vm_compute; reflexivity]. apply (C76 default_db); [|exact C]. wf; unfold axis97; wf.
Qed.
Print Assumptions C98_refuted.
