(* Properties_Ids.v -- C97: report ids in compiled descriptors. *)
From Verif Require Import Py Usage Item Parser Optimizer Descriptor UsageModules HidSpec Spec StreamSpec OptSpec
  ItemFacts ParserFacts OptFacts PassFacts StreamTree Properties_Stream Properties_Extract LayoutSpec Properties_Layout IdsSpec IdsProofs.
Local Open Scope list_scope.
Local Open Scope Z_scope.

(** Every tree, whatever its values: the ReportID items are those of the
    Reports, in order, and none is 0, which HID reserves. *)
Theorem C97_ids db t b ws : compile db false t = Ok b -> blob_means b ws ->
  declared_ids ws = given_ids t /\ Forall (fun z => 1 <= z) (declared_ids ws).
Proof. exact (c97 db t b ws). Qed.
Print Assumptions C97_ids.

(** The optimiser makes up no report id and leaves no 0. *)
Theorem C97_optimised db t b ws : compile db true t = Ok b -> blob_means b ws ->
  Forall (fun z => In z (given_ids t) /\ 1 <= z) (declared_ids ws).
Proof. exact (c97_optimised db t b ws). Qed.
Print Assumptions C97_optimised.

Definition axis97 (u : Z) : tree := tv (mk_value KValue (VArgs (VNamed "Input" 8) (Some (VInt u)) 8 (VInt 2) (Some 0) (Some 100) None None None (VInt 0) 0 0 0 1 None)).
Definition tree97 : tree :=
  TTop [TColl (VInt 1) mouse [TReport 1 [axis97 0x10030; TReport 0 [axis97 0x10031]; TReport 2 [axis97 0x10032]]; TReport 2 [axis97 0x10038]; TReport 1 []]].

Example C97_case : given_ids tree97 = [1; 2; 2; 1] /\
  (exists b ws, compile empty_db false tree97 = Ok b /\ blob_means b ws /\ declared_ids ws = [1; 2; 2; 1]) /\
  (exists b ws, compile empty_db true tree97 = Ok b /\ blob_means b ws /\ declared_ids ws = [1; 2; 1]).
Proof.
  split; [vm_compute; reflexivity|].
  split; do 2 eexists; (split; [vm_compute; reflexivity|]); split.
  - eapply (serialize_means (match stream_items empty_db tree97 with Ok l => l | Err _ => [] end)). vm_compute. reflexivity.
  - vm_compute. reflexivity.
  - eapply (serialize_means (match stream_items empty_db tree97 with Ok l => optimize empty_db l | Err _ => [] end)). vm_compute. reflexivity.
  - vm_compute. reflexivity.
Qed.

(** HID has report ids up to 255 only; when each Report other than Report(0)
    begins with values, none is larger.  Missing: the other trees, of which it
    is false (C97_refuted). *)
Theorem C97_limit_partial db opt t b ws : compile db opt t = Ok b -> blob_means b ws ->
  (forall id ms, inside (TReport id ms) t -> id <> 0 -> holds_value ms) ->
  Forall (fun z => 1 <= z <= 255) (declared_ids ws).
Proof. exact (c97_limit db opt t b ws). Qed.
Print Assumptions C97_limit_partial.

Definition tree97_full : tree :=
  TTop [TColl (VInt 1) mouse [TReport 255 [axis97 0x10030; TReport 0 []; TReport 2 [axis97 0x10032]]]; TReport 0 [axis97 0x10031]].

Example C97_limit_case : (forall id ms, inside (TReport id ms) tree97_full -> id <> 0 -> holds_value ms) /\
  exists b ws, compile empty_db true tree97_full = Ok b /\ blob_means b ws /\ declared_ids ws = [255; 2].
Proof.
  split.
  - assert (A : forall u, exists v, axis97 u = TValue v /\ v_kind v = KValue) by (intros u; eexists; split; reflexivity).
    intros id ms I N.
    repeat match goal with
    | H : In _ (_ :: _) |- _ => destruct H as [<-|H]
    | H : In _ [] |- _ => destruct H
    | H : inside _ (axis97 ?u) |- _ => destruct (A u) as [? [E _]]; rewrite E in H
    | H : inside _ _ |- _ => inversion H; subst; clear H
    | H : 0 <> 0 |- _ => elim H; reflexivity
    end.
    all: match goal with |- holds_value (axis97 ?u :: ?r) => destruct (A u) as [v [-> K]]; exists [], v, r; split; [reflexivity|exact K] end.
  - do 2 eexists. split; [vm_compute; reflexivity|]. split.
    + eapply (serialize_means (match stream_items empty_db tree97_full with Ok l => optimize empty_db l | Err _ => [] end)). vm_compute. reflexivity.
    + vm_compute. reflexivity.
Qed.

(** A larger id is noticed when a value is in the report (C28), but not in an
    empty Report; a value in Report(0) after that is then read in a report HID
    does not have. *)
Definition tree97_far : tree := TTop [TColl (VInt 1) mouse [TReport 300 []; TReport 0 [axis97 0x10030]]].

Theorem C97_refuted : exists b ws ev, compile default_db false tree97_far = Ok b /\ blob_means b ws /\ declared_ids ws = [300] /\
  reads_as b ev /\ report_bits Input 300 ev = 8.
Proof.
  set (l := match stream_items default_db tree97_far with Ok l => l | Err _ => [] end).
  assert (C : compile default_db false tree97_far = Ok (match serialize l with Ok b => b | Err _ => [] end)) by (vm_compute; reflexivity).
  exists (match serialize l with Ok b => b | Err _ => [] end), (map wire l), (tree_layout tree97_far).
  split; [exact C|]. split; [apply serialize_means; vm_compute; reflexivity|]. split; [vm_compute; reflexivity|].
  split; [|vm_compute; reflexivity]. apply (C76 default_db); [|exact C]. wf. unfold axis97. wf.
Qed.
Print Assumptions C97_refuted.
