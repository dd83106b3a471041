(* AcceptBlob.v -- bytes the decompiler accepts *)
From Coq Require Import ZArith List Bool Lia ZifyBool ZifyNat String.
From Verif Require Import Py Usage Item Parser Optimizer Descriptor Extractor.
From Verif Require Import HidSpec Spec ItemFacts ParserFacts CodecProofs UsageProofs TextProofs StreamSpec PlainHost StreamProofs StreamTree OptFacts OptSpec AllSpec PassFacts.
From Verif Require Import TreeOpt ExtractSpec ExtractFacts ExtractView ExtractAgain ExtractBack Dumper PyExpr DumpSpec DumpFacts DumpProofs DumpExtract NameFacts NameTree DumpCompile AcceptSpec ExtractAccept.
Import ListNotations.
Local Open Scope list_scope.
Local Open Scope Z_scope.

Lemma decompile_parsed db blob ws : blob_means blob ws -> Forall number_allowed ws -> Forall long_form_needed ws ->
  exists l, Forall constructed l /\ Forall2 same_wire (map wire l) ws /\ decompile db blob = extract db l.
Proof.
  intros B N L. destruct (parse_good db 0 blob ws B (proj1 (allowed_forall ws) N)) as [l [PA [M C]]].
  exists l. split; [exact C|]. split.
  - apply (wire_same blob ws l B); [|exact M]. eapply Forall_impl; [|exact L]. intros [c v e] K U X. cbn in *. apply K; [|exact X]. destruct c; try discriminate U; cbn; auto.
  - unfold decompile. rewrite blob_parse_from, PA. cbn [finished appended bind]. reflexivity.
Qed.

Lemma c54_blob db blob ws : blob_means blob ws -> Forall number_allowed ws -> Forall long_form_needed ws ->
  unstacked (map w_what ws) -> closes (map w_cls ws) -> clear_stream [] (main_states ws) ->
  exists t, decompile db blob = Ok t.
Proof.
  intros B N L US CL PS. destruct (decompile_parsed db blob ws B N L) as [l [C [SW ->]]].
  pose proof (wires_classes _ _ SW) as WC. rewrite map_map in WC. change (map (fun x => w_cls (wire x)) l) with (map ic l) in WC.
  assert (MS : main_states (map wire l) = main_states ws) by (unfold main_states; rewrite (h_run_same _ _ _ SW); reflexivity).
  apply c54; auto.
  - unfold push_free. apply (Forall_map ic (fun c => c <> Push /\ c <> Pop)). rewrite WC. unfold unstacked in US. rewrite Forall_map in US. apply Forall_map. exact US.
  - rewrite WC. exact CL.
  - rewrite MS. exact PS.
Qed.
