(* DumpCompile.v -- from bytes to a script and back to bytes (C52, C53) *)
From Coq Require Import ZifyBool ZifyNat.
From Verif Require Import Py Usage Item Parser Optimizer Descriptor Extractor TextFormats UsageModules HidSpec Spec StreamSpec OptSpec AllSpec
  ExtractSpec Dumper PyExpr DumpSpec ItemFacts ParserFacts CodecProofs OptFacts StreamTree TreeSpec TreeOpt ExtractAgain DumpFacts DumpProofs DumpExtract
  NameFacts NameTree.
Local Open Scope list_scope.
Local Open Scope Z_scope.

Lemma shown_kinds t : shown t -> kinds_ok t.
Proof.
  revert t. assert (G : forall ms, Forall (fun t => shown t -> kinds_ok t) ms -> Forall shown ms -> Forall kinds_ok ms).
  { induction 1 as [|m ms H F IH]; intros K; constructor; [apply H; exact (Forall_inv K)|apply IH; exact (Forall_inv_tail K)]. }
  apply (tree_all (fun t => shown t -> kinds_ok t)).
  - intros v _. exact I.
  - intros id ms F H. cbn [shown kinds_ok] in *. apply kinds_list. apply G; [exact F|]. apply all_shown. apply H.
  - intros ms F H. cbn [shown kinds_ok] in *. apply kinds_list. apply G; [exact F|]. apply all_shown. exact H.
  - intros k u ms F H. cbn [shown kinds_ok] in *. destruct H as [K [_ H]]. split; [|apply kinds_list; apply G; [exact F|apply all_shown; exact H]].
    destruct K as [[n [z [J ->]]]|K]; [|lia]. cbn [collection_rev In] in J.
    repeat (destruct J as [J|J]; [injection J as <- <-; cbn; lia|]). destruct J.
Qed.

Lemma c52 blob t : decompile default_db blob = Ok t -> dumpable t ->
  exists s t', decompile_text default_db blob = Ok s /\ script s t' /\
    forall db opt, compile db opt t' = compile default_db opt t.
Proof.
  intros H D. destruct (c50 blob t H D) as [s [t' [W [X Y]]]]. exists s, t'. split; [exact W|]. split; [exact X|].
  intros db opt. apply c51; [exact Y|]. apply shown_kinds. apply (decompile_shown blob t H).
Qed.

Lemma decompile_extract db blob ws t : blob_means blob ws -> Forall number_allowed ws -> Forall long_form_needed ws ->
  decompile db blob = Ok t ->
  exists l, Forall constructed l /\ Forall2 same_wire (map wire l) ws /\ extract db l = Ok t.
Proof.
  intros B N L H. destruct (parse_good db 0 blob ws B (proj1 (allowed_forall ws) N)) as [l [PA [M C]]].
  unfold decompile in H. rewrite blob_parse_from, PA in H. cbn [finished appended bind] in H. exists l. split; [exact C|]. split.
  - apply (wire_same blob ws l B); [|exact M]. eapply Forall_impl; [|exact L]. intros [c v e] K U X. cbn in *. apply K; [|exact X]. destruct c; try discriminate U; cbn; auto.
  - exact H.
Qed.

Lemma wires_classes l ws : Forall2 same_wire l ws -> map w_cls l = map w_cls ws.
Proof. induction 1 as [|x y l ws [E _] F IH]; [reflexivity|]. cbn [map]. congruence. Qed.

Lemma c53 blob ws t : blob_means blob ws -> Forall number_allowed ws -> Forall long_form_needed ws ->
  unstacked (map w_what ws) -> closes (map w_cls ws) -> plain_stream [] (main_states ws) ->
  zeros_first (map state_rid (data_states ws)) -> buffers_fit (data_states ws) -> naturally_aligned (host_view AtMain ws) ->
  decompile default_db blob = Ok t -> dumpable t ->
  exists s t', decompile_text default_db blob = Ok s /\ script s t' /\
    forall db b, compile db false t' = Ok b ->
    exists ev, reads_as b ev /\ placed [] ev = placed [] (host_view AtMain ws).
Proof.
  intros B N L US CL PS ZF UB NA H D. destruct (c52 blob t H D) as [s [t' [W [X Y]]]]. exists s, t'. split; [exact W|]. split; [exact X|].
  intros db b CO. rewrite Y in CO. destruct (decompile_extract default_db blob ws t B N L H) as [l [C [SW E]]].
  pose proof (wires_classes _ _ SW) as WC. rewrite map_map in WC. change (map (fun x => w_cls (wire x)) l) with (map ic l) in WC.
  assert (MS : main_states (map wire l) = main_states ws) by (unfold main_states; rewrite (h_run_same _ _ _ SW); reflexivity).
  rewrite <- (host_view_same AtMain _ _ SW). rewrite <- (host_view_same AtMain _ _ SW) in NA.
  apply (c48 default_db l t b); auto.
  - unfold push_free. apply (Forall_map ic (fun c => c <> Push /\ c <> Pop)). rewrite WC. unfold unstacked in US. rewrite Forall_map in US. apply Forall_map. exact US.
  - rewrite WC. exact CL.
  - rewrite MS. exact PS.
  - unfold data_states. rewrite MS. exact ZF.
  - unfold data_states. rewrite MS. exact UB.
Qed.
