(* RoundTrip.v -- bytes decompiled and compiled again *)
From Coq Require Import ZArith List Bool Lia ZifyBool ZifyNat String.
From Verif Require Import Py Usage Item Parser Optimizer Descriptor Extractor TextFormats UsageModules.
From Verif Require Import HidSpec Spec ItemFacts ParserFacts CodecProofs UsageProofs TextProofs StreamSpec PlainHost StreamProofs StreamTree OptFacts OptSpec AllSpec PassFacts.
From Verif Require Import TreeSpec TreeOpt PageTree ExtractSpec ExtractFacts ExtractView ExtractAgain ExtractBack Dumper PyExpr DumpSpec DumpFacts DumpProofs DumpExtract NameFacts NameTree DumpCompile.
From Verif Require Import AcceptSpec ExtractAccept CompileAccept OptAccept AcceptBlob ExtractStore.
Import ListNotations.
Local Open Scope list_scope.
Local Open Scope Z_scope.

Lemma extract_well_formed db l t : Forall constructed l -> push_free l -> closes (map ic l) -> extract db l = Ok t -> well_formed t.
Proof.
  intros C P CL X. destruct (extract_final db l t C P CL X) as [s [R [ES [EN [EH [ET _]]]]]].
  apply (leaves_well_formed l t 0). rewrite ET, insert_leaves, <- (top_leaves s ES EH).
  apply (made_run db l l xst_init s); [apply incl_refl|exact C|exact R|constructor].
Qed.

Lemma c58 db size count blob ws : tidy size count blob ws ->
  exists t b ev, decompile db blob = Ok t /\ compile db false t = Ok b /\ reads_as b ev /\ placed [] ev = placed [] (host_view AtMain ws) /\
  (closed_tree t -> roomy t -> scaling_ok (fst (threaded 0 t)) -> uniform_leaves (fst (threaded 0 t)) ->
   exists b', compile db true t = Ok b' /\ reads_bound AtDecl b' ev /\ (same_pages (fst (threaded 0 t)) -> reads_as b' ev)).
Proof.
  intros [B N L US CL PS CS ZF UB NA [R1 [R2 R3]] SM LB].
  destruct (c54_blob db blob ws B N L US CL CS) as [t H]. destruct (c57 db db size count blob ws t R1 R2 R3 B SM LB H) as [b CO].
  destruct (decompile_extract db blob ws t B N L H) as [l [C [SW E]]].
  pose proof (wires_classes _ _ SW) as WC. rewrite map_map in WC. change (map (fun x => w_cls (wire x)) l) with (map ic l) in WC.
  assert (MS : main_states (map wire l) = main_states ws) by (unfold main_states; rewrite (h_run_same _ _ _ SW); reflexivity).
  assert (PF : push_free l).
  { unfold push_free. apply (Forall_map ic (fun c => c <> Push /\ c <> Pop)). rewrite WC. unfold unstacked in US. rewrite Forall_map in US. apply Forall_map. exact US. }
  assert (CL' : closes (map ic l)) by (rewrite WC; exact CL).
  destruct (c48 db l t b) as [ev [RA PL]]; auto.
  - rewrite MS. exact PS.
  - unfold data_states. rewrite MS. exact ZF.
  - unfold data_states. rewrite MS. exact UB.
  - rewrite (host_view_same AtMain _ _ SW). exact NA.
  - exists t, b, ev. split; [exact H|]. split; [exact CO|]. split; [exact RA|]. split; [rewrite PL, (host_view_same AtMain _ _ SW); reflexivity|].
    intros CT RO SC UN. pose proof (extract_well_formed db l t C PF CL' E) as WF. destruct (c56 db t b WF RO CO) as [b' CO']. exists b'. split; [exact CO'|].
    pose proof (c40_same_tree db t b' b ev WF CT SC UN CO' CO RA) as RB. split; [exact RB|].
    intros SP. destruct (c42_tree db t b' WF CT SC UN SP CO') as [ev' [RA' _]].
    assert (EV : ev' = ev) by (apply RB; apply (RA' AtDecl); reflexivity). rewrite <- EV. exact RA'.
Qed.

(** the same for the script *)
Lemma c58_script size count blob ws : tidy size count blob ws -> (forall t, decompile default_db blob = Ok t -> dumpable t) ->
  exists s t' b ev, decompile_text default_db blob = Ok s /\ script s t' /\ compile default_db false t' = Ok b /\ reads_as b ev /\
    placed [] ev = placed [] (host_view AtMain ws).
Proof.
  intros T D. destruct (c58 default_db size count blob ws T) as [t [b [ev [H [CO [RA [PL _]]]]]]].
  destruct (c52 blob t H (D t H)) as [s [t' [W [X Y]]]]. exists s, t', b, ev. rewrite Y. auto.
Qed.
