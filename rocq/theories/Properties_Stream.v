(* Properties_Stream.v -- C23 to C29: trees to items and bytes. *)
From Verif Require Import Py Usage Item Parser Optimizer Descriptor HidSpec Spec ParserFacts StreamSpec
  StreamProofs StreamTree.
Local Open Scope Z_scope.

(** sample trees: usages as plain ints *)
Definition input := VNamed "Input" 8.
Definition sample (u size lmax count : Z) : result value :=
  mk_value KValue (VArgs input (Some (VInt u)) size (VInt 2) (Some 0) (Some lmax) None None None (VInt 0) 0 0 0
                         count None).
Definition tv (r : result value) : tree := match r with Ok v => TValue v | Err _ => TTop [] end.
Definition getv (r : result value) : value :=
  match r with Ok v => v | Err _ => Value KValue (VInt 0) None 0 (VInt 0) None None None None None (VInt 0) 0 0 0 0 0 end.

Definition small := sample 0x90001 4 15 1.
Definition twice := sample 0x90001 4 15 2.
Definition large := sample 0x10030 8 100 1.
Definition array := mk_value KValue (VArgs input None 8 (VInt 2) (Some 0) None None None
   (Some (NList [VInt 0x70004; VInt 0x70005])) (VInt 0) 0 0 0 3 None).
Definition array_named := mk_value KValue (VArgs input (Some (VInt 0x70001)) 8 (VInt 2) (Some 0) None None None
   (Some (NList [VInt 0x70004; VInt 0x70005])) (VInt 0) 0 0 0 3 None).

Lemma wf_tv k a : well_formed (tv (mk_value k a)).
Proof. destruct (mk_value k a) as [v|] eqn:E; simpl; eauto. Qed.

Ltac wf := repeat match goal with
  | |- well_formed (tv _) => apply wf_tv
  | |- well_formed (TValue _) => eexists; eexists; reflexivity
  | |- well_formed (TReport _ _) => cbn [well_formed]
  | |- well_formed (TColl _ _ _) => cbn [well_formed]
  | |- well_formed (TTop _) => cbn [well_formed]
  | |- well_formed ?t => unfold t
  | |- _ /\ _ => split
  | |- True => exact I
  | |- _ <= _ => discriminate
  end.

Lemma host_concrete db t l b :
  stream_items db t = Ok l -> compile db false t = Ok b ->
  forall m, host_reads m b (host_view m (map wire l)).
Proof.
  intros H C m. unfold compile in C. rewrite H in C. cbn [bind] in C.
  exists (map wire l). split; [apply serialize_means; exact C|reflexivity].
Qed.

Lemma follows_val Gap b r v l ev :
  follows Gap b (LVal r v :: l) ev ->
  exists p ev', Gap b r v p /\ ev = gap_events r v p ++ own_events r v ++ ev' /\
    follows Gap (b ++ gap_events r v p ++ own_events r v) l ev'.
Proof. intros F. inversion F; subst. eauto. Qed.

(** C23 for the unoptimised stream; C23_optimised is in Properties_Optimizer.v *)
Theorem C23_stream : forall db t l, stream_items db t = Ok l -> balanced (map ic l).
Proof. exact c23. Qed.
Print Assumptions C23_stream.

Example C23_case :
  exists l, stream_items empty_db
    (TColl (VInt 1) (Some (VInt 0x10002)) [TColl (VInt 0) (Some (VInt 0x10001)) [tv small]; tv array_named]) = Ok l
    /\ length (filter (fun c => icls_eqb c Collection) (map ic l)) = 3%nat
    /\ balanced (map ic l) /\ ~ balanced (map ic (skipn 3 l)).
Proof. eexists. split; [vm_compute; reflexivity|]. vm_compute. repeat split. discriminate. Qed.

(** C24: exactly the declared fields, in order, and nothing leaks.  The ids
    are those of the last Report with a non-zero id (see C25). *)
Theorem C24 : forall db t b,
  well_formed t -> compile db false t = Ok b ->
  exists ev, reads_as b ev /\ follows any_gap [] (fst (threaded 0 t)) ev.
Proof. exact c24. Qed.
Print Assumptions C24.

Definition tree24 : tree :=
  TColl (VInt 1) (Some (VInt 0x10002)) [tv small; TReport 1 [tv large; tv array_named; tv twice]].

Example C24_case : well_formed tree24 /\ exists b, compile empty_db false tree24 = Ok b.
Proof. split; [wf|eexists; vm_compute; reflexivity]. Qed.

(** C25 holds exactly as long as no value follows the end of the Report that
    was entered last (or of a Report with a non-zero id). *)
Theorem C25_partial : forall db t b,
  well_formed t -> compile db false t = Ok b -> fst (threaded 0 t) = scoped 0 t ->
  exists ev, reads_as b ev /\ follows any_gap [] (scoped 0 t) ev.
Proof. exact c25. Qed.
Print Assumptions C25_partial.

Definition tree25 : tree :=
  TColl (VInt 1) (Some (VInt 0x10002)) [tv small; TReport 1 [tv large]; TReport 2 [tv twice; tv array]].

Example C25_case :
  well_formed tree25 /\ (exists b, compile empty_db false tree25 = Ok b) /\
  fst (threaded 0 tree25) = scoped 0 tree25 /\
  In (LVal 2 (getv array)) (scoped 0 tree25).
Proof.
  split; [wf|]. split; [eexists; vm_compute; reflexivity|].
  split; [reflexivity|]. simpl. tauto.
Qed.

Definition tree25_bad : tree := TTop [TReport 1 [tv large]; tv large].

Theorem C25_refuted : exists db t b,
  well_formed t /\ compile db false t = Ok b /\
  ~ exists ev, reads_as b ev /\ follows any_gap [] (scoped 0 t) ev.
Proof.
  exists empty_db, tree25_bad. eexists. split; [wf|]. split; [vm_compute; reflexivity|].
  intros [ev [R F]].
  assert (E : stream_items empty_db tree25_bad = Ok (match stream_items empty_db tree25_bad with Ok l => l | _ => [] end))
    by (vm_compute; reflexivity).
  pose proof (host_concrete empty_db tree25_bad _ _ E ltac:(vm_compute; reflexivity) AtDecl) as HR.
  apply R in HR. subst ev. vm_compute in F.
  apply follows_val in F. destruct F as [p [ev1 [_ [Q1 F]]]].
  unfold gap_events in Q1. destruct (p =? 0); [|discriminate Q1].
  vm_compute in Q1. injection Q1 as Q1. subst ev1.
  apply follows_val in F. destruct F as [p2 [ev2 [_ [Q2 F]]]].
  unfold gap_events in Q2. destruct (p2 =? 0); vm_compute in Q2; discriminate Q2.
Qed.
Print Assumptions C25_refuted.

(** C26: every value is aligned when its repetition count is 1 and no
    Report(0) follows a Report with a non-zero id. *)
Theorem C26_partial : forall db t b,
  well_formed t -> compile db false t = Ok b ->
  fst (threaded 0 t) = fst (entered 0 t) ->
  (forall v, In v (leaf_values (fst (entered 0 t))) -> v_kind v = KValue -> v_count v = 1) ->
  exists ev, reads_as b ev /\ follows aligned_gap [] (fst (entered 0 t)) ev.
Proof. exact c26. Qed.
Print Assumptions C26_partial.

Definition tree26 : tree :=
  TColl (VInt 1) (Some (VInt 0x10002))
    [tv small; tv large; TReport 1 [tv large; tv small; tv (mk_align input 16 (VInt 3)); tv small]].

Example C26_case :
  well_formed tree26 /\ (exists b, compile empty_db false tree26 = Ok b) /\
  fst (threaded 0 tree26) = fst (entered 0 tree26) /\
  (forall v, In v (leaf_values (fst (entered 0 tree26))) -> v_kind v = KValue -> v_count v = 1).
Proof.
  split; [wf|]. split; [eexists; vm_compute; reflexivity|].
  split; [reflexivity|]. simpl. intros v I K.
  repeat destruct I as [<-|I]; try reflexivity. destruct I.
Qed.

(** Report(0) after Report(1): the streamer counts in report 0, the host
    still in report 1. *)
Definition tree26_bad : tree := TTop [TReport 1 [tv small]; TReport 0 [tv large]].

Theorem C26_refuted : exists db t b,
  well_formed t /\ compile db false t = Ok b /\
  (forall v, In v (leaf_values (fst (entered 0 t))) -> v_kind v = KValue -> v_count v = 1) /\
  ~ exists ev, reads_as b ev /\ follows aligned_gap [] (fst (threaded 0 t)) ev.
Proof.
  exists empty_db, tree26_bad. eexists. split; [wf|]. split; [vm_compute; reflexivity|]. split.
  { simpl. intros v I K. repeat destruct I as [<-|I]; try reflexivity. destruct I. }
  intros [ev [R F]].
  assert (E : stream_items empty_db tree26_bad = Ok (match stream_items empty_db tree26_bad with Ok l => l | _ => [] end))
    by (vm_compute; reflexivity).
  pose proof (host_concrete empty_db tree26_bad _ _ E ltac:(vm_compute; reflexivity) AtDecl) as HR.
  apply R in HR. subst ev. vm_compute in F.
  apply follows_val in F. destruct F as [p [ev1 [_ [Q1 F]]]].
  unfold gap_events in Q1. destruct (p =? 0) eqn:P0; [|discriminate Q1]. apply Z.eqb_eq in P0. subst p.
  vm_compute in Q1. injection Q1 as Q1. subst ev1.
  apply follows_val in F. destruct F as [p2 [ev2 [G [Q2 F]]]].
  unfold gap_events in Q2. destruct (p2 =? 0) eqn:P0; [|discriminate Q2]. apply Z.eqb_eq in P0. subst p2.
  destruct G as [_ G]. specialize (G eq_refl). change (8 | 4) in G. destruct G as [z G]. lia.
Qed.
Print Assumptions C26_refuted.

(** C27: with counts other than 1 alignment is kept when the bits of the
    repetitions are a multiple of every alignment used in the tree. *)
Theorem C27_partial : forall db t b,
  well_formed t -> compile db false t = Ok b ->
  fst (threaded 0 t) = fst (entered 0 t) ->
  (forall v w, In v (leaf_values (fst (entered 0 t))) -> In w (leaf_values (fst (entered 0 t))) ->
     1 < wanted_alignment w -> (wanted_alignment w | extra_bits v)) ->
  exists ev, reads_as b ev /\ follows aligned_gap [] (fst (entered 0 t)) ev.
Proof. exact c27. Qed.
Print Assumptions C27_partial.

Definition tree27 : tree := TTop [tv small; tv array; tv small; tv large].

Example C27_case :
  well_formed tree27 /\ (exists b, compile empty_db false tree27 = Ok b) /\
  fst (threaded 0 tree27) = fst (entered 0 tree27) /\
  (forall v w, In v (leaf_values (fst (entered 0 tree27))) -> In w (leaf_values (fst (entered 0 tree27))) ->
     1 < wanted_alignment w -> (wanted_alignment w | extra_bits v)).
Proof.
  split; [wf|]. split; [eexists; vm_compute; reflexivity|].
  split; [reflexivity|]. simpl. intros v w I1 I2 _.
  repeat (destruct I1 as [<-|I1]); [| | | |destruct I1];
    (repeat (destruct I2 as [<-|I2]); [| | | |destruct I2]); vm_compute;
    first [exists 0; reflexivity | exists 4; reflexivity | exists 2; reflexivity].
Qed.

(** two 4-bit values then an 8-bit one: padded to bit 12 *)
Definition tree27_bad : tree := TTop [tv twice; tv large].

Theorem C27_refuted : exists db t b,
  well_formed t /\ compile db false t = Ok b /\ fst (threaded 0 t) = fst (entered 0 t) /\
  ~ exists ev, reads_as b ev /\ follows aligned_gap [] (fst (entered 0 t)) ev.
Proof.
  exists empty_db, tree27_bad. eexists. split; [wf|]. split; [vm_compute; reflexivity|]. split; [reflexivity|].
  intros [ev [R F]].
  assert (E : stream_items empty_db tree27_bad = Ok (match stream_items empty_db tree27_bad with Ok l => l | _ => [] end))
    by (vm_compute; reflexivity).
  pose proof (host_concrete empty_db tree27_bad _ _ E ltac:(vm_compute; reflexivity) AtDecl) as HR.
  apply R in HR. subst ev. vm_compute in F.
  apply follows_val in F. destruct F as [p [ev1 [_ [Q1 F]]]].
  unfold gap_events in Q1. destruct (p =? 0) eqn:P0; [|discriminate Q1]. apply Z.eqb_eq in P0. subst p.
  vm_compute in Q1. injection Q1 as Q1. subst ev1.
  apply follows_val in F. destruct F as [p2 [ev2 [G [Q2 F]]]].
  unfold gap_events in Q2. destruct (p2 =? 0) eqn:P0; [vm_compute in Q2; discriminate Q2|].
  injection Q2 as Q2 _. subst p2.
  destruct G as [_ G]. specialize (G eq_refl). change (8 | 12) in G. destruct G as [z G]. lia.
Qed.
Print Assumptions C27_refuted.

(** C28: negative report ids, collections without usage and values in a
    report beyond 255 are refused; the report meant is the one entered
    last. *)
Theorem C28_partial : forall db opt t,
  (exists id ms, inside (TReport id ms) t /\ id < 0) \/
  (exists k ms, inside (TColl k None ms) t) \/
  (exists r v, In (LVal r v) (fst (entered 0 t)) /\ v_kind v = KValue /\ ~ 0 <= r <= 255) ->
  exists e, compile db opt t = Err e.
Proof. exact c28. Qed.
Print Assumptions C28_partial.

Example C28_case :
  (inside (TReport (-1) []) (TTop [tv small; TColl (VInt 1) (Some (VInt 5)) [TReport (-1) []]])) /\
  (inside (TColl (VInt 2) None [tv small]) (TReport 1 [TColl (VInt 2) None [tv small]])) /\
  In (LVal 256 (getv small)) (fst (entered 0 (TReport 256 [tv small]))).
Proof.
  split; [|split].
  - eapply in_top; [right; left; reflexivity|]. eapply in_coll; [left; reflexivity|]. apply in_self.
  - eapply in_report; [left; reflexivity|]. apply in_self.
  - left. reflexivity.
Qed.

(** For the innermost report it is false: the inner Report(1) hides the
    outer Report(300) from a later value. *)
Theorem C28_refuted : exists db t b r v,
  In (LVal r v) (scoped 0 t) /\ v_kind v = KValue /\ ~ 0 <= r <= 255 /\ compile db true t = Ok b.
Proof.
  exists empty_db, (TReport 300 [TReport 1 [tv small]; tv large]). eexists. exists 300, (getv large).
  split; [right; left; reflexivity|]. split; [reflexivity|]. split; [lia|]. vm_compute. reflexivity.
Qed.
Print Assumptions C28_refuted.

(** C29: a named array without usage is read as an array item whose selector
    runs over exactly the usages given. *)
Theorem C29_partial : forall db t b r v,
  well_formed t -> compile db false t = Ok b ->
  In (LVal r v) (fst (threaded 0 t)) -> v_kind v = KValue ->
  array_usages (v_named v) <> [] -> usage_list (v_usage v) = [] ->
  exists e1 e2 a ds ss,
    reads_as b (e1 ++ repeat (EvArr a (array_usages (v_named v)) ds ss []) (Z.to_nat (v_count v)) ++ e2) /\
    f_flags a = 0 /\ f_rid a = r /\ f_size a = v_size v /\
    f_lmax a - f_lmin a + 1 = Z.of_nat (length (array_usages (v_named v))).
Proof. exact c29. Qed.
Print Assumptions C29_partial.

Example C29_case :
  well_formed tree25 /\ (exists b, compile empty_db false tree25 = Ok b) /\
  In (LVal 2 (getv array)) (fst (threaded 0 tree25)) /\ v_kind (getv array) = KValue /\
  array_usages (v_named (getv array)) = [0x70004; 0x70005] /\ usage_list (v_usage (getv array)) = [].
Proof.
  split; [wf|]. split; [eexists; vm_compute; reflexivity|].
  split; [simpl; tauto|]. repeat split.
Qed.

(** With a usage it is false: the item is flagged Variable, the host reads
    three variables instead of three selectors. *)
Theorem C29_refuted : exists db v b a ds ss,
  mk_value KValue (VArgs input (Some (VInt 0x70001)) 8 (VInt 2) (Some 0) None None None
   (Some (NList [VInt 0x70004; VInt 0x70005])) (VInt 0) 0 0 0 3 None) = Ok v /\
  compile db false (TValue v) = Ok b /\ f_flags a = 2 /\
  reads_as b [EvColl 2 [0x70001] [] [] [];
              EvVar a (Some 0x70004) ds ss []; EvVar a (Some 0x70005) ds ss [];
              EvVar a (Some 0x70005) ds ss []; EvEnd].
Proof.
  pose (t := TValue (getv array_named)).
  let x := eval vm_compute in (match compile empty_db false (TValue (getv array_named)) with Ok b => b | _ => [] end)
    in pose (b := x).
  assert (C : compile empty_db false t = Ok b) by (vm_compute; reflexivity).
  assert (E : stream_items empty_db t = Ok (match stream_items empty_db t with Ok l => l | _ => [] end))
    by (vm_compute; reflexivity).
  assert (WF : well_formed t) by (change (well_formed (tv array_named)); apply wf_tv).
  destruct (C24 empty_db t b WF C) as [ev [R _]].
  pose proof (host_concrete empty_db _ _ _ E C AtDecl) as HR.
  apply R in HR. vm_compute in HR. subst ev.
  exists empty_db, (getv array_named), b. do 3 eexists. split; [reflexivity|]. split; [exact C|].
  split; [|exact R]. reflexivity.
Qed.
Print Assumptions C29_refuted.
