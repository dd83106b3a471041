(* LayoutProofs.v -- every tree that compiles is read as its layout *)
From Coq Require Import ZifyBool ZifyNat.
From Verif Require Import Py Usage Item Parser Optimizer Descriptor HidSpec Spec ItemFacts ParserFacts
  CodecProofs UsageProofs StreamSpec PlainHost StreamProofs StreamTree OptSpec OptFacts PassFacts TreeSpec TreeOpt PageTree
  LayoutSpec.
Ltac Zify.zify_post_hook ::= Z.div_mod_to_equations.
Local Open Scope list_scope. Local Open Scope Z_scope.

Lemma fill_unique a s p : 0 <= p < Z.max 1 a -> (1 < a -> (a | s + p)) -> p = fill a s.
Proof.
  intros R D. unfold fill. destruct (Z.ltb_spec 1 a); [|lia].
  destruct (D H) as [q E].
  assert (- s = a * (- q) + p) by lia. symmetry. rewrite H0.
  rewrite (Z.mul_comm a), Z.add_comm, Z_mod_plus_full. apply Z.mod_small. lia.
Qed.

(** the streamer's counters are the tally *)
Definition tallies (t : tally) (st : sst) : Prop := forall w k, 0 <= k -> s_size st w k = counted t w k.

Record lay_ok (st st' : sst) (o : list item) (th en : Z -> list leaf * Z) : Prop := LayOk {
  lo_rid : s_rid st' = snd (en (s_rid st));
  lo_run : forall g t, 0 <= s_rid st -> tallies t st -> exists g' t',
    p_run (P g [] [] []) (map cv o) =
      (P g' [] [] [], laid_out t (fst (th (g_rid g))) (fst (en (s_rid st)))) /\
    g_rid g' = snd (th (g_rid g)) /\ 0 <= s_rid st' /\ tallies t' st' /\
    forall l l', laid_out t (fst (th (g_rid g)) ++ l) (fst (en (s_rid st)) ++ l')
      = laid_out t (fst (th (g_rid g))) (fst (en (s_rid st))) ++ laid_out t' l l'
}.

Lemma lay_value db st v st' o :
  made v -> element db st v = Ok (st', o) ->
  lay_ok st st' o (fun r => threaded r (TValue v)) (fun r => entered r (TValue v)).
Proof.
  intros M H. destruct (element_run db st v st' o M H) as [p [PR [PL [RUN [RID [DIV [SZ [OK [CN PN]]]]]]]]].
  constructor; [exact RID|]. intros g t N T. destruct (RUN g) as [g' [E [R1 R2]]].
  assert (SL : slot (s_rid st) = s_rid st) by (unfold slot; destruct (s_rid st <? 0) eqn:X; lia).
  rewrite SL in *.
  assert (EP : p = fill (wanted_alignment v) (counted t (py_int (v_way v)) (s_rid st))).
  { apply fill_unique; auto. rewrite <- T by exact N. exact DIV. }
  exists g', ((py_int (v_way v), s_rid st, p + once v) :: t).
  cbn [threaded entered fst snd laid_out]. rewrite <- EP.
  split; [rewrite app_nil_r; exact E|]. split; [exact R1|]. split; [lia|]. split.
  - intros w k K. rewrite SZ, T by exact K. unfold counted. cbn [filter fst snd].
    replace (py_int (v_way v) =? w) with (w =? py_int (v_way v)) by lia.
    replace (s_rid st =? k) with (k =? s_rid st) by lia.
    change (once v) with (own_bits v).
    destruct (_ && _); cbn [map fold_right snd]; lia.
  - intros l l'. cbn [app laid_out]. rewrite <- EP, app_nil_r, app_assoc. reflexivity.
Qed.

Lemma lay_nil st : lay_ok st st [] (fun r => ([], r)) (fun r => ([], r)).
Proof. constructor; [reflexivity|]. intros g t N T. exists g, t. cbn. repeat split; auto. Qed.

Lemma lay_seq st st1 st2 o1 o2 th1 th2 en1 en2 :
  lay_ok st st1 o1 th1 en1 -> lay_ok st1 st2 o2 th2 en2 ->
  lay_ok st st2 (o1 ++ o2) (seq2 th1 th2) (seq2 en1 en2).
Proof.
  intros [R1 G1] [R2 G2]. unfold seq2. constructor.
  - destruct (en1 (s_rid st)) as [a r1] eqn:E1. cbn [snd] in R1. rewrite R1 in R2.
    destruct (en2 r1) as [b r2]. exact R2.
  - intros g t N T. destruct (G1 g t N T) as [g1 [t1 [X1 [Y1 [N1 [T1 A1]]]]]].
    destruct (G2 g1 t1 N1 T1) as [g2 [t2 [X2 [Y2 [N2 [T2 A2]]]]]].
    exists g2, t2.
    destruct (th1 (g_rid g)) as [a r1] eqn:E1. cbn [fst snd] in *. rewrite Y1 in *.
    destruct (th2 r1) as [b r2] eqn:E2. cbn [fst snd] in *.
    destruct (en1 (s_rid st)) as [a' r1'] eqn:E1'. cbn [fst snd] in *. rewrite R1 in *.
    destruct (en2 r1') as [b' r2'] eqn:E2'. cbn [fst snd] in *.
    rewrite A1. split; [rewrite map_app; eapply p_run_then; eauto|].
    split; [exact Y2|]. split; [exact N2|]. split; [exact T2|].
    intros l l'. rewrite <- !app_assoc, !A1, A2. reflexivity.
Qed.

Lemma lay_members db ms :
  Forall (fun m => forall st st' o, well_formed m -> stream_tree db st m = Ok (st', o) ->
            lay_ok st st' o (fun r => threaded r m) (fun r => entered r m)) ms ->
  forall st st' o, Forall well_formed ms -> stream_members db st ms = Ok (st', o) ->
    lay_ok st st' o (fun r => threaded_all r ms) (fun r => entered_all r ms).
Proof.
  induction 1 as [|m ms H _ IH]; intros st st' o WF E; cbn [stream_members] in E.
  - injection E as <- <-. apply lay_nil.
  - destruct (stream_tree db st m) as [[st1 o1]|] eqn:E1; [|discriminate]. cbn [bind] in E.
    destruct (stream_members db st1 ms) as [[st2 o2]|] eqn:E2; [|discriminate]. cbn [bind] in E.
    injection E as <- <-. inversion WF; subst.
    exact (lay_seq _ _ _ _ _ _ _ _ _ (H _ _ _ ltac:(assumption) E1) (IH _ _ _ ltac:(assumption) E2)).
Qed.

Lemma lay_report db st st' id o o1 ms :
  (if id =? 0 then Ok [] else mk_items db [(ReportID, Some (VInt id))]) = Ok o ->
  lay_ok (SST id (s_size st)) st' o1 (fun r => threaded_all r ms) (fun r => entered_all r ms) ->
  lay_ok st st' (o ++ o1) (fun r => threaded r (TReport id ms)) (fun r => entered r (TReport id ms)).
Proof.
  intros E [R1 G1].
  assert (O : map cv o = if id =? 0 then [] else [(ReportID, id)]).
  { destruct (id =? 0); [injection E as <-; reflexivity|].
    etransitivity; [eapply mk_items_cv; [|exact E]|]; [|reflexivity]. repeat constructor. }
  assert (NN : 0 <= id).
  { destruct (id =? 0) eqn:Z0; [lia|].
    pose proof (mk_items_nonneg db _ _ E) as X.
    assert (Y : Forall req_ok [(ReportID, Some (VInt id))]) by repeat constructor.
    specialize (X Y). inversion X as [|? ? X1 _]. apply X1. reflexivity. }
  constructor; [exact R1|].
  intros g t _ T. set (g0 := if id =? 0 then g else g_set ReportID id g).
  assert (RG : g_rid g0 = if id =? 0 then g_rid g else id) by (unfold g0; destruct (id =? 0), g; reflexivity).
  destruct (G1 g0 t NN T) as [g1 [t1 [X1 [Y1 [N1 [T1 A1]]]]]].
  exists g1, t1. cbn [s_rid] in *. rewrite threaded_report, entered_report. rewrite RG in *.
  split; [|auto].
  rewrite map_app, O. unfold g0 in X1. destruct (id =? 0); cbn [app]; auto.
  cbn [p_run p_step hid_kind p_g p_us p_ds p_ss]. rewrite X1. reflexivity.
Qed.

Lemma lay_coll db st st' k u o o1 o2 ms :
  (match k with VInt z => 0 <= z | _ => True end) ->
  mk_items db [(Usage, u); (Collection, Some k)] = Ok o ->
  lay_ok st st' o1 (fun r => threaded_all r ms) (fun r => entered_all r ms) ->
  mk_items db [(EndCollection, Some (VInt 0))] = Ok o2 ->
  lay_ok st st' (o ++ o1 ++ o2) (fun r => threaded r (TColl k u ms)) (fun r => entered r (TColl k u ms)).
Proof.
  intros KK E [R1 G1] E2.
  destruct (coll_items _ _ _ _ E) as [x ->].
  assert (O : map cv o = [(Usage, py_int x); (Collection, py_int k)]).
  { etransitivity; [eapply mk_items_cv; [|exact E]|]; [|reflexivity].
    constructor; [exact I|]. constructor; [|constructor]. exact KK. }
  assert (O2 : map cv o2 = [(EndCollection, 0)]).
  { etransitivity; [eapply mk_items_cv; [|exact E2]|]; [|reflexivity]. repeat constructor. }
  assert (EN : forall r, entered r (TColl k (Some x) ms)
     = (LOpen k (Some x) :: fst (entered_all r ms) ++ [LClose], snd (entered_all r ms))).
  { intros r. rewrite entered_coll. destruct (entered_all r ms); reflexivity. }
  assert (TH : forall r, threaded r (TColl k (Some x) ms)
     = (LOpen k (Some x) :: fst (threaded_all r ms) ++ [LClose], snd (threaded_all r ms))).
  { intros r. rewrite threaded_coll. destruct (threaded_all r ms); reflexivity. }
  constructor; [rewrite EN; exact R1|].
  intros g t N T. destruct (G1 g t N T) as [g1 [t1 [X1 [Y1 [N1 [T1 A1]]]]]].
  exists g1, t1. rewrite TH, EN. cbn [fst snd laid_out app]. rewrite A1.
  split.
  { rewrite !map_app, O, O2. cbn [app p_run p_step hid_kind p_g p_us p_ds p_ss p_obs].
    rewrite p_run_app, X1. cbn [fst snd p_run p_step hid_kind p_g p_obs app laid_out]. reflexivity. }
  split; [exact Y1|]. split; [exact N1|]. split; [exact T1|].
  intros l l'. rewrite <- !app_assoc, A1. cbn [app laid_out]. rewrite <- ?app_assoc. reflexivity.
Qed.

Lemma stream_lay db t : forall st st' o,
  well_formed t -> stream_tree db st t = Ok (st', o) ->
  lay_ok st st' o (fun r => threaded r t) (fun r => entered r t).
Proof.
  induction t as [v|id ms IH|ms IH|k u ms IH] using tree_rect2; intros st st' o WF H.
  - eapply lay_value; eauto.
  - rewrite stream_report in H.
    destruct (if id =? 0 then _ else _) as [o0|] eqn:E0; [|discriminate]. cbn [bind] in H.
    destruct (stream_members db _ ms) as [[st1 o1]|] eqn:E1; [|discriminate]. cbn [bind] in H.
    injection H as <- <-. eapply lay_report; [exact E0|].
    eapply lay_members; [exact IH| |exact E1]. apply well_formed_all. exact WF.
  - rewrite stream_top in H. eapply lay_members; eauto. apply well_formed_all. exact WF.
  - rewrite stream_coll in H.
    destruct (mk_items db [(Usage, u); (Collection, Some k)]) as [o0|] eqn:E0; [|discriminate]. cbn [bind] in H.
    destruct (stream_members db st ms) as [[st1 o1]|] eqn:E1; [|discriminate]. cbn [bind] in H.
    destruct (mk_items db [(EndCollection, Some (VInt 0))]) as [o2|] eqn:E2; [|discriminate]. cbn [bind] in H.
    injection H as <- <-. destruct WF as [W1 W2]. eapply lay_coll; eauto.
    eapply lay_members; [exact IH| |exact E1]. apply well_formed_all. exact W2.
Qed.

Lemma stream_seen_laid db t l m : well_formed t -> stream_items db t = Ok l -> seen m l = tree_layout t.
Proof.
  intros WF H. unfold stream_items in H.
  destruct (stream_tree db sst_init t) as [[st' o]|] eqn:E; [|discriminate]. cbn [bind] in H. injection H as <-.
  destruct (stream_run db (fun _ => True) t _ _ _ WF E) as [PL _ _ _].
  destruct (stream_lay db t _ _ _ WF E) as [_ RUN].
  destruct (RUN g_init [] ltac:(cbn; lia)) as [g' [t' [X _]]].
  { intros w k K. reflexivity. }
  unfold seen. rewrite plain_view by exact PL. unfold p_init.
  transitivity (snd (p_run (P g_init [] [] []) (map cv o))); [reflexivity|rewrite X; reflexivity].
Qed.

Lemma c76 db t b : well_formed t -> compile db false t = Ok b -> reads_as b (tree_layout t).
Proof.
  intros WF H m. unfold compile in H.
  destruct (stream_items db t) as [l|] eqn:E; [|discriminate]. cbn [bind] in H.
  rewrite <- (stream_seen_laid db t l m WF E). apply serialized_reads. exact H.
Qed.

Lemma c76_optimised db t b : well_formed t -> closed_tree t ->
  scaling_ok (fst (threaded 0 t)) -> uniform_leaves (fst (threaded 0 t)) ->
  compile db true t = Ok b -> reads_bound AtDecl b (tree_layout t).
Proof.
  intros WF CL SC UN H. unfold compile in H.
  destruct (stream_items db t) as [l|] eqn:E; [|discriminate]. cbn [bind] in H.
  destruct (tree_orderly db t l WF CL E SC) as [C [PF [EN [RG [BU P]]]]].
  rewrite <- (stream_seen_laid db t l AtDecl WF E).
  rewrite <- (c40_any db l C PF EN RG BU (proj1 (tree_joins _ _ _ P UN))).
  apply serialized_reads. exact H.
Qed.

Lemma c76_places db t b m ev : well_formed t -> closed_tree t -> compile db true t = Ok b ->
  host_reads m b ev ->
  map place_of ev = map place_of (tree_layout t) /\
  forall way rid, report_bits way rid ev = report_bits way rid (tree_layout t).
Proof.
  intros WF CL H R. unfold compile in H.
  destruct (stream_items db t) as [l|] eqn:E; [|discriminate]. cbn [bind] in H.
  apply (serialized_reads m _ _ H) in R. subst ev.
  rewrite <- (stream_seen_laid db t l m WF E).
  unfold stream_items in E.
  destruct (stream_tree db sst_init t) as [[st' o]|] eqn:E1; [|discriminate]. cbn [bind] in E. injection E as <-.
  pose proof (stream_pieces db t _ _ _ 0 WF E1) as P. pose proof (pieces_items _ _ _ _ P) as F.
  apply c32_bits.
  - eapply stream_constructed; eauto.
  - unfold push_free. rewrite Forall_map in F. eapply Forall_impl; [|exact F].
    intros i [A _]. cbn [cv fst] in A. split; intros Q; rewrite Q in A; discriminate A.
  - eapply closed_ends; eauto.
Qed.
