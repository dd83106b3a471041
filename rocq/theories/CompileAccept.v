(* CompileAccept.v -- which trees the compiler accepts *)
From Coq Require Import ZArith List Bool Lia ZifyBool ZifyNat String.
From Verif Require Import Py Usage Item Parser Optimizer Descriptor.
From Verif Require Import HidSpec Spec ItemFacts CodecProofs UsageProofs StreamSpec PlainHost StreamProofs StreamTree OptFacts DumpSpec NameFacts NameTree ExtractSpec AcceptSpec.
Import ListNotations.
Local Open Scope list_scope.
Local Open Scope Z_scope.

Definition inr (i : item) : Prop := in_32_bits (ic i) (ival i).

Lemma serialize_iff l : (exists b, serialize l = Ok b) <-> Forall inr l.
Proof.
  induction l as [|i l IH]; cbn [serialize].
  - split; [constructor|]. intros _. eexists. reflexivity.
  - split.
    + intros [b H]. destruct (bytes i) as [x|] eqn:E; [|discriminate]. cbn [bind] in H.
      destruct (serialize l) as [y|] eqn:S; [|discriminate]. constructor; [apply c02; eauto|]. apply IH. eauto.
    + intros F. destruct (proj2 (c02 i) (Forall_inv F)) as [x ->]. destruct (proj2 IH (Forall_inv_tail F)) as [y ->]. cbn [bind]. eauto.
Qed.

(* ------------------------------------------------------------------ *)
(** requests *)

Definition needs_value (c : icls) : bool :=
  match c with
  | Input | Output | Feature | Collection | EndCollection | Push | Pop | Usage | UsageMinimum | UsageMaximum => true
  | _ => false
  end.

(** requests that only depend on their number *)
Definition req_free (r : icls * option pval) : Prop :=
  req_ok r /\ (snd r = None -> needs_value (fst r) = false) /\ (zero_only (fst r) = true -> snd (req_cv r) = 0).

Lemma item_iff db r : req_free r ->
  (exists i, mk_item db (fst r) (snd r) = Ok i /\ inr i) <-> in_32_bits (fst r) (snd (req_cv r)).
Proof.
  destruct r as [c v]. intros [RO [NV ZO]]. cbn [fst snd] in *. split.
  - intros [i [H I]]. pose proof (mk_item_cv db c v i RO H) as E. unfold inr in I. rewrite <- E. cbn [snd].
    pose proof (mk_item_class _ _ _ _ H) as EC. rewrite EC in I. exact I.
  - intros I. assert (exists i, mk_item db c v = Ok i) as [i H].
    { destruct v as [x|].
      - apply mk_item_accepts.
        + destruct c; try reflexivity. destruct x as [z| |]; try reflexivity. cbn in *. lia.
        + unfold req_cv in *. cbn [fst snd] in *. split; [|exact ZO]. unfold in_32_bits in I. rewrite <- signed_hid in I.
          destruct (signed c); [left; reflexivity|right; lia].
      - specialize (NV eq_refl). unfold mk_item. destruct c; try discriminate NV; eexists; reflexivity. }
    exists i. split; [exact H|]. pose proof (mk_item_cv db c v i RO H) as E. unfold inr.
    pose proof (mk_item_class _ _ _ _ H) as EC. rewrite EC. replace (ival i) with (snd (req_cv (c, v))); [exact I|]. rewrite <- E. reflexivity.
Qed.

Lemma items_iff db l : Forall req_free l ->
  (exists o, mk_items db l = Ok o /\ Forall inr o) <-> Forall (fun x => in_32_bits (fst x) (snd x)) (map req_cv l).
Proof.
  induction l as [|[c v] l IH]; intros F; cbn [mk_items map].
  - split; [constructor|]. intros _. exists []. auto.
  - specialize (IH (Forall_inv_tail F)). pose proof (item_iff db _ (Forall_inv F)) as HI. cbn [fst snd] in HI. split.
    + intros [o [H I]]. destruct (mk_item db c v) as [i|] eqn:E; [|discriminate]. cbn [bind] in H.
      destruct (mk_items db l) as [is|] eqn:E2; [|discriminate]. cbn [bind] in H. injection H as <-.
      constructor; [|apply IH; exists is; split; [reflexivity|exact (Forall_inv_tail I)]].
      apply HI. exists i. split; [reflexivity|exact (Forall_inv I)].
    + intros G. destruct (proj2 HI (Forall_inv G)) as [i [-> I]]. destruct (proj2 IH (Forall_inv_tail G)) as [is [-> J]].
      cbn [bind]. exists (i :: is). auto.
Qed.

Lemma req_free_some c x : c <> Collection -> zero_only c = false -> req_free (c, Some x).
Proof.
  intros N Z. split; [|split; [discriminate|cbn [fst]; congruence]]. destruct c; try exact I. congruence.
Qed.

Lemma value_reqs_free db v b c : data_cls c -> Forall req_free (value_reqs db v b c).
Proof.
  intros D. unfold value_reqs.
  assert (NC : c <> Collection /\ zero_only c = false) by (destruct D as [->|[->| ->]]; split; (discriminate || reflexivity)).
  destruct NC as [NC NZ].
  assert (N : forall c' x, c' <> Collection -> zero_only c' = false -> req_free (c', Some x)) by (apply req_free_some).
  assert (MP : forall l : list pval, Forall req_free (map (fun u => (Usage, Some u)) l)).
  { intros l. apply Forall_map. apply Forall_forall. intros; apply N; [discriminate|reflexivity]. }
  assert (OI : forall c' o, c' <> Collection -> zero_only c' = false -> needs_value c' = false -> req_free (c', opt_int o)).
  { intros c' [z|] A B C; [apply N; auto|]. split; [|split; [auto|cbn; congruence]]. destruct c'; exact I. }
  assert (US : Forall req_free (if usage_truthy (v_usage v) then [(Usage, v_usage v)] else [])).
  { destruct (v_usage v) as [u|]; cbn [usage_truthy opt_truthy]; [|constructor]. destruct (truthy u); [|constructor]. constructor; [|constructor]. apply N; [discriminate|reflexivity]. }
  assert (ST : forall c' x, c' <> Collection -> zero_only c' = false -> Forall req_free [(c', Some x)]) by (intros; repeat constructor; apply N; auto).
  repeat match goal with
  | |- Forall _ (if usage_truthy _ then [(Usage, _)] else []) => exact US
  | |- Forall _ (_ ++ _) => apply Forall_app; split
  | |- Forall _ (if ?b then _ else _) => destruct b
  | |- Forall _ (_ :: _) => apply Forall_cons
  | |- Forall _ [] => apply Forall_nil
  | |- Forall _ (map _ _) => apply MP
  end.
  all: first [apply N; first [discriminate | reflexivity | assumption] | apply OI; first [discriminate | reflexivity] | idtac].
  all: (split; [cbn; try lia; exact I|split; [discriminate|first [discriminate|reflexivity]]]).
Qed.

(* ------------------------------------------------------------------ *)
(** one value *)

Lemma in_32_unsigned c z : hid_signed c = false -> in_32_bits c z <-> u32 z.
Proof. unfold in_32_bits, u32. intros ->. reflexivity. Qed.
Lemma in_32_signed c z : hid_signed c = true -> in_32_bits c z <-> s32 z.
Proof. unfold in_32_bits, s32. intros ->. reflexivity. Qed.

Lemma forall_u32 c l : hid_signed c = false -> Forall (fun x => in_32_bits (fst x) (snd x)) (map (fun z => (c, z)) l) <-> Forall u32 l.
Proof.
  intros S. rewrite Forall_map. cbn [fst snd]. split; apply Forall_impl; intros z; apply in_32_unsigned; exact S.
Qed.

Lemma idx_u32 c z : hid_signed c = false -> Forall (fun x => in_32_bits (fst x) (snd x)) (map (fun z => (c, z)) (idx z)) <-> u32 z.
Proof.
  intros S. rewrite forall_u32 by exact S. unfold idx. destruct (Z.eqb_spec z 0) as [->|N].
  - split; [|constructor]. intros _. unfold u32. lia.
  - split; [apply Forall_inv|]. intros H. repeat constructor; apply H.
Qed.

Lemma forall_two {A} (P : A -> Prop) x y : Forall P [x; y] <-> P x /\ P y.
Proof. rewrite !Forall_cons_iff. intuition. Qed.
Lemma forall_three {A} (P : A -> Prop) x y z : Forall P [x; y; z] <-> P x /\ P y /\ P z.
Proof. rewrite !Forall_cons_iff. intuition. Qed.
Lemma forall_four {A} (P : A -> Prop) x y z w : Forall P [x; y; z; w] <-> P x /\ P y /\ P z /\ P w.
Proof. rewrite !Forall_cons_iff. intuition. Qed.

Lemma value_items db v b : data_cls (way_class (py_int (v_way v))) -> narr_truthy (v_named v) = Ok b ->
  (exists o, mk_items db (value_reqs db v b (way_class (py_int (v_way v)))) = Ok o /\ Forall inr o) <-> storable_value v.
Proof.
  intros D T. pose proof (truthy_is_array _ _ T) as ->. rewrite items_iff by (apply value_reqs_free; exact D).
  set (c := way_class (py_int (v_way v))) in *. unfold storable_value.
  assert (RNG : match v_named v with Some (NRange r) => py_int (r_min r) <= py_int (r_max r) + 1 | _ => True end).
  { destruct (v_named v) as [[l|r]|]; auto. cbn [narr_truthy narr_len] in T. unfold range_len in T.
    destruct (py_int (r_max r) - py_int (r_min r) + 1 <? 0) eqn:Q; [discriminate T|]. lia. }
  assert (DC : hid_signed c = false) by (destruct D as [->|[->| ->]]; reflexivity).
  assert (END : Forall (fun x => in_32_bits (fst x) (snd x)) (val_end v c) <-> u32 (v_count v) /\ u32 (v_size v) /\ u32 (py_int (v_flags v))).
  { unfold val_end. rewrite forall_three. cbn [fst snd]. rewrite (in_32_unsigned c) by exact DC. reflexivity. }
  destruct (is_constant (py_int (v_flags v))) eqn:C.
  - rewrite reqs_const by exact C. rewrite END. split; [intros [A [B E]]; repeat (split; [auto|]); discriminate|tauto].
  - rewrite reqs_data by exact C. rewrite !Forall_app, END. unfold val_mid. rewrite !Forall_app, forall_four. cbn [fst snd].
    rewrite (forall_u32 Usage) by reflexivity. rewrite (idx_u32 DesignatorIndex), (idx_u32 StringIndex) by reflexivity.
    rewrite (in_32_signed LogicalMinimum), (in_32_signed LogicalMaximum), (in_32_signed UnitExponent), (in_32_unsigned Unit) by reflexivity.
    assert (MID : Forall (fun x => in_32_bits (fst x) (snd x)) (if is_array v
       then [(PhysicalMinimum, 0); (PhysicalMaximum, 0)] ++ map (fun _ => (Collection, 2)) (usage_list (v_usage v)) ++ map (fun z => (Usage, z)) (array_usages (v_named v))
       else if opt_Z_eqb (v_pmin v) (v_lmin v) && opt_Z_eqb (v_pmax v) (v_lmax v) then [(PhysicalMinimum, 0); (PhysicalMaximum, 0)]
       else [(PhysicalMinimum, or0 (v_pmin v)); (PhysicalMaximum, or0 (v_pmax v))]) /\ s32 (or0 (v_lmin v)) /\ s32 (or0 (v_lmax v)) <->
      (Forall u32 (array_usages (v_named v)) /\ (is_array v = false -> s32 (or0 (v_pmin v)) /\ s32 (or0 (v_pmax v)))) /\ s32 (or0 (v_lmin v)) /\ s32 (or0 (v_lmax v))).
    { assert (Z2 : Forall (fun x => in_32_bits (fst x) (snd x)) [(PhysicalMinimum, 0); (PhysicalMaximum, 0)]) by (rewrite forall_two; cbn; lia).
      destruct (is_array v) eqn:A.
      - rewrite !Forall_app, (forall_u32 Usage) by reflexivity. split.
        + intros [[_ [_ H]] L]. split; [split; [exact H|discriminate]|exact L].
        + intros [[H _] L]. split; [|exact L]. split; [exact Z2|]. split; [|exact H]. apply Forall_map, Forall_forall. intros x _. cbn. lia.
      - assert (AE : array_usages (v_named v) = []) by (unfold is_array in A; destruct (array_usages (v_named v)); [reflexivity|discriminate A]).
        rewrite AE. destruct (opt_Z_eqb (v_pmin v) (v_lmin v) && opt_Z_eqb (v_pmax v) (v_lmax v)) eqn:Q.
        + assert (v_pmin v = v_lmin v /\ v_pmax v = v_lmax v) as [E1 E2].
          { apply andb_true_iff in Q. destruct Q as [Q1 Q2]. split; [destruct (v_pmin v), (v_lmin v)|destruct (v_pmax v), (v_lmax v)]; cbn in *; try discriminate; try reflexivity; f_equal; lia. }
          rewrite E1, E2. split; [intros [_ L]; split; [split; [constructor|intros _; exact L]|exact L]|intros [_ L]; split; [exact Z2|exact L]].
        + rewrite forall_two. cbn [fst snd]. rewrite (in_32_signed PhysicalMinimum), (in_32_signed PhysicalMaximum) by reflexivity.
          split; [intros [P L]; split; [split; [constructor|intros _; exact P]|exact L]|intros [[_ P] L]; split; [exact (P eq_refl)|exact L]]. }
    assert (LAST : Forall (fun x => in_32_bits (fst x) (snd x)) (if is_array v then map (fun _ => (EndCollection, 0)) (usage_list (v_usage v)) else [])).
    { destruct (is_array v); [|constructor]. apply Forall_map, Forall_forall. intros x _. cbn. lia. }
    tauto.
Qed.

Lemma main_class_way way : way = 8 \/ way = 9 \/ way = 11 -> main_class way = Ok (way_class way) /\ data_cls (way_class way).
Proof. intros [->|[->| ->]]; (split; [reflexivity|]); unfold data_cls; auto. Qed.

Lemma rs_key_iff way id : 0 <= id -> (exists j, rs_key way id = Ok j) <-> (way = 8 \/ way = 9 \/ way = 11) /\ 0 <= id < 256.
Proof.
  intros N. unfold rs_key. replace (id <? 0) with false by lia. destruct ((way =? 8) || (way =? 9) || (way =? 11)) eqn:W.
  - destruct ((id <? 0) || (256 <=? id)) eqn:I; split; intros H; [destruct H; discriminate|lia|lia|eauto].
  - split; [intros [j H]; discriminate|lia].
Qed.

Lemma rs_add_iff st way n : 0 <= s_rid st -> (exists st', rs_add st way n = Ok st') <-> (way = 8 \/ way = 9 \/ way = 11) /\ 0 <= s_rid st < 256.
Proof.
  intros N. rewrite <- rs_key_iff by exact N. unfold rs_add. split.
  - intros [st' H]. destruct (rs_key way (s_rid st)) as [j|]; [eauto|discriminate].
  - intros [j ->]. cbn [bind]. eauto.
Qed.

(** the constant item of a gap *)
Definition gap_part (db : udb) (st : sst) (way pad : Z) : result (sst * list item) :=
  if pad =? 0 then Ok (st, []) else
    let* st1 := rs_add st way pad in
    let* c := main_class way in
    let* o := mk_items db [(ReportCount, Some (VInt 1)); (ReportSize, Some (VInt pad)); (c, Some (VInt 3))] in
    Ok (st1, o).

Lemma gap_iff db st way pad : 0 <= s_rid st ->
  (exists st1 o1, gap_part db st way pad = Ok (st1, o1) /\ Forall inr o1) <->
  (pad <> 0 -> (way = 8 \/ way = 9 \/ way = 11) /\ 0 <= s_rid st < 256 /\ u32 pad).
Proof.
  intros N. unfold gap_part. destruct (Z.eqb_spec pad 0) as [->|NZ].
  - split; [intros _ H; congruence|]. intros _. exists st, []. auto.
  - split.
    + intros [st1 [o1 [H I]]] _. destruct (rs_add st way pad) as [st2|] eqn:RA; [|discriminate H]. cbn [bind] in H.
      destruct (proj1 (rs_add_iff st way pad N) (ex_intro _ st2 RA)) as [W R].
      destruct (main_class_way way W) as [MC D]. rewrite MC in H. cbn [bind] in H.
      destruct (mk_items db _) as [o|] eqn:MI; [|discriminate H]. cbn [bind] in H. injection H as <- <-.
      split; [exact W|]. split; [exact R|].
      assert (RF : Forall req_free [(ReportCount, Some (VInt 1)); (ReportSize, Some (VInt pad)); (way_class way, Some (VInt 3))]).
      { rewrite forall_three. repeat split; try discriminate; destruct D as [->|[->| ->]]; cbn; auto; discriminate. }
      assert (X := proj1 (items_iff db _ RF) (ex_intro _ o (conj MI I))). cbn [map] in X. apply forall_three in X.
      destruct X as [_ [X _]]. exact X.
    + intros H. destruct (H NZ) as [W [R U]]. destruct (proj2 (rs_add_iff st way pad N) (conj W R)) as [st2 ->]. cbn [bind].
      destruct (main_class_way way W) as [-> D]. cbn [bind].
      assert (RF : Forall req_free [(ReportCount, Some (VInt 1)); (ReportSize, Some (VInt pad)); (way_class way, Some (VInt 3))]).
      { rewrite forall_three. repeat split; try discriminate; destruct D as [->|[->| ->]]; cbn; auto; discriminate. }
      destruct (proj2 (items_iff db _ RF)) as [o [-> I]].
      { cbn [map]. rewrite forall_three. split; [cbn; lia|]. split; [exact U|]. destruct D as [->|[->| ->]]; cbn; lia. }
      cbn [bind]. eauto.
Qed.

Lemma gap_rid db st way pad st1 o1 : gap_part db st way pad = Ok (st1, o1) -> s_rid st1 = s_rid st.
Proof.
  unfold gap_part. destruct (pad =? 0); [intros H; injection H as <- <-; reflexivity|]. intros H.
  destruct (rs_add st way pad) as [st2|] eqn:RA; [|discriminate H]. cbn [bind] in H.
  destruct (main_class way); [|discriminate H]. cbn [bind] in H. destruct (mk_items db _); [|discriminate H]. injection H as <- <-.
  apply rs_add_ok in RA. tauto.
Qed.

Lemma element_iff db st v : 0 <= s_rid st -> wanted_alignment v <= 2 ^ 32 ->
  (exists st' o, element db st v = Ok (st', o) /\ Forall inr o) <-> storable_leaf (LVal (s_rid st) v).
Proof.
  intros N MO. unfold element. set (way := py_int (v_way v)).
  set (align := match v_kind v with KAlign b => b | KPadding => 0 | KValue => v_align v end).
  set (pad0 := match v_kind v with KPadding => v_size v | _ => 0 end).
  set (padr := if 1 <? align then _ else _).
  assert (PR : (1 < align -> (way = 8 \/ way = 9 \/ way = 11) /\ 0 <= s_rid st < 256) <-> exists pad, padr = Ok pad).
  { subst padr. destruct (1 <? align) eqn:A.
    - rewrite <- rs_key_iff by exact N. split.
      + intros H. destruct (H ltac:(lia)) as [j ->]. cbn [bind]. eauto.
      + intros [pad H] _. destruct (rs_key way (s_rid st)) as [j|]; [eauto|discriminate H].
    - split; [eauto|lia]. }
  assert (PV : forall pad, padr = Ok pad -> (align <= 1 /\ pad = pad0) \/ (1 < align /\ 0 <= pad < align)).
  { intros pad H. subst padr. destruct (1 <? align) eqn:A; [right|left; split; [lia|congruence]]. split; [lia|].
    destruct (rs_key way (s_rid st)) as [j|]; [|discriminate H]. cbn [bind] in H. injection H as <-.
    pose proof (Z.mod_pos_bound (s_size st way j) align ltac:(lia)). destruct (s_size st way j mod align =? 0) eqn:Z0; lia. }
  clearbody padr.
  assert (EQ : (exists st' o, (let* pad := padr in let* (st1, out1) := gap_part db st way pad in
      match v_kind v with
      | KValue => let* named := narr_truthy (v_named v) in let* st2 := rs_add st1 way (v_size v) in let* c := main_class way in
                  let* o := mk_items db (value_reqs db v named c) in Ok (st2, out1 ++ o)
      | _ => Ok (st1, out1) end) = Ok (st', o) /\ Forall inr o) <-> storable_leaf (LVal (s_rid st) v)).
  2: exact EQ.
  unfold storable_leaf. split.
  - intros [st' [o [H I]]]. destruct padr as [pad|]; [|discriminate H]. cbn [bind] in H.
    pose proof (proj2 PR (ex_intro _ pad eq_refl)) as AL. specialize (PV pad eq_refl).
    destruct (gap_part db st way pad) as [[st1 out1]|] eqn:G; [|discriminate H]. cbn [bind] in H.
    destruct (v_kind v) eqn:K.
    + destruct (narr_truthy (v_named v)) as [b|] eqn:T; [|discriminate H]. cbn [bind] in H.
      destruct (rs_add st1 way (v_size v)) as [st2|] eqn:RA; [|discriminate H]. cbn [bind] in H.
      pose proof (gap_rid _ _ _ _ _ _ G) as R1.
      destruct (proj1 (rs_add_iff st1 way (v_size v) ltac:(lia)) (ex_intro _ st2 RA)) as [W R]. rewrite R1 in R.
      destruct (main_class_way way W) as [MC D]. rewrite MC in H. cbn [bind] in H.
      destruct (mk_items db _) as [o2|] eqn:MI; [|discriminate H]. cbn [bind] in H. injection H as <- <-.
      split; [split; assumption|]. apply (value_items db v b D T). exists o2. split; [exact MI|]. apply Forall_app in I. apply I.
    + intros B. exact (AL B).
    + injection H as <- <-. intros NZ. destruct PV as [[_ ->]|[A _]]; [|unfold align in A; lia].
      destruct (proj1 (gap_iff db st way pad0 N)) as [W [R U]]; [exists st1, out1; split; assumption|exact NZ|].
      split; [split; assumption|exact U].
  - intros S. assert (AL : 1 < align -> (way = 8 \/ way = 9 \/ way = 11) /\ 0 <= s_rid st < 256).
    { intros A. unfold align in A. destruct (v_kind v); [apply S|apply S; exact A|lia]. }
    destruct (proj1 PR AL) as [pad ->]. specialize (PV pad eq_refl). cbn [bind].
    assert (GP : pad <> 0 -> (way = 8 \/ way = 9 \/ way = 11) /\ 0 <= s_rid st < 256 /\ u32 pad).
    { intros NZ. destruct PV as [[_ E]|[A P]].
      - unfold pad0 in E. destruct (v_kind v); try congruence. subst pad. destruct (S NZ) as [[W R] U]. auto.
      - destruct (AL A) as [W R]. split; [exact W|]. split; [exact R|]. unfold u32, wanted_alignment, align in *. destruct (v_kind v); lia. }
    destruct (proj2 (gap_iff db st way pad N) GP) as [st1 [o1 [G I1]]]. rewrite G. cbn [bind].
    destruct (v_kind v) eqn:K; [|exists st1, o1; auto..].
    destruct S as [[W R] SV].
    assert (exists b, narr_truthy (v_named v) = Ok b) as [b T].
    { destruct SV as [RG _]. destruct (v_named v) as [[l|r]|]; cbn [narr_truthy narr_len bind]; eauto. unfold range_len.
      replace (py_int (r_max r) - py_int (r_min r) + 1 <? 0) with false by lia. cbn [bind]. eauto. }
    rewrite T. cbn [bind]. pose proof (gap_rid _ _ _ _ _ _ G) as R1.
    destruct (proj2 (rs_add_iff st1 way (v_size v) ltac:(lia))) as [st2 ->]; [rewrite R1; split; assumption|]. cbn [bind].
    destruct (main_class_way way W) as [-> D]. cbn [bind].
    destruct (proj2 (value_items db v b D T) SV) as [o2 [MI I2]]. fold way in MI. rewrite MI. cbn [bind].
    exists st2, (o1 ++ o2). split; [reflexivity|]. apply Forall_app. auto.
Qed.

(* ------------------------------------------------------------------ *)
(** trees *)

Definition accepted (db : udb) (t : tree) : Prop :=
  forall st, 0 <= s_rid st -> kinds_ok t -> Forall modest_leaf (fst (entered (s_rid st) t)) ->
  ((exists st' o, stream_tree db st t = Ok (st', o) /\ Forall inr o) <->
   Forall u32 (report_ids t) /\ Forall storable_leaf (fst (entered (s_rid st) t))).

Lemma members_iff db ms : Forall (accepted db) ms ->
  forall st, 0 <= s_rid st -> Forall kinds_ok ms -> Forall modest_leaf (fst (entered_all (s_rid st) ms)) ->
  ((exists st' o, stream_members db st ms = Ok (st', o) /\ Forall inr o) <->
   Forall u32 (flat_map report_ids ms) /\ Forall storable_leaf (fst (entered_all (s_rid st) ms))).
Proof.
  induction 1 as [|m ms H _ IH]; intros st N K M; cbn [stream_members flat_map entered_all] in *.
  - split; [intros _; split; constructor|]. intros _. exists st, []. auto.
  - pose proof (H st N (Forall_inv K)) as HM. apply Forall_inv_tail in K.
    destruct (entered (s_rid st) m) as [a r1] eqn:EM. cbn [fst] in HM.
    destruct (entered_all r1 ms) as [b r2] eqn:EA. cbn [fst] in *. apply Forall_app in M. destruct M as [M1 M2].
    specialize (HM M1).
    assert (TL : forall st1 o1, stream_tree db st m = Ok (st1, o1) ->
      ((exists st' o, stream_members db st1 ms = Ok (st', o) /\ Forall inr o) <->
       Forall u32 (flat_map report_ids ms) /\ Forall storable_leaf b)).
    { intros st1 o1 E. destruct (stream_sane db m _ _ _ E) as [SA NN]. pose proof (sa_rid _ _ _ SA) as R. rewrite EM in R. cbn [snd] in R.
      specialize (IH st1 (NN N) K). rewrite R, EA in IH. cbn [fst] in IH. apply IH. exact M2. }
    split.
    + intros [st' [o [E I]]]. destruct (stream_tree db st m) as [[st1 o1]|] eqn:E1; [|discriminate E]. cbn [bind] in E.
      destruct (stream_members db st1 ms) as [[st2 o2]|] eqn:E2; [|discriminate E]. cbn [bind] in E. injection E as <- <-.
      apply Forall_app in I. destruct I as [I1 I2].
      destruct (proj1 HM) as [U1 L1]; [exists st1, o1; auto|].
      destruct (proj1 (TL st1 o1 eq_refl)) as [U2 L2]; [exists st2, o2; auto|].
      split; apply Forall_app; auto.
    + intros [U L]. apply Forall_app in U. apply Forall_app in L. destruct U as [U1 U2], L as [L1 L2].
      destruct (proj2 HM (conj U1 L1)) as [st1 [o1 [E1 I1]]].
      destruct (proj2 (TL st1 o1 E1) (conj U2 L2)) as [st2 [o2 [E2 I2]]].
      rewrite E1. cbn [bind]. rewrite E2. cbn [bind]. exists st2, (o1 ++ o2). split; [reflexivity|]. apply Forall_app. auto.
Qed.

Lemma rid_iff db id : (exists o, (if id =? 0 then Ok [] else mk_items db [(ReportID, Some (VInt id))]) = Ok o /\ Forall inr o) <-> u32 id.
Proof.
  destruct (Z.eqb_spec id 0) as [->|N].
  - split; [intros _; unfold u32; lia|]. intros _. exists []. auto.
  - rewrite items_iff by (repeat constructor; apply req_free_some; [discriminate|reflexivity]). cbn [map].
    change (req_cv (ReportID, Some (VInt id))) with (ReportID, id). rewrite Forall_cons_iff. cbn [fst snd].
    rewrite in_32_unsigned by reflexivity. split; [tauto|]. intros U. split; [exact U|constructor].
Qed.

Lemma open_iff db u k : 0 <= py_int k ->
  (exists o, mk_items db [(Usage, u); (Collection, Some k)] = Ok o /\ Forall inr o) <-> storable_leaf (LOpen k u).
Proof.
  intros K. cbn [storable_leaf]. destruct u as [x|].
  - rewrite items_iff.
    + cbn [map]. rewrite !Forall_cons_iff. cbn [req_cv fst snd]. rewrite !in_32_unsigned by reflexivity.
      split; [tauto|]. intros [A B]. split; [exact B|]. split; [exact A|constructor].
    + constructor; [apply req_free_some; [discriminate|reflexivity]|]. constructor; [|constructor].
      split; [destruct k; [exact K|exact I|exact I]|]. split; [discriminate|discriminate].
  - split; [|tauto]. intros [o [H _]]. destruct (coll_items _ _ _ _ H) as [x E]. discriminate E.
Qed.

Lemma close_ok db : exists o, mk_items db [(EndCollection, Some (VInt 0))] = Ok o /\ Forall inr o.
Proof.
  eexists. split; [reflexivity|]. constructor; [|constructor]. unfold inr, in_32_bits. vm_compute. split; [discriminate|reflexivity].
Qed.

Lemma stream_iff db t : accepted db t.
Proof.
  induction t as [v|id ms IH|ms IH|k u ms IH] using tree_rect2; intros st N K M.
  - cbn [entered fst report_ids] in *. rewrite Forall_cons_iff.
    pose proof (element_iff db st v N) as E. apply Forall_inv in M. specialize (E M).
    change (stream_tree db st (TValue v)) with (element db st v). rewrite E.
    split; [intros H; repeat split; [constructor|exact H|constructor]|tauto].
  - rewrite stream_report. rewrite entered_report in *. cbn [report_ids kinds_ok] in *. apply kinds_list in K. rewrite Forall_cons_iff.
    split.
    + intros [st' [o [E I]]]. pose proof (rid_iff db id) as R.
      destruct (if id =? 0 then _ else _) as [o0|]; [|discriminate E]. cbn [bind] in E.
      destruct (stream_members db _ ms) as [[st1 o1]|] eqn:E1; [|discriminate E]. cbn [bind] in E. injection E as <- <-.
      apply Forall_app in I. destruct I as [I0 I1]. assert (U : u32 id) by (apply R; eauto).
      destruct (proj1 (members_iff db ms IH (SST id (s_size st)) (proj1 U) K M)) as [A B]; [eauto|]. auto.
    + intros [[U A] B]. destruct (proj2 (rid_iff db id) U) as [o0 [-> I0]]. cbn [bind].
      destruct (proj2 (members_iff db ms IH (SST id (s_size st)) (proj1 U) K M) (conj A B)) as [st1 [o1 [-> I1]]]. cbn [bind].
      exists st1, (o0 ++ o1). split; [reflexivity|]. apply Forall_app. auto.
  - rewrite stream_top. rewrite entered_top in *. cbn [report_ids kinds_ok] in *. apply kinds_list in K.
    apply members_iff; auto.
  - rewrite stream_coll. rewrite entered_coll in *. cbn [report_ids kinds_ok] in *. destruct K as [KK K]. apply kinds_list in K.
    pose proof (members_iff db ms IH st N K) as MI.
    destruct (entered_all (s_rid st) ms) as [a r1]. cbn [fst] in *. rewrite Forall_cons_iff in *. rewrite Forall_app in *.
    specialize (MI (proj1 (proj2 M))). split.
    + intros [st' [o [E I]]]. pose proof (open_iff db u k KK) as R.
      destruct (mk_items db [(Usage, u); _]) as [o0|]; [|discriminate E]. cbn [bind] in E.
      destruct (stream_members db _ ms) as [[st1 o1]|] eqn:E1; [|discriminate E]. cbn [bind] in E.
      destruct (mk_items db _) as [o2|]; [|discriminate E]. cbn [bind] in E. injection E as <- <-.
      rewrite !Forall_app in I. destruct I as [I0 [I1 I2]].
      destruct (proj1 MI) as [A B]; [eauto|]. split; [exact A|]. split; [apply R; eauto|]. split; [exact B|]. repeat constructor.
    + intros [A [O [B _]]]. destruct (proj2 (open_iff db u k KK) O) as [o0 [-> I0]]. cbn [bind].
      destruct (proj2 MI (conj A B)) as [st1 [o1 [-> I1]]]. cbn [bind].
      destruct (close_ok db) as [o2 [-> I2]]. cbn [bind]. exists st1, (o0 ++ o1 ++ o2). split; [reflexivity|]. rewrite !Forall_app. auto.
Qed.

Lemma c55 db t : kinds_ok t -> modest t -> ((exists b, compile db false t = Ok b) <-> storable t).
Proof.
  intros K M. unfold storable. rewrite <- (stream_iff db t sst_init ltac:(cbn; lia) K M).
  unfold compile, stream_items. split.
  - intros [b H]. destruct (stream_tree db _ t) as [[st' o]|] eqn:E; [|discriminate H]. cbn [bind] in H.
    exists st', o. split; [reflexivity|]. apply serialize_iff. eauto.
  - intros [st' [o [E I]]]. rewrite E. cbn [bind]. apply serialize_iff. exact I.
Qed.
