(* ShortProofs.v -- C90. *)
From Coq Require Import ZifyBool.
From Verif Require Import Py Usage Item Optimizer Descriptor ShortSpec.
Local Open Scope list_scope.
Local Open Scope Z_scope.

(** the nested loop of stream_tree is stream_members *)
Lemma tree_members db ms : forall st,
  (fix go (st : sst) (ms : list tree) {struct ms} : result (sst * list item) :=
     match ms with
     | [] => Ok (st, [])
     | m :: r => let* (st1, o1) := stream_tree db st m in let* (st2, o2) := go st1 r in Ok (st2, o1 ++ o2)
     end) st ms = stream_members db st ms.
Proof.
  induction ms as [|m r IH]; intros st; [reflexivity|]. cbn [stream_members]. destruct (stream_tree db st m) as [[st1 o1]|e]; [|reflexivity].
  cbn [bind]. rewrite IH. reflexivity.
Qed.

Lemma stream_top db st ms : stream_tree db st (TTop ms) = stream_members db st ms.
Proof. cbn [stream_tree]. apply tree_members. Qed.

Lemma stream_report db st id ms : stream_tree db st (TReport id ms) =
  (let* o := (if id =? 0 then Ok [] else mk_items db [(ReportID, Some (VInt id))]) in
   let* (st1, o1) := stream_members db (SST id (s_size st)) ms in Ok (st1, o ++ o1)).
Proof. cbn [stream_tree]. rewrite tree_members. reflexivity. Qed.

Lemma stream_coll db st k u ms : stream_tree db st (TColl k u ms) =
  (let* o := mk_items db [(Usage, u); (Collection, Some k)] in
   let* (st1, o1) := stream_members db st ms in
   let* o2 := mk_items db [(EndCollection, Some (VInt 0))] in Ok (st1, o ++ o1 ++ o2)).
Proof. cbn [stream_tree]. rewrite tree_members. reflexivity. Qed.

Lemma stream_app db a : forall st b, stream_members db st (a ++ b) =
  (let* (st1, o1) := stream_members db st a in let* (st2, o2) := stream_members db st1 b in Ok (st2, o1 ++ o2)).
Proof.
  induction a as [|m a IH]; intros st b; cbn [app stream_members].
  - cbn [bind]. destruct (stream_members db st b) as [[st2 o2]|e]; reflexivity.
  - destruct (stream_tree db st m) as [[st1 o1]|e]; [|reflexivity]. cbn [bind]. rewrite IH.
    destruct (stream_members db st1 a) as [[st2 o2]|e]; [|reflexivity]. cbn [bind].
    destruct (stream_members db st2 b) as [[st3 o3]|e]; [|reflexivity]. cbn [bind]. rewrite app_assoc. reflexivity.
Qed.

Lemma stream_one db st t : stream_members db st [t] = stream_tree db st t.
Proof. cbn [stream_members]. destruct (stream_tree db st t) as [[st1 o1]|e]; [|reflexivity]. cbn. rewrite app_nil_r. reflexivity. Qed.

(** Align objects and their like *)
Lemma align_fields w n f al : mk_align w n f = Ok al -> v_kind al = KAlign n /\ v_way al = w.
Proof. unfold mk_align, mk_value. cbn. destruct (_ =? 0); [discriminate|]. intros H. injection H as <-. auto. Qed.

Lemma padding_fields w n p : mk_padding w n = Ok p -> v_kind p = KPadding /\ v_way p = w /\ v_size p = n.
Proof. unfold mk_padding, mk_value. cbn. intros H. injection H as <-. auto. Qed.

(** what padding by n bits is *)
Definition pad_by (db : udb) (st : sst) (way n : Z) : result (sst * list item) :=
  if n =? 0 then Ok (st, []) else
    let* st1 := rs_add st way n in
    let* c := main_class way in
    let* o := mk_items db [(ReportCount, Some (VInt 1)); (ReportSize, Some (VInt n)); (c, Some (VInt 3))] in
    Ok (st1, o).

Definition missing (st : sst) (way align : Z) : result Z :=
  if 1 <? align then
    let* j := rs_key way (s_rid st) in
    let partial := s_size st way j mod align in
    Ok (if partial =? 0 then 0 else align - partial)
  else Ok 0.

Definition data_part (db : udb) (st : sst) (e : value) : result (sst * list item) :=
  let* named := narr_truthy (v_named e) in
  let* st2 := rs_add st (py_int (v_way e)) (v_size e) in
  let* c := main_class (py_int (v_way e)) in
  let* o := mk_items db (value_reqs db e named c) in
  Ok (st2, o).

Lemma element_align db st e n : v_kind e = KAlign n ->
  element db st e = let* k := missing st (py_int (v_way e)) n in pad_by db st (py_int (v_way e)) k.
Proof.
  intros K. unfold element. rewrite K. unfold missing, pad_by. destruct (1 <? n).
  - destruct (rs_key _ _) as [j|]; [|reflexivity]. cbn [bind]. destruct (_ mod n =? 0); [reflexivity|].
    destruct (n - _ =? 0); [reflexivity|]. destruct (rs_add _ _ _) as [s1|]; [|reflexivity]. cbn [bind].
    destruct (main_class _) as [c|]; [|reflexivity]. cbn [bind]. destruct (mk_items db _) as [o|]; reflexivity.
  - reflexivity.
Qed.

Lemma element_padding db st e : v_kind e = KPadding -> element db st e = pad_by db st (py_int (v_way e)) (v_size e).
Proof.
  intros K. unfold element. rewrite K. change (1 <? 0) with false. cbv iota. cbn [bind]. unfold pad_by. destruct (v_size e =? 0); [reflexivity|].
  destruct (rs_add _ _ _) as [s1|]; [|reflexivity]. cbn [bind].
  destruct (main_class _) as [c|]; [|reflexivity]. cbn [bind]. destruct (mk_items db _) as [o|]; reflexivity.
Qed.

Lemma element_value db st e : v_kind e = KValue -> element db st e =
  let* k := missing st (py_int (v_way e)) (v_align e) in
  let* (st1, o1) := pad_by db st (py_int (v_way e)) k in
  let* (st2, o2) := data_part db st1 e in Ok (st2, o1 ++ o2).
Proof.
  intros K. unfold element. rewrite K. unfold missing, pad_by, data_part.
  destruct (if 1 <? v_align e then _ else _) as [k|]; [|reflexivity]. cbn [bind].
  destruct (if k =? 0 then _ else _) as [[st1 o1]|]; [|reflexivity]. cbn [bind].
  destruct (narr_truthy _) as [nm|]; [|reflexivity]. cbn [bind]. destruct (rs_add st1 _ _) as [st2|]; [|reflexivity]. cbn [bind].
  destruct (main_class _) as [c|]; [|reflexivity]. cbn [bind]. destruct (mk_items db _) as [o|]; reflexivity.
Qed.

Definition with_align (n : Z) (v : value) : value :=
  Value (v_kind v) (v_way v) (v_usage v) (v_size v) (v_flags v) (v_lmin v) (v_lmax v) (v_pmin v) (v_pmax v) (v_named v)
    (v_unit v) (v_uexp v) (v_desig v) (v_str v) (v_count v) n.

Lemma mk_value_fields k a v n : alignment_of a n -> mk_value k a = Ok v -> v_kind v = k /\ v_way v = a_way a /\ v_align v = n.
Proof.
  intros A. unfold mk_value.
  assert (AN : match a_align a with None => Z.min 8 (a_size a) | Some n => n end = n)
    by (destruct A as [-> |[-> ->]]; reflexivity).
  rewrite AN. destruct (narr_truthy (a_named a)) as [nm|]; [|discriminate]. cbn [bind].
  destruct (_ && _ && _); [discriminate|]. destruct (if zero_or_none (a_pmin a) && _ then _ else _) as [pmin pmax].
  destruct (a_named a) as [arr|]; [destruct nm|].
  - destruct (narr_len arr) as [len|]; [|discriminate]. cbn [bind]. destruct (a_lmin a); [|discriminate].
    intros H. injection H as <-. auto.
  - intros H. injection H as <-. auto.
  - intros H. injection H as <-. auto.
Qed.

Lemma mk_value_align k a v v0 : mk_value k a = Ok v -> mk_value k (aligned_to 0 a) = Ok v0 -> v0 = with_align 0 v.
Proof.
  unfold mk_value, aligned_to. cbn [a_way a_usage a_size a_flags a_lmin a_lmax a_pmin a_pmax a_named a_unit a_uexp a_desig a_str a_count a_align].
  destruct (narr_truthy (a_named a)) as [nm|]; [|discriminate]. cbn [bind].
  destruct (_ && _ && _); [discriminate|]. destruct (if zero_or_none (a_pmin a) && _ then _ else _) as [pmin pmax].
  destruct (a_named a) as [arr|]; [destruct nm|].
  - destruct (narr_len arr) as [len|]; [|discriminate]. cbn [bind]. destruct (a_lmin a); [|discriminate].
    intros H H0. injection H as <-. injection H0 as <-. reflexivity.
  - intros H H0. injection H as <-. injection H0 as <-. reflexivity.
  - intros H H0. injection H as <-. injection H0 as <-. reflexivity.
Qed.

Lemma data_part_align db st v n : data_part db st (with_align n v) = data_part db st v.
Proof. reflexivity. Qed.

Lemma constant_part db st w n v : mk_value KValue (constant_args w n) = Ok v -> n <> 0 ->
  element db st v = pad_by db st (py_int w) n.
Proof.
  intros H N. unfold mk_value in H. cbn in H. injection H as <-. rewrite element_value by reflexivity.
  cbn [v_align v_way]. unfold missing. cbn [Z.ltb Z.compare bind]. unfold pad_by at 1. cbn [Z.eqb bind].
  unfold pad_by, data_part. cbn [v_named v_way v_size narr_truthy bind].
  assert (E : n =? 0 = false) by lia. rewrite E. destruct (rs_add _ _ _) as [s1|]; [|reflexivity]. cbn [bind].
  destruct (main_class _) as [c|]; [|reflexivity]. cbn [bind]. unfold value_reqs. cbn [v_flags v_count v_size].
  change (negb (Z.land (py_int (VInt 3)) fl_Constant =? 0)) with true. cbv iota. cbn [negb andb app].
  destruct (mk_items db _) as [o|]; reflexivity.
Qed.

Lemma same_stream db a b : same_members a b -> forall st, stream_members db st a = stream_members db st b.
Proof.
  induction 1 as [ms|id ms|a n f v v0 al A V V0 AL|w n p v N P V|w p P|w n f al N AL|a b _ IH|id a b _ IH|k u a b _ IH
                 |a b c d _ IH1 _ IH2|a|a b _ IH|a b c _ IH1 _ IH2]; intros st.
  - rewrite stream_one. apply stream_top.
  - rewrite stream_one, stream_report. cbn [stream_members]. rewrite stream_report.
    destruct (if id =? 0 then _ else _) as [o|]; [|reflexivity]. cbn [bind stream_members].
    destruct (stream_members db _ ms) as [[st1 o1]|]; [|reflexivity]. cbn. rewrite app_nil_r. reflexivity.
  - destruct (mk_value_fields _ _ _ n A V) as [KV [WV AV]].
    pose proof (mk_value_align _ _ _ _ V V0) as ->. destruct (align_fields _ _ _ _ AL) as [KA WA].
    rewrite stream_one. cbn [stream_members stream_tree]. rewrite (element_align db st al n KA), (element_value db st v KV), WA, WV, AV.
    destruct (missing st _ n) as [k|]; [|reflexivity]. cbn [bind].
    destruct (pad_by db st _ k) as [[st1 o1]|]; [|reflexivity]. cbn [bind].
    rewrite (element_value db st1 (with_align 0 v) KV). cbn [v_align with_align]. unfold missing. cbn [Z.ltb Z.compare bind].
    unfold pad_by. cbn [Z.eqb bind]. change (Value _ _ _ _ _ _ _ _ _ _ _ _ _ _ _ _) with (with_align 0 v). rewrite data_part_align.
    destruct (data_part db st1 v) as [[st2 o2]|]; [|reflexivity]. cbn. rewrite app_nil_r. reflexivity.
  - destruct (padding_fields _ _ _ P) as [KP [WP SP]]. rewrite !stream_one. cbn [stream_tree].
    rewrite (element_padding db st p KP), WP, SP, (constant_part db st w n v V N). reflexivity.
  - destruct (padding_fields _ _ _ P) as [KP [WP SP]]. rewrite stream_one. cbn [stream_tree].
    rewrite (element_padding db st p KP), SP. reflexivity.
  - destruct (align_fields _ _ _ _ AL) as [KA WA]. rewrite stream_one. cbn [stream_tree]. rewrite (element_align db st al n KA).
    unfold missing. assert (E : 1 <? n = false) by lia. rewrite E. reflexivity.
  - rewrite !stream_one, !stream_top. apply IH.
  - rewrite !stream_one, !stream_report, IH. reflexivity.
  - rewrite !stream_one, !stream_coll, IH. reflexivity.
  - rewrite !stream_app, IH1. destruct (stream_members db st b) as [[st1 o1]|]; [|reflexivity]. cbn [bind]. rewrite IH2. reflexivity.
  - reflexivity.
  - symmetry. apply IH.
  - rewrite IH1. apply IH2.
Qed.

Lemma same_compile db opt a b : same_members a b -> compile db opt (TTop a) = compile db opt (TTop b).
Proof. intros H. unfold compile, stream_items. rewrite !stream_top, (same_stream db a b H). reflexivity. Qed.

(** at a place, what matters is what is done there *)
Lemma put_stream db p t : exists st0,
  forall u, stream_tree db st0 u = stream_tree db st0 t -> stream_tree db sst_init (put p u) = stream_tree db sst_init (put p t).
Proof.
  revert t. induction p as [|o IH l r|o IH id l r|o IH k us l r]; intros t.
  - exists sst_init. intros u H. exact H.
  - cbn [put]. destruct (IH (TTop (l ++ t :: r))) as [st H].
    destruct (stream_members db st l) as [[st1 o1]|] eqn:E.
    + exists st1. intros u U. apply H. rewrite !stream_top, !stream_app, E. cbn [bind stream_members]. rewrite U. reflexivity.
    + exists st. intros u _. apply H. rewrite !stream_top, !stream_app, E. reflexivity.
  - cbn [put]. destruct (IH (TReport id (l ++ t :: r))) as [st H].
    destruct (stream_members db (SST id (s_size st)) l) as [[st1 o1]|] eqn:E.
    + exists st1. intros u U. apply H. rewrite !stream_report, !stream_app, E. cbn [bind stream_members]. rewrite U. reflexivity.
    + exists st. intros u _. apply H. rewrite !stream_report, !stream_app, E. reflexivity.
  - cbn [put]. destruct (IH (TColl k us (l ++ t :: r))) as [st H].
    destruct (stream_members db st l) as [[st1 o1]|] eqn:E.
    + exists st1. intros u U. apply H. rewrite !stream_coll, !stream_app, E. cbn [bind stream_members]. rewrite U. reflexivity.
    + exists st. intros u _. apply H. rewrite !stream_coll, !stream_app, E. reflexivity.
Qed.

Lemma align_is_padding db opt p w n f al : mk_align w n f = Ok al ->
  exists k pd, 0 <= k < Z.max 2 n /\ mk_padding w k = Ok pd /\
  compile db opt (put p (TValue al)) = compile db opt (put p (TValue pd)).
Proof.
  intros AL. destruct (align_fields _ _ _ _ AL) as [KA WA]. destruct (put_stream db p (TValue al)) as [st H].
  assert (S : exists k, 0 <= k < Z.max 2 n /\ element db st al = pad_by db st (py_int w) k).
  { rewrite (element_align db st al n KA), WA. unfold missing. destruct (1 <? n) eqn:N; [|exists 0; split; [lia|reflexivity]].
    destruct (rs_key (py_int w) (s_rid st)) as [j|e] eqn:K.
    - cbn [bind]. eexists. split; [|reflexivity]. pose proof (Z.mod_pos_bound (s_size st (py_int w) j) n ltac:(lia)).
      destruct (_ =? 0) eqn:E; lia.
    - exists 1. split; [lia|]. cbn [bind]. unfold pad_by, rs_add. cbn [Z.eqb]. rewrite K. reflexivity. }
  destruct S as [k [B E]]. exists k. assert (P : exists pd, mk_padding w k = Ok pd) by (eexists; reflexivity).
  destruct P as [pd P]. exists pd. split; [exact B|]. split; [exact P|].
  unfold compile, stream_items. rewrite (H (TValue pd)); [reflexivity|]. cbn [stream_tree].
  destruct (padding_fields _ _ _ P) as [KP [WP SP]]. rewrite (element_padding db st pd KP), WP, SP, E. reflexivity.
Qed.
