(* PlainHost.v -- the host on streams that have neither usage pages, nor
   minimum/maximum pairs, delimiters, Push or Pop: the local state is three
   lists of numbers. *)
From Coq Require Import ZifyBool ZifyNat.
From Verif Require Import Py Usage Item HidSpec ItemFacts ParserFacts.

Record pst := P { p_g : gtab; p_us : list Z; p_ds : list Z; p_ss : list Z }.

Definition plain (c : icls) : bool :=
  match c with
  | UsagePage | Push | Pop | UsageMinimum | UsageMaximum | DesignatorMinimum
  | DesignatorMaximum | StringMinimum | StringMaximum | Delimiter => false
  | _ => true
  end.

Definition p_data (g : gtab) (us ds ss : list Z) (c : icls) (flags : Z) : list event :=
  let n := Z.to_nat (g_count g) in
  let a := mk_attrs g c flags in
  if is_constant flags then repeat (EvPad c (g_rid g) flags (g_size g)) n
  else if is_variable flags then
    map (fun k => EvVar a (nth_last us k) (nth_last ds k) (nth_last ss k) []) (seq 0 n)
  else
    let sel := Z.to_nat (g_lmax g - g_lmin g + 1) in
    repeat (EvArr a (firstn sel us) (map (nth_last ds) (seq 0 sel))
                  (map (nth_last ss) (seq 0 sel)) []) n.

Definition p_obs (s : pst) (c : icls) (v : Z) : list event :=
  match c with
  | Collection => [EvColl v (p_us s) (p_ds s) (p_ss s) []]
  | EndCollection => [EvEnd]
  | _ => p_data (p_g s) (p_us s) (p_ds s) (p_ss s) c v
  end.

Definition p_step (s : pst) (w : icls * Z) : pst * list event :=
  let (c, v) := w in
  match hid_kind c with
  | KMain => (P (p_g s) [] [] [], p_obs s c v)
  | KGlobal => (P (g_set c v (p_g s)) (p_us s) (p_ds s) (p_ss s), [])
  | KLocal =>
      match c with
      | Usage => (P (p_g s) (p_us s ++ [v]) (p_ds s) (p_ss s), [])
      | DesignatorIndex => (P (p_g s) (p_us s) (p_ds s ++ [v]) (p_ss s), [])
      | StringIndex => (P (p_g s) (p_us s) (p_ds s) (p_ss s ++ [v]), [])
      | _ => (s, [])
      end
  end.

Fixpoint p_run (s : pst) (l : list (icls * Z)) : pst * list event :=
  match l with
  | [] => (s, [])
  | w :: r =>
      let (s1, o1) := p_step s w in
      let (s2, o2) := p_run s1 r in
      (s2, o1 ++ o2)
  end.

Lemma p_run_app s l1 l2 :
  p_run s (l1 ++ l2) =
  (fst (p_run (fst (p_run s l1)) l2), snd (p_run s l1) ++ snd (p_run (fst (p_run s l1)) l2)).
Proof.
  revert s. induction l1 as [|w l1 IH]; intros s.
  - simpl. destruct (p_run s l2). reflexivity.
  - cbn [app p_run]. destruct (p_step s w) as [s1 o1]. rewrite IH.
    destruct (p_run s1 l1) as [s2 o2]. cbn [fst snd].
    destruct (p_run s2 l2) as [s3 o3]. cbn [fst snd]. rewrite app_assoc. reflexivity.
Qed.

(** the plain state stands for a host state *)
Definition tab_is (m : binding) (t : ltab) (l : list Z) : Prop :=
  values m 0 t = l /\ l_min t = None /\ l_max t = None.

Definition stands (m : binding) (p : pst) (s : hstate) : Prop :=
  h_g s = p_g p /\ g_page (p_g p) = 0 /\ h_stack s = [] /\
  tab_is m (lo_us (h_l s)) (p_us p) /\ tab_is m (lo_ds (h_l s)) (p_ds p) /\
  tab_is m (lo_ss (h_l s)) (p_ss p) /\ lo_dl (h_l s) = [].

Lemma tab_add m t l r v :
  tab_is m t l -> resolve m 0 r = v -> tab_is m (add_one r t) (l ++ [v]).
Proof.
  intros [H [H1 H2]] E. unfold tab_is, values, add_one. cbn [l_decls l_min l_max].
  rewrite flat_map_app. unfold values in H. rewrite H. simpl. rewrite E. auto.
Qed.

Lemma resolve_page0 m ext v : resolve m 0 (LR 0 ext v) = v.
Proof. unfold resolve. destruct ext, m; simpl; auto. Qed.

Lemma stands_init m : stands m (P g_init [] [] []) h_init.
Proof. repeat split. Qed.

Lemma g_set_page c v g : c <> UsagePage -> g_page (g_set c v g) = g_page g.
Proof. destruct g, c; intros; try reflexivity. congruence. Qed.

Lemma stands_step m p s w :
  stands m p s -> plain (w_cls w) = true ->
  stands m (fst (p_step p (w_cls w, w_val w))) (fst (h_step (full_obs m) s w)) /\
  snd (h_step (full_obs m) s w) = snd (p_step p (w_cls w, w_val w)).
Proof.
  intros [G [PG [ST [US [DS [SS DL]]]]]] PL. destruct w as [c v ext]. cbn [w_cls w_val] in *.
  destruct s as [g st [us ds ss dl]]. destruct p as [pg pus pds pss].
  cbn [h_g h_stack h_l lo_us lo_ds lo_ss lo_dl p_g p_us p_ds p_ss] in *. subst g st dl.
  unfold h_step, p_step. cbn [w_cls w_val w_ext h_g h_stack h_l p_g p_us p_ds p_ss].
  destruct c; try discriminate PL; cbn [hid_kind fst snd];
    try (split; [|reflexivity]; unfold stands; cbn [h_g h_stack h_l lo_us lo_ds lo_ss lo_dl p_g p_us p_ds p_ss];
         rewrite ?g_set_page by discriminate;
         repeat split; auto; try apply US; try apply DS; try apply SS; fail).
  all: try (split; [repeat split; auto; fail|]; unfold full_obs, p_obs, data_events, p_data;
    cbn [h_g h_l lo_us lo_ds lo_ss lo_dl p_g p_us p_ds p_ss]; rewrite ?PG;
    rewrite ?(proj1 US), ?(proj1 DS), ?(proj1 SS); reflexivity).
  all: split; [|reflexivity]; unfold lo_set; cbn [h_l];
    unfold stands; cbn [h_g h_stack h_l lo_us lo_ds lo_ss lo_dl p_g p_us p_ds p_ss];
    rewrite ?PG; repeat split; auto; try apply US; try apply DS; try apply SS;
    match goal with |- context [add_one ?r ?t] => eapply (tab_add m t) end; eauto;
    apply resolve_page0.
Qed.

Lemma stands_run m l : forall p s,
  stands m p s -> Forall (fun w => plain (w_cls w) = true) l ->
  stands m (fst (p_run p (map (fun w => (w_cls w, w_val w)) l))) (fst (h_run (full_obs m) s l)) /\
  snd (h_run (full_obs m) s l) = snd (p_run p (map (fun w => (w_cls w, w_val w)) l)).
Proof.
  induction l as [|w l IH]; intros p s S F; [split; auto|].
  inversion F as [|? ? F1 F2]; subst.
  destruct (stands_step m p s w S F1) as [S1 E1].
  cbn [map h_run p_run].
  destruct (h_step (full_obs m) s w) as [s1 o1]. destruct (p_step p (w_cls w, w_val w)) as [p1 q1].
  cbn [fst snd] in *. destruct (IH p1 s1 S1 F2) as [S2 E2].
  destruct (h_run (full_obs m) s1 l) as [s2 o2]. destruct (p_run p1 _) as [p2 q2].
  cbn [fst snd] in *. split; auto. congruence.
Qed.

Definition p_init : pst := P g_init [] [] [].

Lemma plain_view m l :
  Forall (fun i => plain (ic i) = true) l ->
  host_view m (map wire l) = snd (p_run p_init (map (fun i => (ic i, ival i)) l)).
Proof.
  intros F. unfold host_view.
  destruct (stands_run m (map wire l) p_init h_init (stands_init m)) as [_ E].
  - apply Forall_forall. intros w I. apply in_map_iff in I. destruct I as [i [<- I]].
    rewrite Forall_forall in F. exact (F i I).
  - rewrite E, map_map. reflexivity.
Qed.
