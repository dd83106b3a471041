(* CProofs.v -- the code parser reads C initialisers. *)
From Coq Require Import ZifyBool ZifyNat.
From Verif Require Import Py Usage Item Parser Spec TextFormats TextProofs CSpec.
Local Open Scope list_scope.
Local Open Scope Z_scope.

Definition star : ascii := "*"%char.

Lemma is_star_eq c : is_star c = Ascii.eqb c star.
Proof. apply eqb_prop. revert c. apply for_ascii. vm_compute. reflexivity. Qed.
Lemma is_comma_eq c : is_comma c = Ascii.eqb c ","%char.
Proof. apply eqb_prop. revert c. apply for_ascii. vm_compute. reflexivity. Qed.

(* --- lines ------------------------------------------------------------ *)

Lemma split_cons sep l : exists x y, split_on sep l = x :: y.
Proof.
  destruct l as [|c r]; cbn; eauto. destruct (sep c); eauto. destruct (split_on sep r); eauto.
Qed.

Lemma contents_nl r : contents (nl :: r) = " "%char :: contents r.
Proof. unfold contents. cbn [split_on]. rewrite is_nl_eq, Ascii.eqb_refl. reflexivity. Qed.

(** two slashes at the head *)
Definition slashes (t : text) : Prop := exists r, t = slash :: slash :: r.

Lemma contents_char c r : c <> nl -> ~ slashes (c :: r) -> contents (c :: r) = c :: contents r.
Proof.
  intros N NS. unfold contents. cbn [split_on]. rewrite is_nl_eq. destruct (Ascii.eqb_spec c nl) as [|_]; [contradiction|].
  destruct (split_cons is_nl r) as [x [y E]]. rewrite E. cbn [map concat before_slashes].
  replace (is_slash c && match x with d :: _ => is_slash d | [] => false end) with false; [reflexivity|].
  symmetry. apply not_true_is_false. intros H. apply andb_true_iff in H as [A B]. apply NS.
  rewrite is_slash_eq in A. apply Ascii.eqb_eq in A. subst c.
  destruct x as [|d x]; [discriminate|]. rewrite is_slash_eq in B. apply Ascii.eqb_eq in B. subst d.
  destruct r as [|e r]; [discriminate E|]. cbn [split_on] in E. destruct (is_nl e); [discriminate E|].
  destruct (split_on is_nl r) in E; injection E as -> _; exists r; reflexivity.
Qed.

Lemma contents_comment b r : ~ In nl b -> contents (slash :: slash :: b ++ nl :: r) = " "%char :: contents r.
Proof.
  intros N. unfold contents. change (slash :: slash :: b ++ nl :: r) with ((slash :: slash :: b) ++ nl :: r).
  rewrite split_line by (unfold no_nl; cbn; intros [X|[X|X]]; [discriminate X|discriminate X|auto]).
  cbn [map concat before_slashes]. rewrite !is_slash_eq, Ascii.eqb_refl. reflexivity.
Qed.

(** newlines become spaces *)
Definition spaced (t : text) : text := map (fun c => if Ascii.eqb c nl then " "%char else c) t.

Lemma contents_app p r : ~ occurs [slash; slash] p -> (forall q, p = q ++ [slash] -> hd_error r <> Some slash) ->
  contents (p ++ r) = spaced p ++ contents r.
Proof.
  induction p as [|c p IH]; intros NO L; [reflexivity|].
  assert (IH' : contents (p ++ r) = spaced p ++ contents r).
  { apply IH; [intros [a [b ->]]; apply NO; exists (c :: a), b; reflexivity|].
    intros q ->. apply (L (c :: q)). reflexivity. }
  cbn [app spaced map]. destruct (Ascii.eqb_spec c nl) as [->|N]; [rewrite contents_nl|rewrite contents_char; auto];
    cbn [app]; [f_equal; exact IH'|f_equal; exact IH'|].
  intros [q E]. injection E as -> E. destruct p as [|d p].
  - cbn [app] in E. apply (L [] eq_refl). rewrite E. reflexivity.
  - injection E as -> _. apply NO. exists [], p. reflexivity.
Qed.

(* --- the text without line comments ----------------------------------- *)

Definition flat_piece (p : piece) : text :=
  match p with
  | LineComment _ => [" "%char]
  | _ => spaced (piece_text p)
  end.

Definition flat (ps : list piece) : text := flat_map flat_piece ps.

Definition valid (p : piece) : Prop :=
  match p with Number n => exists z, denotes n z | Comma => True | _ => gap p end.

Definition hexdig (c : ascii) : Prop := exists k, digit c = Some k.

Lemma positional_digits base ds : forall acc z, positional base acc ds = Some z -> Forall hexdig ds.
Proof.
  induction ds as [|d r IH]; intros acc z H; [constructor|]. cbn in H. destruct (digit d) as [k|] eqn:D; [|discriminate].
  destruct (k <? base); [|discriminate]. constructor; [exists k; exact D|eauto].
Qed.

(** letters, digits *)
Definition alnum (c : ascii) : bool := match digit c with Some _ => true | None => Ascii.eqb c "x" || Ascii.eqb c "X" end.

Lemma numeral_alnum n z : denotes n z -> forallb alnum (numeral_text n) = true /\ numeral_text n <> [].
Proof.
  assert (F : forall ds, Forall hexdig ds -> forallb alnum ds = true).
  { intros ds H. apply forallb_forall. intros c I. rewrite Forall_forall in H. destruct (H c I) as [k E]. unfold alnum. rewrite E. reflexivity. }
  destruct n as [u ds|ds]; cbn [denotes numeral_text].
  - intros [N P]. apply positional_digits in P. split; [|discriminate]. cbn [forallb]. rewrite (F ds P). destruct u; reflexivity.
  - intros [N P]. apply positional_digits in P. split; [auto|]. intros ->. exact N.
Qed.

Lemma alnum_plain c : alnum c = true -> c <> slash /\ c <> nl /\ c <> star /\ is_space c = false /\ is_comma c = false.
Proof.
  intros A. assert (B : negb (alnum c) || (negb (Ascii.eqb c slash) && negb (Ascii.eqb c nl) && negb (Ascii.eqb c star) && negb (is_space c) && negb (is_comma c)) = true)
    by (revert c A; intros c _; apply for_ascii with (P := fun c => negb (alnum c) || (negb (Ascii.eqb c slash) && negb (Ascii.eqb c nl) && negb (Ascii.eqb c star) && negb (is_space c) && negb (is_comma c))); vm_compute; reflexivity).
  rewrite A in B. cbn in B. repeat (apply andb_true_iff in B as [B ?]).
  repeat match goal with H : negb _ = true |- _ => apply negb_true_iff in H end.
  repeat split; auto; apply Ascii.eqb_neq; assumption.
Qed.

Lemma spaced_alnum t : forallb alnum t = true -> spaced t = t.
Proof.
  intros H. unfold spaced. rewrite <- (map_id t) at 2. apply map_ext_in. intros c I. rewrite forallb_forall in H.
  apply H, alnum_plain in I. destruct I as [_ [N _]]. apply Ascii.eqb_neq in N. rewrite N. reflexivity.
Qed.

Lemma no_slash t : ~ In slash t -> ~ occurs [slash; slash] t.
Proof. intros N [a [b ->]]. apply N. apply in_or_app. right. left. reflexivity. Qed.

Lemma alnum_no_slash t : forallb alnum t = true -> ~ In slash t.
Proof. intros H I. rewrite forallb_forall in H. apply H, alnum_plain in I. destruct I as [X _]. congruence. Qed.

Lemma in_last {A} (q : list A) x : In x (q ++ [x]).
Proof. apply in_or_app. right. left. reflexivity. Qed.

(** no // in a block comment whose body has none *)
Lemma block_end b q : ~ occurs [slash; slash] b -> forall p, b ++ [star; slash] <> p ++ [slash; slash] ++ q.
Proof.
  induction b as [|c b IH]; intros N p E.
  - destruct p as [|x [|y [|z p]]]; discriminate E.
  - destruct p as [|x p].
    + cbn in E. injection E as -> E. destruct b as [|d b]; [discriminate E|]. injection E as -> _. apply N. exists [], b. reflexivity.
    + injection E as _ E. apply IH with (p := p); [|exact E]. intros [u [v ->]]. apply N. exists (c :: u), v. reflexivity.
Qed.

Lemma block_slashes b : ~ occurs [slash; slash] b -> ~ occurs [slash; slash] (piece_text (BlockComment b)).
Proof.
  intros N [p [q E]]. cbn [piece_text] in E. destruct p as [|x [|y p]]; [discriminate E|injection E; discriminate|].
  injection E as _ _ E. exact (block_end b q N p E).
Qed.

Lemma blank_no_slash c : In c blanks -> c <> slash /\ c <> star /\ is_comma c = false /\ is_space (if Ascii.eqb c nl then " "%char else c) = true /\
  (if Ascii.eqb c nl then " "%char else c) <> slash.
Proof. intros I. vm_compute in I. repeat (destruct I as [<-|I]; [vm_compute; repeat split; discriminate|]). destruct I. Qed.

Lemma contents_render ps : Forall valid ps -> readable ps -> contents (render ps) = flat ps ++ [" "%char].
Proof.
  induction ps as [|p ps IH]; intros V R; [reflexivity|].
  inversion V as [|? ? Vp Vr]; subst. cbn [readable] in R. destruct R as [Rp Rr]. specialize (IH Vr Rr).
  unfold render, flat in *. cbn [flat_map]. rewrite <- app_assoc, <- IH. clear IH.
  destruct p as [c|b|b| |n]; cbn [piece_text flat_piece valid gap] in *.
  - apply contents_app; [apply no_slash|intros q E]; destruct (blank_no_slash c Vp) as [N _].
    + cbn. intros [X|[]]. congruence.
    + exfalso. apply N. destruct q as [|x [|y q]]; [injection E; auto|discriminate E|discriminate E].
  - cbn [app]. rewrite <- app_assoc. apply (contents_comment b _ Vp).
  - destruct Rp as [NS NX]. apply contents_app; [apply block_slashes; exact NS|]. intros q _.
    destruct ps as [|p ps]; [discriminate|]. destruct p as [c|b'|b'| |n]; cbn [flat_map piece_text app hd_error]; try contradiction; try (intros X; vm_compute in X; discriminate X).
    + inversion Vr as [|? ? Vc _]; subst. destruct (blank_no_slash c Vc) as [N _]. congruence.
    + inversion Vr as [|? ? V1 _]; subst. destruct V1 as [z D]. destruct (numeral_alnum n z D) as [A E].
      destruct (numeral_text n) as [|d ds]; [congruence|]. cbn [app hd_error]. intros X. injection X as ->. discriminate A.
  - apply contents_app; [apply no_slash; cbn; intros [X|[]]; discriminate X|].
    intros [|x [|y q]]; intros E; discriminate E.
  - destruct Vp as [z D]. destruct (numeral_alnum n z D) as [A _]. pose proof (alnum_no_slash _ A) as NS.
    apply contents_app; [apply no_slash; exact NS|]. intros q E. exfalso. apply NS. rewrite E. apply in_last.
Qed.

(* --- comments --------------------------------------------------------- *)

Lemma drop_char f c r : c <> slash -> drop_comments (S f) (c :: r) = c :: drop_comments f r.
Proof.
  intros N. cbn [drop_comments]. destruct r as [|d r]; [destruct f; reflexivity|].
  rewrite is_slash_eq. apply Ascii.eqb_neq in N. rewrite N. reflexivity.
Qed.

Lemma drop_plain t : ~ In slash t -> forall f r, drop_comments (length t + f) (t ++ r) = t ++ drop_comments f r.
Proof.
  induction t as [|c t IH]; intros N f r; [reflexivity|]. cbn [length app Nat.add].
  rewrite drop_char by (intros ->; apply N; left; reflexivity). rewrite IH; [reflexivity|]. intros X. apply N. right. exact X.
Qed.

Lemma after_block b r : ~ occurs [star; slash] b -> after_star (b ++ star :: slash :: r) = Some r.
Proof.
  induction b as [|c b IH]; intros N.
  - cbn [app after_star]. rewrite is_star_eq, is_slash_eq, !Ascii.eqb_refl. reflexivity.
  - assert (IH' : after_star (b ++ star :: slash :: r) = Some r) by (apply IH; intros [u [v ->]]; apply N; exists (c :: u), v; reflexivity).
    cbn [app after_star]. destruct (b ++ star :: slash :: r) as [|d q] eqn:E; [destruct b; discriminate E|].
    rewrite is_star_eq, is_slash_eq. destruct (Ascii.eqb_spec c star) as [->|]; [|exact IH'].
    destruct (Ascii.eqb_spec d slash) as [->|]; [|exact IH']. exfalso. apply N.
    destruct b as [|e b]; [injection E; discriminate|]. injection E as -> _. exists [], b. reflexivity.
Qed.

Lemma spaced_occurs b : ~ occurs [star; slash] b -> ~ occurs [star; slash] (spaced b).
Proof.
  intros N [u [v E]]. apply N. clear N. revert b E. induction u as [|c u IH]; intros b E.
  - destruct b as [|x [|y b]]; [discriminate E|discriminate E|]. unfold spaced in E. cbn [map app] in E. injection E as E1 E2 _. exists [], b.
    destruct (Ascii.eqb_spec x nl); [vm_compute in E1; discriminate E1|]. destruct (Ascii.eqb_spec y nl); [vm_compute in E2; discriminate E2|]. subst. reflexivity.
  - destruct b as [|x b]; [discriminate E|]. unfold spaced in E. cbn [map app] in E. injection E as _ E. destruct (IH b E) as [u' [v' ->]].
    exists (x :: u'), v'. reflexivity.
Qed.

Lemma drop_more t : ~ In slash t -> forall f, drop_comments f t = t.
Proof. intros N f. apply drop_comments_ok. exact N. Qed.

(** without comments *)
Definition bare_piece (p : piece) : text :=
  match p with BlockComment _ => [] | _ => flat_piece p end.
Definition bare (ps : list piece) : text := flat_map bare_piece ps.

Lemma drop_flat ps : Forall valid ps -> forall f, (length (flat ps ++ [" "%char]) <= f)%nat ->
  drop_comments f (flat ps ++ [" "%char]) = bare ps ++ [" "%char].
Proof.
  induction ps as [|p ps IH]; intros V f L.
  - apply drop_more. cbn. intros [X|[]]. discriminate X.
  - inversion V as [|? ? Vp Vr]; subst. unfold flat, bare in *. cbn [flat_map] in *. rewrite <- app_assoc in *.
    assert (P : ~ In slash (flat_piece p) -> bare_piece p = flat_piece p ->
                drop_comments f (flat_piece p ++ flat_map flat_piece ps ++ [" "%char]) = (bare_piece p ++ flat_map bare_piece ps) ++ [" "%char]).
    { intros N E. rewrite app_length in L.
      replace f with (length (flat_piece p) + (f - length (flat_piece p)))%nat by lia. rewrite drop_plain by exact N.
      rewrite IH by (auto; lia). rewrite E, <- app_assoc. reflexivity. }
    destruct p as [c|b|b| |n]; cbn [flat_piece bare_piece piece_text] in *.
    + apply P; [|reflexivity]. destruct (blank_no_slash c Vp) as [_ [_ [_ [_ N]]]]. unfold spaced. cbn [map In]. intros [X|[]]. exact (N X).
    + apply P; [|reflexivity]. cbn. intros [X|[]]. discriminate X.
    + clear P. unfold spaced in *. cbn [map] in *. rewrite map_app in *. fold (spaced b) in *.
      cbn [map app Ascii.eqb] in *. rewrite <- app_assoc in *. cbn [app] in *.
      destruct f as [|f]; [cbn in L; lia|].
      change (drop_comments (S f) (slash :: star :: spaced b ++ star :: slash :: flat_map flat_piece ps ++ [" "%char]) = flat_map bare_piece ps ++ [" "%char]).
      cbn [drop_comments]. rewrite is_slash_eq, is_star_eq, !Ascii.eqb_refl. cbn [andb].
      rewrite after_block by (apply spaced_occurs; exact Vp). apply IH; [exact Vr|].
      cbn [length] in L. rewrite app_length in L. cbn [length] in L. lia.
    + apply P; [|reflexivity]. cbn. intros [X|[]]. discriminate X.
    + destruct Vp as [z D]. destruct (numeral_alnum n z D) as [A _]. apply P; [|reflexivity].
      rewrite (spaced_alnum _ A). apply alnum_no_slash. exact A.
Qed.

(* --- white space, commas, numbers ------------------------------------- *)

Lemma squeeze_alnum t : forallb alnum t = true -> squeeze t = t.
Proof.
  induction t as [|c t IH]; intros A; [reflexivity|]. cbn [forallb] in A. apply andb_true_iff in A as [A B].
  destruct (alnum_plain c A) as [_ [_ [_ [E _]]]]. unfold squeeze in *. cbn [filter]. rewrite E. cbn [negb]. f_equal. auto.
Qed.

Lemma squeeze_gaps ps : Forall gap ps -> squeeze (bare ps) = [].
Proof.
  induction 1 as [|p ps G _ IH]; [reflexivity|]. unfold bare in *. cbn [flat_map]. rewrite squeeze_app, IH, app_nil_r.
  destruct p as [c|b|b| |n]; try contradiction; cbn [bare_piece flat_piece piece_text]; try reflexivity.
  destruct (blank_no_slash c G) as [_ [_ [_ [E _]]]]. unfold squeeze, spaced. cbn [map filter]. rewrite E. reflexivity.
Qed.

Lemma squeeze_number n z : denotes n z -> squeeze (bare_piece (Number n)) = numeral_text n.
Proof.
  intros D. destruct (numeral_alnum n z D) as [A _]. cbn [bare_piece flat_piece piece_text]. rewrite spaced_alnum by exact A.
  apply squeeze_alnum. exact A.
Qed.

Lemma split_number t r : forallb alnum t = true -> split_on is_comma (t ++ ","%char :: r) = t :: split_on is_comma r.
Proof.
  induction t as [|c t IH]; intros A; [reflexivity|]. cbn [forallb] in A. apply andb_true_iff in A as [A B].
  destruct (alnum_plain c A) as [_ [_ [_ [_ E]]]]. cbn [app split_on]. rewrite E, IH by exact B. reflexivity.
Qed.

Lemma split_alone t : forallb alnum t = true -> split_on is_comma t = [t].
Proof.
  induction t as [|c t IH]; intros A; [reflexivity|]. cbn [forallb] in A. apply andb_true_iff in A as [A B].
  destruct (alnum_plain c A) as [_ [_ [_ [_ E]]]]. cbn [split_on]. rewrite E, IH by exact B. reflexivity.
Qed.

Lemma digits_value ds : forall acc z, positional 16 acc ds = Some z -> int16_digits acc ds = Some z.
Proof.
  induction ds as [|d r IH]; intros acc z H; [exact H|]. cbn [positional int16_digits] in *. rewrite digit_ok in H.
  destruct (is_hex d); [|discriminate]. destruct (hex_val d <? 16); [|discriminate]. apply IH. exact H.
Qed.

Lemma body_value ds z : ds <> [] -> positional 16 0 ds = Some z -> int16_body ds = Some z.
Proof.
  intros N P. destruct ds as [|d r]; [congruence|]. pose proof (digits_value _ _ _ P) as V. unfold int16_body.
  cbn [positional] in P. rewrite digit_ok in P. destruct (is_hex d); [exact V|discriminate].
Qed.

Lemma numeral_int n z : denotes n z -> readable_number n -> int16 (numeral_text n) = Some z.
Proof.
  destruct n as [u ds|ds]; cbn [denotes readable_number numeral_text]; intros [N P] R.
  - assert (X : int16_nosign ("0"%char :: (if u then "X"%char else "x"%char) :: ds) = Some z).
    { unfold int16_nosign. replace ((code "0" =? 48) && _) with true by (destruct u; reflexivity).
      pose proof (body_value ds z N P) as B. destruct ds as [|d r]; [congruence|].
      destruct (code d =? 95) eqn:E; [|exact B]. exfalso. cbn [positional] in P. rewrite digit_ok in P.
      assert (H : is_hex d = false) by (unfold is_hex, between; lia). rewrite H in P. discriminate P. }
    unfold int16. replace (code "0" =? 45) with false by reflexivity. replace (code "0" =? 43) with false by reflexivity. exact X.
  - destruct ds as [|d [|e r]]; [contradiction|clear R N|cbn in R; lia].
    assert (Q : (fun d => match positional 10 0 [d] with Some z => match int16 [d] with Some y => y =? z | None => false end | None => true end) d = true).
    { revert d P. intros d _. revert d. apply for_ascii. vm_compute. reflexivity. }
    cbv beta in Q. rewrite P in Q. destruct (int16 [d]) as [y|]; [|discriminate]. f_equal. lia.
Qed.

Lemma valid_list ps zs : c_list ps zs -> Forall valid ps.
Proof.
  assert (G : forall qs, Forall gap qs -> Forall valid qs).
  { intros qs. apply Forall_impl. intros p Gp. destruct p; try exact Gp; contradiction. }
  induction 1 as [ps A|ps n z qs A D B|ps n z qs rs zs A D B _ IH]; auto.
  - apply Forall_app. split; auto. constructor; [exists z; exact D|auto].
  - apply Forall_app. split; auto. constructor; [exists z; exact D|]. apply Forall_app. split; auto. constructor; [exact I|exact IH].
Qed.

Lemma readable_app ps qs : readable (ps ++ qs) -> readable qs.
Proof. induction ps as [|p ps IH]; intros R; auto. cbn in R. apply IH. apply R. Qed.

Lemma list_bytes ps zs : c_list ps zs -> readable ps -> Forall is_byte zs -> code_bytes (split_on is_comma (squeeze (bare ps))) = Ok zs.
Proof.
  induction 1 as [ps A|ps n z qs A D B|ps n z qs rs zs A D B _ IH]; intros R F.
  - rewrite squeeze_gaps by exact A. reflexivity.
  - apply readable_app in R. cbn in R. destruct R as [R _]. inversion F as [|? ? Z _]; subst.
    destruct (numeral_alnum n z D) as [AL NE]. unfold bare. rewrite flat_map_app. cbn [flat_map]. rewrite !squeeze_app.
    fold (bare ps) (bare qs). rewrite !squeeze_gaps, app_nil_r by assumption. cbn [app]. rewrite (squeeze_number n z D).
    rewrite split_alone by exact AL. rewrite (code_bytes_cons _ _ z NE (numeral_int n z D R) Z). reflexivity.
  - apply readable_app in R. cbn in R. destruct R as [R1 R2]. apply readable_app in R2. cbn in R2. inversion F as [|? ? Z Fr]; subst.
    destruct (numeral_alnum n z D) as [AL NE]. unfold bare. rewrite flat_map_app. cbn [flat_map]. rewrite flat_map_app. cbn [flat_map].
    rewrite !squeeze_app. fold (bare ps) (bare qs) (bare rs). rewrite !squeeze_gaps by assumption. cbn [app].
    rewrite (squeeze_number n z D). change (squeeze (bare_piece Comma)) with [","%char]. cbn [app].
    rewrite split_number by exact AL. rewrite (code_bytes_cons _ _ z NE (numeral_int n z D R1) Z), IH; tauto.
Qed.

Lemma c71 ps zs : c_list ps zs -> Forall is_byte zs -> readable ps -> code_blob_of (render ps) = Ok zs.
Proof.
  intros C F R. pose proof (valid_list ps zs C) as V. unfold code_blob_of. fold (contents (render ps)).
  rewrite contents_render by assumption. rewrite drop_flat by (auto; apply le_n). fold (squeeze (bare ps ++ [" "%char])).
  rewrite squeeze_app. change (squeeze [" "%char]) with (@nil ascii). rewrite app_nil_r. apply list_bytes; assumption.
Qed.

(* --- nothing is dropped ------------------------------------------------ *)

Lemma white_ok c : white c = is_space c.
Proof. apply eqb_prop. revert c. apply for_ascii. vm_compute. reflexivity. Qed.

Lemma parts_ok t : parts t = split_on is_comma t.
Proof.
  induction t as [|c r IH]; [reflexivity|]. cbn [parts split_on]. rewrite is_comma_eq, <- IH.
  destruct (parts r) as [|w ws] eqn:E; [|destruct (Ascii.eqb c ","); reflexivity].
  destruct r as [|d r]; [discriminate E|]. cbn in E. destruct (parts r); [|destruct (Ascii.eqb d ","); discriminate E].
  destruct (split_cons is_comma (d :: r)) as [x [y X]]. rewrite X in IH. discriminate IH.
Qed.

Lemma contents_plain t : ~ In slash t -> contents t = spaced t ++ [" "%char].
Proof.
  intros N. rewrite <- (app_nil_r t) at 1. rewrite contents_app; [reflexivity|apply no_slash; exact N|].
  intros q ->. exfalso. apply N. apply in_last.
Qed.

Lemma spaced_in c t : In c (spaced t) -> In c t \/ c = " "%char.
Proof.
  intros I. apply in_map_iff in I. destruct I as [d [E I]]. destruct (Ascii.eqb d nl); [right|left]; congruence.
Qed.

Lemma spaced_squeeze t : squeeze (spaced t) = squeeze t.
Proof.
  induction t as [|c t IH]; [reflexivity|]. unfold spaced, squeeze in *. cbn [map filter]. rewrite IH.
  destruct (Ascii.eqb_spec c nl) as [->|]; reflexivity.
Qed.

Lemma squeeze_parts t : split_on is_comma (squeeze t) = map squeeze (split_on is_comma t).
Proof.
  induction t as [|c t IH]; [reflexivity|]. unfold squeeze at 1. cbn [filter]. fold (squeeze t).
  destruct (split_cons is_comma t) as [x [y E]]. cbn [split_on].
  destruct (is_space c) eqn:S; cbn [negb].
  - assert (NC : is_comma c = false) by (revert S; unfold is_space, is_comma, between; lia). rewrite NC, E in *. rewrite IH.
    cbn [map]. unfold squeeze at 3. cbn [filter]. rewrite S. reflexivity.
  - cbn [split_on]. destruct (is_comma c) eqn:NC; [rewrite IH; reflexivity|]. rewrite IH, E. cbn [map].
    f_equal. unfold squeeze at 2. cbn [filter]. rewrite S. reflexivity.
Qed.

Definition full (t : text) : bool := match t with [] => false | _ => true end.

Lemma code_bytes_length l : forall bs, code_bytes l = Ok bs -> length bs = length (filter full l).
Proof.
  induction l as [|x l IH]; intros bs H; [injection H as <-; reflexivity|]. destruct x as [|c x].
  - cbn [code_bytes filter full] in *. auto.
  - cbn [code_bytes] in H. destruct (int16 (c :: x)) as [z|]; [|discriminate]. destruct ((0 <=? z) && (z <? 256)); [|discriminate].
    destruct (code_bytes l) as [u|] eqn:E; [|discriminate]. injection H as <-. cbn [filter full length]. rewrite (IH u eq_refl). reflexivity.
Qed.

Lemma digits_numeric l : forall acc z, int16_digits acc l = Some z -> forallb numeric l = true.
Proof.
  assert (H : forall c, is_hex c = true \/ code c = 95 -> numeric c = true).
  { intros c X. assert (Q : negb (is_hex c || (code c =? 95)) || numeric c = true)
      by (apply for_ascii with (P := fun c => negb (is_hex c || (code c =? 95)) || numeric c); vm_compute; reflexivity).
    destruct (numeric c); [reflexivity|]. destruct X as [X|X]; [rewrite X in Q; discriminate Q|]. rewrite X in Q.
    rewrite orb_true_r in Q. discriminate Q. }
  induction l as [|c r IH]; intros acc z E; [reflexivity|]. cbn [int16_digits] in E. cbn [forallb].
  destruct (is_hex c) eqn:X; [rewrite (H c) by auto; cbn; eauto|].
  destruct (code c =? 95) eqn:U; [|discriminate]. rewrite (H c) by (right; lia). destruct r as [|d r]; [discriminate|].
  destruct (is_hex d); [eauto|discriminate].
Qed.

Lemma numeric_code c k : In k [43; 45; 48; 120; 88; 95] -> code c = k -> numeric c = true.
Proof.
  intros I E. assert (Q : negb (existsb (Z.eqb (code c)) [43; 45; 48; 120; 88; 95]) || numeric c = true)
    by (apply for_ascii with (P := fun c => negb (existsb (Z.eqb (code c)) [43; 45; 48; 120; 88; 95]) || numeric c); vm_compute; reflexivity).
  replace (existsb (Z.eqb (code c)) [43; 45; 48; 120; 88; 95]) with true in Q; [exact Q|].
  symmetry. apply existsb_exists. exists k. split; [exact I|lia].
Qed.

Lemma body_numeric l z : int16_body l = Some z -> forallb numeric l = true.
Proof. unfold int16_body. destruct l as [|c r]; [discriminate|]. destruct (is_hex c); [apply digits_numeric|discriminate]. Qed.

Lemma nosign_numeric l z : int16_nosign l = Some z -> forallb numeric l = true.
Proof.
  unfold int16_nosign. destruct l as [|c [|d r]]; try apply body_numeric.
  destruct ((code c =? 48) && ((code d =? 120) || (code d =? 88))) eqn:X; [|apply body_numeric].
  destruct r as [|e r]; [discriminate|]. intros H. cbn [forallb].
  rewrite (numeric_code c 48) by (cbn; auto; lia). destruct (Z.eqb_spec (code d) 120) as [D|D];
    [rewrite (numeric_code d 120) by (cbn; auto)|rewrite (numeric_code d 88) by (cbn; auto; lia)]; cbn [andb].
  all: destruct (code e =? 95) eqn:U; [rewrite (numeric_code e 95) by (cbn; auto 10; lia); exact (body_numeric _ _ H)|exact (body_numeric _ _ H)].
Qed.

Lemma int16_numeric l z : int16 l = Some z -> forallb numeric l = true.
Proof.
  unfold int16. destruct l as [|c r]; [discriminate|]. destruct (code c =? 45) eqn:M.
  - destruct (int16_nosign r) eqn:E; [|discriminate]. intros _. cbn [forallb]. rewrite (numeric_code c 45) by (cbn; auto; lia).
    exact (nosign_numeric _ _ E).
  - destruct (code c =? 43) eqn:P; [|apply nosign_numeric]. intros E. cbn [forallb]. rewrite (numeric_code c 43) by (cbn; auto; lia).
    exact (nosign_numeric _ _ E).
Qed.

Lemma code_bytes_numeric l : forall bs, code_bytes l = Ok bs -> Forall (fun x => forallb numeric x = true) l.
Proof.
  induction l as [|x l IH]; intros bs H; [constructor|]. destruct x as [|c x].
  - cbn [code_bytes] in H. constructor; eauto.
  - cbn [code_bytes] in H. destruct (int16 (c :: x)) as [z|] eqn:I; [|discriminate]. destruct ((0 <=? z) && (z <? 256)); [|discriminate].
    destruct (code_bytes l) as [u|] eqn:E; [|discriminate]. constructor; [exact (int16_numeric _ _ I)|eauto].
Qed.

Lemma split_in c t : In c t -> is_comma c = true \/ exists x, In x (split_on is_comma t) /\ In c x.
Proof.
  induction t as [|d t IH]; intros I; [destruct I|]. cbn [split_on]. destruct (split_cons is_comma t) as [x [y E]]. rewrite E in *.
  destruct I as [->|I].
  - destruct (is_comma c); [auto|]. right. exists (c :: x). split; left; reflexivity.
  - destruct (IH I) as [C|[w [W1 W2]]]; [auto|]. right. destruct (is_comma d).
    + exists w. split; [right; exact W1|exact W2].
    + destruct W1 as [<-|W1]; [exists (d :: x); split; [left; reflexivity|right; exact W2]|exists w; split; [right; exact W1|exact W2]].
Qed.

Lemma c72 t bs : ~ In slash t -> code_blob_of t = Ok bs ->
  length bs = length (filter (existsb (fun c => negb (white c))) (parts t)) /\
  Forall (fun c => white c = true \/ c = ","%char \/ numeric c = true) t.
Proof.
  intros N H. unfold code_blob_of in H. fold (contents t) in H. rewrite contents_plain in H by exact N.
  rewrite drop_more in H by (intros I; apply in_app_or in I; destruct I as [I|[I|[]]]; [apply spaced_in in I; destruct I as [I|I]; [auto|discriminate I]|discriminate I]).
  fold (squeeze (spaced t ++ [" "%char])) in H. rewrite squeeze_app in H. change (squeeze [" "%char]) with (@nil ascii) in H.
  rewrite app_nil_r, spaced_squeeze in H. split.
  - rewrite (code_bytes_length _ _ H), squeeze_parts, parts_ok. clear. induction (split_on is_comma t) as [|x l IH]; [reflexivity|].
    cbn [map filter]. replace (full (squeeze x)) with (existsb (fun c => negb (white c)) x).
    + destruct (existsb _ x); cbn [length]; rewrite IH; reflexivity.
    + clear. induction x as [|c x IH]; [reflexivity|]. unfold squeeze in *. cbn [existsb filter]. rewrite white_ok.
      destruct (is_space c); cbn [negb orb]; [exact IH|reflexivity].
  - apply Forall_forall. intros c I. destruct (is_space c) eqn:S; [left; rewrite white_ok; exact S|right].
    assert (J : In c (squeeze t)) by (apply filter_In; split; [exact I|rewrite S; reflexivity]).
    apply split_in in J. destruct J as [J|[x [X1 X2]]].
    + left. rewrite is_comma_eq in J. apply Ascii.eqb_eq. exact J.
    + right. apply code_bytes_numeric in H. rewrite Forall_forall in H. apply H in X1. rewrite forallb_forall in X1. auto.
Qed.

(* --- deciding occurrence of two characters ------------------------------ *)

Fixpoint pairb (x y : ascii) (t : text) : bool :=
  match t with
  | c :: r => (Ascii.eqb c x && match r with d :: _ => Ascii.eqb d y | [] => false end) || pairb x y r
  | [] => false
  end.

Lemma pair_by x y t : pairb x y t = false -> ~ occurs [x; y] t.
Proof.
  intros H [a [b E]]. revert t H E. induction a as [|c a IH]; intros t H ->.
  - cbn in H. rewrite !Ascii.eqb_refl in H. discriminate H.
  - cbn [app pairb] in H. apply orb_false_iff in H as [_ H]. exact (IH _ H eq_refl).
Qed.
