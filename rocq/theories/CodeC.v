(* CodeC.v -- proofs for C75: C output is an initialiser of the bytes. *)
From Coq Require Import ZArith List Bool Ascii String Lia.
From Verif Require Import Py Usage Item Parser Spec TextFormats TextProofs TextNames CSpec CProofs.
Import ListNotations.
Local Open Scope list_scope.
Local Open Scope Z_scope.

(** A newline is joined to the next line by a backslash, or by ??/ which
    stands for one (C11 5.2.1.1, 5.1.1.2). *)
Definition continued (t : text) : Prop :=
  occurs ["\"%char; nl] t \/ occurs ["?"; "?"; "/"; nl]%char t.

(* --- pieces of the output --------------------------------------------- *)

Definition byte_num (x : Z) : numeral := Hexa false (str (hex2 x)).

Fixpoint byte_pieces (b : list Z) : list piece :=
  match b with
  | [] => []
  | [x] => [Number (byte_num x); Comma]
  | x :: r => Number (byte_num x) :: Comma :: Blank " " :: byte_pieces r
  end.

Definition spaces (n : nat) : list piece := repeat (Blank " ") n.

Lemma spaces_text n : render (spaces n) = repeat " "%char n.
Proof. induction n as [|n IH]; [reflexivity|]. cbn. f_equal. exact IH. Qed.

Lemma spaces_gap n : Forall gap (spaces n).
Proof. apply Forall_forall. intros p I. apply repeat_spec in I. subst p. left. reflexivity. Qed.

Lemma byte_pieces_text b : b <> [] -> render (byte_pieces b) = code_blob b.
Proof.
  intros N. unfold code_blob. induction b as [|x b IH]; [congruence|]. destruct b as [|y b].
  - cbn [byte_pieces map join_text]. unfold render, byte_num. cbn [flat_map piece_text numeral_text].
    rewrite app_nil_r. reflexivity.
  - cbn [map] in *.
    change (join_text (str ", ") (str ("0x" ++ hex2 x) :: str ("0x" ++ hex2 y) :: map (fun x => str ("0x" ++ hex2 x)) b))
      with (str ("0x" ++ hex2 x) ++ str ", " ++ join_text (str ", ") (str ("0x" ++ hex2 y) :: map (fun x => str ("0x" ++ hex2 x)) b)).
    rewrite <- !app_assoc, <- IH by congruence. reflexivity.
Qed.

Lemma hex2_denotes x : is_byte x -> denotes (byte_num x) x.
Proof.
  intros H. split; [discriminate|].
  assert (Q : forall x, is_byte x ->
    match positional 16 0 (str (hex2 x)) with Some z => z =? x | None => false end = true).
  { apply for_byte. vm_compute. reflexivity. }
  specialize (Q x H). destruct (positional 16 0 (str (hex2 x))); [|discriminate].
  apply Z.eqb_eq in Q. congruence.
Qed.

Lemma c_list_gaps gs ps zs : Forall gap gs -> c_list ps zs -> c_list (gs ++ ps) zs.
Proof.
  intros G H. destruct H as [ps P|ps n z qs P D Q|ps n z qs rs zs P D Q R].
  - apply c_end. apply Forall_app. split; assumption.
  - rewrite app_assoc. apply c_last; auto. apply Forall_app. split; assumption.
  - rewrite app_assoc. apply c_more; auto. apply Forall_app. split; assumption.
Qed.

Lemma c_list_bytes b : Forall is_byte b -> forall ps zs, c_list ps zs -> c_list (byte_pieces b ++ ps) (b ++ zs).
Proof.
  induction 1 as [|x b X F IH]; intros ps zs H; [exact H|]. destruct b as [|y b].
  - cbn [byte_pieces app]. apply (c_more [] (byte_num x) x [] ps zs); auto using hex2_denotes.
  - change (byte_pieces (x :: y :: b)) with (Number (byte_num x) :: Comma :: Blank " " :: byte_pieces (y :: b)).
    cbn [app]. change (x :: y :: b ++ zs) with (x :: ((y :: b) ++ zs)).
    apply (c_more [] (byte_num x) x [] (Blank " " :: byte_pieces (y :: b) ++ ps)); auto using hex2_denotes.
    apply (c_list_gaps [Blank " "]).
    + constructor; [left; reflexivity|constructor].
    + apply IH, H.
Qed.

Definition line_pieces (b : list Z) (n : Z) (i : item) : list piece :=
  spaces 5 ++ byte_pieces b ++ spaces (30 - List.length (code_blob b)) ++
  [Blank " "; LineComment (" "%char :: repeat " "%char (Z.to_nat (n * 4)) ++ str (item_str i))].

Lemma render_app a b : render (a ++ b) = render a ++ render b.
Proof. apply flat_map_app. Qed.

Lemma line_text b n i : b <> [] -> render (line_pieces b n i) = code_line b n i.
Proof.
  intros N. unfold line_pieces. rewrite !render_app, !spaces_text, byte_pieces_text by auto.
  unfold code_line, ljust. rewrite <- !app_assoc. f_equal. f_equal. f_equal.
  unfold render. cbn [flat_map piece_text app]. rewrite app_nil_r, <- !app_assoc. reflexivity.
Qed.

Lemma line_list b n i ps zs :
  Forall is_byte b -> no_nl (str (item_str i)) -> c_list ps zs -> c_list (line_pieces b n i ++ ps) (b ++ zs).
Proof.
  intros F N H. unfold line_pieces. rewrite <- !app_assoc. apply c_list_gaps; [apply spaces_gap|].
  apply c_list_bytes; auto. apply c_list_gaps; [apply spaces_gap|]. apply c_list_gaps; [|exact H].
  constructor; [left; reflexivity|]. constructor; [|constructor].
  cbn [gap]. intros [I|I]; [discriminate I|]. apply in_app_or in I. destruct I as [I|I]; [|exact (N I)].
  apply repeat_spec in I. discriminate I.
Qed.

Lemma code_run_list l : forall n m lines b,
  code_run n l = Ok (m, lines) -> serialize l = Ok b -> Forall (fun i => no_nl (str (item_str i))) l ->
  exists ps, concat lines = render ps /\ c_list ps b.
Proof.
  induction l as [|i l IH]; intros n m lines b H S N.
  - simpl in H, S. injection H as <- <-. injection S as <-. exists []. split; [reflexivity|]. apply c_end. constructor.
  - cbn [code_run serialize] in H, S. unfold code_append in H.
    destruct (bytes i) as [bi|] eqn:B; [|discriminate]. cbn [bind] in H, S.
    destruct (code_run _ l) as [[m' lines']|] eqn:R in H; [|discriminate].
    destruct (serialize l) as [b'|]; [|discriminate]. cbn [bind] in H, S.
    injection H as <- <-. injection S as <-.
    inversion N as [|? ? N1 N2]; subst.
    destruct (IH _ _ _ _ R eq_refl N2) as [ps [E C]].
    match goal with |- context [code_line bi ?k i] => exists (line_pieces bi k i ++ ps) end.
    split.
    + cbn [concat]. rewrite render_app, line_text by (eapply bytes_nonempty; eauto). rewrite E. reflexivity.
    + apply line_list; auto. eapply bytes_bytes; eauto.
Qed.

(* --- no line is continued --------------------------------------------- *)

(** what precedes a newline is the closing parenthesis or the letter that ends
    the name of an item *)
Definition last_ok (c : ascii) : bool := negb (Ascii.eqb c "\") && negb (Ascii.eqb c "/").

Lemma str_app a b : str (a ++ b)%string = str a ++ str b.
Proof. unfold str. induction a as [|c a IH]; [reflexivity|]. cbn. rewrite IH. reflexivity. Qed.

Lemma item_str_last i : exists t c, str (item_str i) = t ++ [c] /\ last_ok c = true.
Proof.
  unfold item_str. destruct (negb (ival i =? 0) || negb (optional (ic i))).
  - rewrite !str_app. exists (str (tag_name (ic i)) ++ str " (" ++ str (pval_name (iv i))), ")"%char.
    split; [rewrite <- !app_assoc; reflexivity|reflexivity].
  - assert (Q : match rev (str (tag_name (ic i))) with c :: _ => last_ok c | [] => false end = true)
      by (destruct (ic i); reflexivity).
    destruct (rev (str (tag_name (ic i)))) as [|c r] eqn:E; [discriminate Q|].
    exists (rev r), c. split; [|exact Q].
    rewrite <- (rev_involutive (str (tag_name (ic i)))), E. reflexivity.
Qed.

(** every newline comes after such a character *)
Definition safe (t : text) : Prop := forall a c b, t = a ++ c :: nl :: b -> last_ok c = true.

Lemma safe_continued t : safe t -> ~ continued t.
Proof.
  intros S [[a [b ->]]|[a [b ->]]].
  - specialize (S a "\"%char b eq_refl). discriminate S.
  - specialize (S (a ++ ["?"; "?"]%char) "/"%char b). rewrite <- app_assoc in S. specialize (S eq_refl). discriminate S.
Qed.

Lemma app_split_nl p x r a c b :
  ~ In nl p -> ~ In nl [x] -> p ++ x :: nl :: r = a ++ c :: nl :: b ->
  (a = p /\ c = x /\ b = r) \/ exists a', a = p ++ x :: nl :: a' /\ r = a' ++ c :: nl :: b
  \/ (a = p ++ [x] /\ c = nl /\ r = nl :: b).
Proof.
  revert a. induction p as [|y p IH]; intros a NP NX E.
  - destruct a as [|y a]; cbn [app] in E.
    + injection E as -> ->. left. auto.
    + injection E as <- E. destruct a as [|z a]; cbn [app] in E.
      * injection E as <- ->. right. exists []. right. auto.
      * injection E as <- E. right. exists a. left. auto.
  - destruct a as [|z a]; cbn [app] in E.
    + injection E as -> E. exfalso. destruct p as [|q p]; cbn [app] in E.
      * injection E as -> _. apply NX. left. reflexivity.
      * injection E as -> _. apply NP. right. left. reflexivity.
    + injection E as <- E. apply IH in E; [|intros I; apply NP; right; exact I|exact NX].
      destruct E as [[-> [-> ->]]|[a' [[-> ->]|[-> [-> ->]]]]].
      * left. auto.
      * right. exists a'. left. auto.
      * right. exists a'. right. auto.
Qed.

Lemma safe_line p x r : ~ In nl p -> x <> nl -> last_ok x = true -> safe r -> hd_error r <> Some nl ->
  safe (p ++ x :: nl :: r).
Proof.
  intros NP NX L S H a c b E. apply app_split_nl in E; [|exact NP|intros [I|[]]; exact (NX I)].
  destruct E as [[-> [-> ->]]|[a' [[-> ->]|[-> [-> ->]]]]].
  - exact L.
  - apply (S a' c b eq_refl).
  - exfalso. apply H. reflexivity.
Qed.

Lemma code_run_safe l : forall n m lines,
  code_run n l = Ok (m, lines) -> Forall (fun i => no_nl (str (item_str i))) l ->
  safe (concat lines) /\ hd_error (concat lines) <> Some nl.
Proof.
  induction l as [|i l IH]; intros n m lines H N.
  - simpl in H. injection H as <- <-. split; [|discriminate]. intros a c b E. destruct a; discriminate E.
  - cbn [code_run] in H. unfold code_append in H.
    destruct (bytes i) as [bi|] eqn:B; [|discriminate]. cbn [bind] in H.
    destruct (code_run _ l) as [[m' lines']|] eqn:R in H; [|discriminate]. cbn [bind] in H.
    injection H as <- <-. inversion N as [|? ? N1 N2]; subst.
    destruct (IH _ _ _ R N2) as [S HD]. split; [|unfold code_line; cbn; discriminate].
    cbn [concat]. rewrite code_line_split.
    destruct (item_str_last i) as [t [c [E L]]]. rewrite E. unfold no_nl in N1. rewrite E in N1.
    match goal with |- safe ((?p ++ slash :: slash :: (" "%char :: ?s ++ t ++ [c]) ++ [nl]) ++ ?r) =>
      replace ((p ++ slash :: slash :: (" "%char :: s ++ t ++ [c]) ++ [nl]) ++ r)
      with ((p ++ slash :: slash :: " "%char :: s ++ t) ++ c :: nl :: r) end.
    2:{ rewrite <- !app_assoc. cbn [app]. rewrite <- !app_assoc. cbn [app]. reflexivity. }
    apply safe_line; auto.
    + intros I. apply in_app_or in I. destruct I as [I|I].
      * revert I. apply good_not; [apply bare_good; eapply bytes_bytes; eauto|reflexivity].
      * destruct I as [I|[I|[I|I]]]; try discriminate I. apply in_app_or in I. destruct I as [I|I].
        -- apply repeat_spec in I. discriminate I.
        -- apply N1, in_or_app. left. exact I.
    + intros ->. apply N1, in_or_app. right. left. reflexivity.
Qed.

Lemma c75 l b t :
  serialize l = Ok b -> Forall (fun i => no_nl (str (item_str i))) l -> format_code l = Ok t ->
  c_bytes t b /\ ~ continued t.
Proof.
  intros S N H. unfold format_code in H. destruct (code_run 0 l) as [[m lines]|] eqn:R; [|discriminate].
  cbn [bind] in H. injection H as <-.
  destruct (code_run_list l 0 m lines b R S N) as [ps [E C]]. split.
  - exists ps. split; [exact E|]. split; [exact C|]. eapply serialize_bytes; eauto.
  - apply safe_continued. eapply code_run_safe; eauto.
Qed.

(* --- an initialiser has one reading ------------------------------------ *)

Definition well (p : piece) : Prop := gap p \/ p = Comma \/ exists n z, p = Number n /\ denotes n z.

Definition is_number (p : piece) : bool := match p with Number _ => true | _ => false end.

(** no two numbers in a row *)
Fixpoint apart (ps : list piece) : Prop :=
  match ps with
  | [] => True
  | p :: r => (is_number p = true -> match r with q :: _ => is_number q = false | [] => True end) /\ apart r
  end.

Lemma apart_cons p r : apart (p :: r) <->
  (is_number p = true -> match r with q :: _ => is_number q = false | [] => True end) /\ apart r.
Proof. reflexivity. Qed.

Lemma gap_not_number p : gap p -> is_number p = false.
Proof. destruct p; auto. intros []. Qed.

Lemma apart_gaps gs r : Forall gap gs -> apart r -> apart (gs ++ r).
Proof.
  induction 1 as [|g gs G F IH]; intros A; [exact A|]. cbn [app]. apply apart_cons. split; [|apply IH, A].
  intros N. rewrite (gap_not_number g G) in N. discriminate N.
Qed.

Lemma apart_number n gs r : Forall gap gs -> apart r ->
  match r with q :: _ => is_number q = false | [] => True end -> apart (Number n :: gs ++ r).
Proof.
  intros F A H. apply apart_cons. split; [|apply apart_gaps; assumption]. intros _.
  destruct F as [|g gs G F]; [exact H|]. cbn [app]. apply gap_not_number, G.
Qed.

Lemma c_list_well ps zs : c_list ps zs -> Forall well ps /\ apart ps.
Proof.
  assert (W : forall gs, Forall gap gs -> Forall well gs).
  { intros gs F. eapply Forall_impl; [|exact F]. intros p G. left. exact G. }
  induction 1 as [ps P|ps n z qs P D Q|ps n z qs rs zs P D Q R [RW RA]].
  - split; [auto|]. rewrite <- (app_nil_r ps). apply apart_gaps; [exact P|exact I].
  - split.
    + apply Forall_app. split; [auto|]. constructor; [|auto]. right. right. exists n, z. auto.
    + apply apart_gaps; [exact P|]. rewrite <- (app_nil_r qs). apply apart_number; [exact Q|exact I|exact I].
  - split.
    + apply Forall_app. split; [auto|]. constructor; [right; right; exists n, z; auto|].
      apply Forall_app. split; [auto|]. constructor; [right; left; reflexivity|exact RW].
    + apply apart_gaps; [exact P|]. apply apart_number; [exact Q| |reflexivity].
      apply apart_cons. split; [discriminate|exact RA].
Qed.

Definition numerals (ps : list piece) : list numeral :=
  flat_map (fun p => match p with Number n => [n] | _ => [] end) ps.

Lemma numerals_gaps gs : Forall gap gs -> numerals gs = [].
Proof.
  induction 1 as [|g gs G F IH]; [reflexivity|]. unfold numerals. cbn [flat_map]. fold (numerals gs). rewrite IH.
  destruct g; auto. destruct G.
Qed.

Lemma numerals_app a b : numerals (a ++ b) = numerals a ++ numerals b.
Proof. apply flat_map_app. Qed.

Lemma c_list_numerals ps zs : c_list ps zs -> Forall2 denotes (numerals ps) zs.
Proof.
  induction 1 as [ps P|ps n z qs P D Q|ps n z qs rs zs P D Q R IH].
  - rewrite numerals_gaps by exact P. constructor.
  - rewrite numerals_app, numerals_gaps by exact P.
    change (numerals (Number n :: qs)) with (n :: numerals qs). rewrite numerals_gaps by exact Q.
    constructor; [exact D|constructor].
  - rewrite numerals_app, numerals_gaps by exact P.
    change (numerals (Number n :: qs ++ Comma :: rs)) with (n :: numerals (qs ++ Comma :: rs)).
    rewrite numerals_app, numerals_gaps by exact Q. constructor; [exact D|exact IH].
Qed.

Lemma denotes_one n z z' : denotes n z -> denotes n z' -> z = z'.
Proof. destruct n; intros [_ A] [_ B]; congruence. Qed.

Lemma denotes_all ns : forall zs zs', Forall2 denotes ns zs -> Forall2 denotes ns zs' -> zs = zs'.
Proof.
  induction ns as [|n ns IH]; intros zs zs' A B; inversion A; inversion B; subst; auto. f_equal; eauto using denotes_one.
Qed.

Lemma line_end (b b' r r' : text) : ~ In nl b -> ~ In nl b' -> b ++ nl :: r = b' ++ nl :: r' -> b = b' /\ r = r'.
Proof.
  revert b'. induction b as [|c b IH]; intros [|c' b'] N N' E; cbn [app] in E.
  - injection E as ->. auto.
  - injection E as <- _. exfalso. apply N'. left. reflexivity.
  - injection E as -> _. exfalso. apply N. left. reflexivity.
  - injection E as -> E. apply IH in E; [|intros I; apply N; right; exact I|intros I; apply N'; right; exact I].
    destruct E as [-> ->]. auto.
Qed.

Lemma occurs_cons w c t : occurs w t -> occurs w (c :: t).
Proof. intros [a [b ->]]. exists (c :: a), b. reflexivity. Qed.

Lemma block_end (b b' r r' : text) :
  ~ occurs [star; slash] b -> ~ occurs [star; slash] b' ->
  b ++ star :: slash :: r = b' ++ star :: slash :: r' -> b = b' /\ r = r'.
Proof.
  revert b'. induction b as [|c b IH]; intros [|c' b'] N N' E; cbn [app] in E.
  - injection E as ->. auto.
  - exfalso. injection E as <- E. destruct b' as [|d b']; cbn [app] in E; [discriminate E|].
    injection E as <- _. apply N'. exists [], b'. reflexivity.
  - exfalso. injection E as -> E. destruct b as [|d b]; cbn [app] in E; [discriminate E|].
    injection E as -> _. apply N. exists [], b. reflexivity.
  - injection E as -> E. apply IH in E; [|intros I; apply N, occurs_cons, I|intros I; apply N', occurs_cons, I].
    destruct E as [-> ->]. auto.
Qed.

Definition ends (r : text) : Prop := match r with c :: _ => alnum c = false | [] => True end.

Lemma word_end (a a' r r' : text) :
  forallb alnum a = true -> forallb alnum a' = true -> ends r -> ends r' -> a ++ r = a' ++ r' -> a = a' /\ r = r'.
Proof.
  revert a'. induction a as [|c a IH]; intros [|c' a'] A A' R R' E; cbn [app forallb] in *.
  - auto.
  - subst r. cbn [ends] in R. apply andb_true_iff in A'. destruct A' as [A' _]. congruence.
  - subst r'. cbn [ends] in R'. apply andb_true_iff in A. destruct A as [A _]. congruence.
  - apply andb_true_iff in A, A'. destruct A as [_ A], A' as [_ A']. injection E as -> E.
    destruct (IH a' A A' R R' E) as [-> ->]. auto.
Qed.

(** the kind of a piece, by its first character *)
Definition first (p : piece) : ascii -> bool :=
  match p with
  | Blank _ => fun c => existsb (Ascii.eqb c) blanks
  | LineComment _ | BlockComment _ => fun c => Ascii.eqb c slash
  | Comma => fun c => Ascii.eqb c ","
  | Number _ => alnum
  end.

Lemma first_ok p : well p -> exists c r, piece_text p = c :: r /\ first p c = true.
Proof.
  intros [G|[->|[n [z [-> D]]]]].
  - destruct p as [c|b|b| |n]; try contradiction; cbn [piece_text first].
    + exists c, []. split; [reflexivity|]. apply existsb_exists. exists c. split; [exact G|apply Ascii.eqb_refl].
    + eexists _, _. split; [reflexivity|reflexivity].
    + eexists _, _. split; [reflexivity|reflexivity].
  - eexists _, _. split; [reflexivity|reflexivity].
  - destruct (numeral_alnum n z D) as [A N]. cbn [piece_text first]. destruct (numeral_text n) as [|c r]; [congruence|].
    exists c, r. split; [reflexivity|]. cbn [forallb] in A. apply andb_true_iff in A. apply A.
Qed.

Lemma first_apart c :
  (if existsb (Ascii.eqb c) blanks then negb (Ascii.eqb c slash) && negb (Ascii.eqb c ",") && negb (alnum c) else true)
  && (if Ascii.eqb c slash then negb (Ascii.eqb c ",") && negb (alnum c) else true)
  && (if Ascii.eqb c "," then negb (alnum c) else true) = true.
Proof. revert c. apply for_ascii. vm_compute. reflexivity. Qed.

Lemma render_ends p r : Forall well (p :: r) -> apart (p :: r) -> is_number p = true -> ends (render r).
Proof.
  intros W A N. apply apart_cons in A. destruct A as [A _]. specialize (A N).
  destruct r as [|q r]; [exact I|]. inversion W as [|? ? _ W']; subst. inversion W' as [|? ? Q _]; subst.
  destruct (first_ok q Q) as [c [t [E F]]]. unfold render. cbn [flat_map]. rewrite E. cbn [app ends].
  pose proof (first_apart c) as X.
  destruct q; cbn [is_number first] in *; try discriminate A; rewrite F in X;
    destruct (alnum c); auto; rewrite ?andb_false_r in X; discriminate X.
Qed.

Lemma numeral_text_one n z n' z' : denotes n z -> denotes n' z' -> numeral_text n = numeral_text n' -> n = n'.
Proof.
  assert (X : forall u ds ds' y y', denotes (Hexa u ds) y -> denotes (Decimal ds') y' -> numeral_text (Hexa u ds) <> ds').
  { intros u ds ds' y y' _ [_ P] <-. cbn [numeral_text positional] in P. cbn in P. destruct u; cbn in P; discriminate P. }
  destruct n as [u ds|ds], n' as [u' ds'|ds']; intros D D' E.
  - cbn [numeral_text] in E. injection E as E1 ->. destruct u, u'; try discriminate E1; reflexivity.
  - exfalso. eapply X; eauto.
  - exfalso. symmetry in E. eapply X; eauto.
  - cbn [numeral_text] in E. congruence.
Qed.

Lemma piece_one p r p' r' :
  Forall well (p :: r) -> apart (p :: r) -> Forall well (p' :: r') -> apart (p' :: r') ->
  render (p :: r) = render (p' :: r') -> p = p' /\ render r = render r'.
Proof.
  intros W A W' A' E. pose proof (Forall_inv W) as P. pose proof (Forall_inv W') as P'.
  change (piece_text p ++ render r = piece_text p' ++ render r') in E.
  assert (H : exists c, first p c = true /\ first p' c = true).
  { destruct (first_ok p P) as [c [t [T F]]], (first_ok p' P') as [c' [t' [T' F']]].
    rewrite T, T' in E. injection E as <- _. exists c. auto. }
  destruct H as [c [F F']]. pose proof (first_apart c) as X.
  assert (NG : forall n, ~ gap (Number n)) by (intros n []).
  destruct p as [c1|b|b| |n], p' as [c2|b'|b'| |n']; cbn [first] in F, F'; rewrite ?F, ?F' in X;
    try (exfalso; cbn in X; rewrite ?andb_false_r in X; discriminate X);
    try (exfalso; destruct (existsb (Ascii.eqb c) blanks), (Ascii.eqb c slash), (Ascii.eqb c ","), (alnum c); discriminate);
    cbn [piece_text app] in E.
  - injection E as -> E. auto.
  - injection E as E. rewrite <- !app_assoc in E. cbn [app] in E.
    destruct P as [P|[P|[? [? [P _]]]]]; try discriminate P. destruct P' as [P'|[P'|[? [? [P' _]]]]]; try discriminate P'.
    apply line_end in E; [|exact P|exact P']. destruct E as [-> ->]. auto.
  - injection E as E. rewrite <- !app_assoc in E. cbn [app] in E.
    destruct P as [P|[P|[? [? [P _]]]]]; try discriminate P. destruct P' as [P'|[P'|[? [? [P' _]]]]]; try discriminate P'.
    apply (block_end b b' (render r) (render r') P P') in E. destruct E as [-> ->]. auto.
  - injection E as E. auto.
  - pose proof (render_ends _ _ W A eq_refl) as R. pose proof (render_ends _ _ W' A' eq_refl) as R'.
    destruct P as [P|[P|[? [z [P D]]]]]; [destruct (NG _ P)|discriminate P|]. injection P as <-.
    destruct P' as [P'|[P'|[? [z' [P' D']]]]]; [destruct (NG _ P')|discriminate P'|]. injection P' as <-.
    apply word_end in E; auto; [|eapply numeral_alnum; eauto|eapply numeral_alnum; eauto].
    destruct E as [E ->]. split; [|reflexivity]. f_equal. eapply numeral_text_one; eauto.
Qed.

Lemma render_one ps : forall qs, Forall well ps -> apart ps -> Forall well qs -> apart qs ->
  render ps = render qs -> ps = qs.
Proof.
  assert (NE : forall p r, Forall well (p :: r) -> render (p :: r) <> []).
  { intros p r W. destruct (first_ok p (Forall_inv W)) as [c [t [T _]]].
    change (piece_text p ++ render r <> []). rewrite T. discriminate. }
  induction ps as [|p ps IH]; intros [|q qs] W A W' A' E; auto.
  - exfalso. exact (NE _ _ W' (eq_sym E)).
  - exfalso. exact (NE _ _ W E).
  - destruct (piece_one _ _ _ _ W A W' A' E) as [-> E']. f_equal.
    apply apart_cons in A, A'. apply IH; try (eapply Forall_inv_tail; eassumption); try apply A; try apply A'. exact E'.
Qed.

Lemma c_bytes_one t zs zs' : c_bytes t zs -> c_bytes t zs' -> zs = zs'.
Proof.
  intros [ps [E [C _]]] [qs [E' [C' _]]]. subst t.
  destruct (c_list_well _ _ C) as [W A], (c_list_well _ _ C') as [W' A'].
  pose proof (render_one ps qs W A W' A' E') as ->.
  eapply denotes_all; eapply c_list_numerals; eassumption.
Qed.

(** C75: the only reading *)
Lemma c75_only l b t zs :
  serialize l = Ok b -> Forall (fun i => no_nl (str (item_str i))) l -> format_code l = Ok t ->
  c_bytes t zs -> zs = b.
Proof. intros S N H C. destruct (c75 l b t S N H) as [C' _]. eapply c_bytes_one; eauto. Qed.

Lemma c75_total l b : serialize l = Ok b -> exists t, format_code l = Ok t.
Proof.
  intros S. destruct (code_run_total l 0 b S) as [m [lines R]]. exists (concat lines).
  unfold format_code. rewrite R. reflexivity.
Qed.

Lemma c75_converter db b out :
  clean_db not_nl db -> convert db b = Ok out ->
  exists t, format_code (appended (blob_parse db b)) = Ok t /\ c_bytes t out /\ ~ continued t /\
    forall zs, c_bytes t zs -> zs = out.
Proof.
  intros D H. unfold convert in H.
  destruct (serialize _) as [o|] eqn:S; [|discriminate]. cbn [bind] in H.
  destruct (finished _); [|discriminate]. injection H as <-.
  assert (N : Forall (fun i => no_nl (str (item_str i))) (appended (blob_parse db b))).
  { eapply Forall_impl; [|apply (clean_blob not_nl not_nl_printable); exact D]. intros i C. apply clean_no_nl, clean_item; [exact not_nl_printable|exact C]. }
  destruct (c75_total _ _ S) as [t T]. destruct (c75 _ _ _ S N T) as [C Q].
  exists t. repeat split; auto. intros zs. eapply c75_only; eauto.
Qed.
