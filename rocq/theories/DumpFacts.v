(* DumpFacts.v -- reading the pieces of a dumped script *)
From Coq Require Import ZifyBool ZifyNat DecimalString DecimalPos DecimalN DecimalZ.
From Verif Require Import Py Usage Item Parser Descriptor TextFormats UsageTable UsageModules Dumper PyExpr TableProofs.
From Verif Require TextProofs.
Local Open Scope list_scope.
Local Open Scope Z_scope.
Ltac Zify.zify_post_hook ::= Z.div_mod_to_equations.

(* ------------------------------------------------------------------ *)
(** reading inside brackets *)

Definition framed (k : list ctx) : Prop := match k with [] => True | x :: _ => bracket x = true end.

Lemma reduce_frame k : framed k -> forall k0 e, reduce (k0 ++ k) e = (fst (reduce k0 e) ++ k, snd (reduce k0 e)).
Proof.
  intros F. induction k0 as [|x k0 IH]; intros e.
  - cbn [app reduce fst snd]. destruct k as [|[| | | |] k]; try discriminate F; reflexivity.
  - destruct x; cbn [app reduce fst snd]; try reflexivity; apply IH.
Qed.

Lemma end_word_frame k w k0 c w' k1 c' : framed k -> end_word (Rd w k0 c) = Some (Rd w' k1 c') ->
  end_word (Rd w (k0 ++ k) c) = Some (Rd w' (k1 ++ k) c').
Proof.
  intros F H. unfold end_word in *. cbn [rd_word rd_open rd_cur] in *. destruct w as [|a w]; [injection H as <- <- <-; reflexivity|].
  destruct (word (a :: w)) as [e|]; [|discriminate H]. destruct c as [c|]; [destruct e; discriminate H|].
  destruct k0 as [|x k0].
  - cbn [app]. destruct e; injection H as <- <- <-; destruct k as [|[| | | |] k]; try discriminate F; reflexivity.
  - cbn [app]. destruct e, x; try discriminate H; injection H as <- <- <-; reflexivity.
Qed.

Lemma symbol_frame k c s s' : framed k -> symbol c s = Some s' ->
  symbol c (Rd (rd_word s) (rd_open s ++ k) (rd_cur s)) = Some (Rd (rd_word s') (rd_open s' ++ k) (rd_cur s')).
Proof.
  intros F H. destruct s as [w k0 [e|]]; unfold symbol in *; cbn [rd_word rd_open rd_cur] in *.
  - destruct (Ascii.eqb c "."); [injection H as <-; reflexivity|].
    destruct (Ascii.eqb c "("); [injection H as <-; reflexivity|].
    rewrite (reduce_frame k F k0 e). destruct (reduce k0 e) as [k1 e1]. cbn [fst snd].
    destruct (Ascii.eqb c "|"); [injection H as <-; reflexivity|].
    destruct (Ascii.eqb c "=").
    { destruct e; try discriminate H. destruct k0 as [|[f args [kw|]| | | |] k0]; try discriminate H. injection H as <-. reflexivity. }
    destruct (Ascii.eqb c ","); [|destruct (Ascii.eqb c ")"); [|destruct (Ascii.eqb c "]"); [|discriminate H]]].
    all: destruct k1 as [|[f args kw|l| | |] k1]; try discriminate H; injection H as <-; reflexivity.
  - destruct (Ascii.eqb c "-"); [injection H as <-; reflexivity|].
    destruct (Ascii.eqb c "["); [injection H as <-; reflexivity|].
    destruct (Ascii.eqb c ")"); [|destruct (Ascii.eqb c "]"); [|discriminate H]].
    all: destruct k0 as [|[f args [kw|]|l| | |] k0]; try discriminate H; injection H as <-; reflexivity.
Qed.

Lemma read_frame k : framed k -> forall t s s', read s t = Some s' ->
  read (Rd (rd_word s) (rd_open s ++ k) (rd_cur s)) t = Some (Rd (rd_word s') (rd_open s' ++ k) (rd_cur s')).
Proof.
  intros F. induction t as [|c t IH]; intros s s' H; cbn [read] in *; [injection H as <-; reflexivity|].
  destruct (read_char s c) as [s1|] eqn:E; [|discriminate H]. specialize (IH s1 s' H).
  assert (R : read_char (Rd (rd_word s) (rd_open s ++ k) (rd_cur s)) c = Some (Rd (rd_word s1) (rd_open s1 ++ k) (rd_cur s1))).
  { unfold read_char in *. destruct (is_word c); [injection E as <-; reflexivity|].
    destruct s as [w k0 cu]. cbn [rd_word rd_open rd_cur] in *. destruct (end_word (Rd w k0 cu)) as [[w2 k2 c2]|] eqn:EW; [|discriminate E].
    rewrite (end_word_frame k _ _ _ _ _ _ F EW). cbn [rd_open] in *.
    destruct (Ascii.eqb c " "); [injection E as <-; reflexivity|].
    destruct (Ascii.eqb c nl); [|apply (symbol_frame k c (Rd w2 k2 c2) s1 F E)].
    rewrite existsb_app. destruct (existsb bracket k2); [|discriminate E]. injection E as <-. reflexivity. }
  rewrite R. exact IH.
Qed.

Lemma read_app a : forall s b, read s (a ++ b) = match read s a with Some s1 => read s1 b | None => None end.
Proof. induction a as [|c a IH]; intros s b; [reflexivity|]. cbn [app read]. destruct (read_char s c); [apply IH|reflexivity]. Qed.

(** an expression where one is expected *)
Definition pending (k : list ctx) (e : expr) (s : rd) : Prop :=
  exists k1 e1, end_word s = Some (Rd [] k1 (Some e1)) /\ reduce k1 e1 = reduce k e.

Lemma expression_pending t e k : framed k -> expression t = Some e -> exists s, read (Rd [] k None) t = Some s /\ pending k e s.
Proof.
  intros F H. unfold expression in H. destruct (read rd_init t) as [s|] eqn:R; [|discriminate H].
  destruct (end_word s) as [[w1 k1 [e1|]]|] eqn:E; try discriminate H.
  pose proof (read_frame k F t _ _ R) as R2. cbn [rd_init rd_word rd_open rd_cur app] in R2. eexists. split; [exact R2|].
  destruct s as [w0 k0 c0]. cbn [rd_word rd_open rd_cur] in *. pose proof (end_word_frame k _ _ _ _ _ _ F E) as E2.
  assert (w1 = []). { unfold end_word in E. cbn [rd_word rd_open rd_cur] in E. destruct w0; [congruence|]. destruct (word _) as [x|]; [|discriminate E].
    destruct x, c0; try discriminate E; destruct k0 as [|[| | | |] k0]; try discriminate E; congruence. }
  subst w1. exists (k1 ++ k), e1. split; [exact E2|]. rewrite (reduce_frame k F k1 e1). destruct (reduce k1 e1) as [[|x k2] e2]; [|discriminate H].
  injection H as ->. cbn [fst snd app]. destruct k as [|[| | | |] k]; try discriminate F; reflexivity.
Qed.

Lemma pending_comma f args kw k e s : pending (XArgs f args kw :: k) e s ->
  read_char s ","%char = Some (Rd [] (XArgs f (args ++ [(kw, e)]) None :: k) None).
Proof. intros [k1 [e1 [E R]]]. unfold read_char. change (is_word ",") with false. rewrite E. cbn [Ascii.eqb Bool.eqb symbol rd_cur rd_open]. 
  change (Ascii.eqb "," " ") with false. change (Ascii.eqb "," nl) with false. cbv iota. unfold symbol. cbn [rd_cur rd_open]. rewrite R. reflexivity. Qed.

Lemma pending_close f args kw k e s : pending (XArgs f args kw :: k) e s ->
  read_char s ")"%char = Some (Rd [] k (Some (ECall f (args ++ [(kw, e)])))).
Proof. intros [k1 [e1 [E R]]]. unfold read_char. change (is_word ")") with false. rewrite E.
  change (Ascii.eqb ")" " ") with false. change (Ascii.eqb ")" nl) with false. cbv iota. unfold symbol. cbn [rd_cur rd_open]. rewrite R. reflexivity. Qed.

Lemma pending_item l k e s : pending (XItems l :: k) e s -> read_char s ","%char = Some (Rd [] (XItems (l ++ [e]) :: k) None).
Proof. intros [k1 [e1 [E R]]]. unfold read_char. change (is_word ",") with false. rewrite E.
  change (Ascii.eqb "," " ") with false. change (Ascii.eqb "," nl) with false. cbv iota. unfold symbol. cbn [rd_cur rd_open]. rewrite R. reflexivity. Qed.

(** spaces and new lines between things *)
Lemma read_spaces n k c t : read (Rd [] k c) (repeat " "%char n ++ t) = read (Rd [] k c) t.
Proof. induction n as [|n IH]; [reflexivity|]. exact IH. Qed.

Lemma read_space k c t : read (Rd [] k c) (" "%char :: t) = read (Rd [] k c) t.
Proof. reflexivity. Qed.

Lemma read_line k c t : existsb bracket k = true -> read (Rd [] k c) (nl :: t) = read (Rd [] k c) t.
Proof. intros H. cbn [read]. unfold read_char. change (is_word nl) with false. cbn [end_word rd_word]. change (Ascii.eqb nl " ") with false. change (Ascii.eqb nl nl) with true. cbv iota.
  cbn [rd_open]. rewrite H. reflexivity. Qed.

(** arguments *)
Lemma read_arg t e f args kw k r : expression t = Some e ->
  read (Rd [] (XArgs f args kw :: k) None) (t ++ ","%char :: r) = read (Rd [] (XArgs f (args ++ [(kw, e)]) None :: k) None) r.
Proof.
  intros E. destruct (expression_pending t e (XArgs f args kw :: k) eq_refl E) as [s [R P]]. rewrite read_app, R. cbn [read].
  rewrite (pending_comma _ _ _ _ _ _ P). reflexivity.
Qed.

Lemma read_last t e f args kw k r : expression t = Some e ->
  read (Rd [] (XArgs f args kw :: k) None) (t ++ ")"%char :: r) = read (Rd [] k (Some (ECall f (args ++ [(kw, e)])))) r.
Proof.
  intros E. destruct (expression_pending t e (XArgs f args kw :: k) eq_refl E) as [s [R P]]. rewrite read_app, R. cbn [read].
  rewrite (pending_close _ _ _ _ _ _ P). reflexivity.
Qed.

Lemma read_word w : forallb is_word w = true -> forall p k c t, read (Rd p k c) (w ++ t) = read (Rd (p ++ w) k c) t.
Proof.
  induction w as [|a w IH]; intros H p k c t; [rewrite app_nil_r; reflexivity|]. cbn [forallb] in H. apply andb_true_iff in H. destruct H as [H1 H2].
  cbn [app read]. unfold read_char. rewrite H1. cbn [rd_word rd_open rd_cur]. rewrite IH by exact H2. rewrite <- app_assoc. reflexivity.
Qed.

(** ", name = " *)
Definition good_name (n : string) : Prop := forallb is_word (str n) = true /\ word (str n) = Some (EName n).

Lemma read_keyword n f args k t : good_name n ->
  read (Rd [] (XArgs f args None :: k) None) (str " " ++ str n ++ str " = " ++ t) = read (Rd [] (XArgs f args (Some n) :: k) None) t.
Proof.
  intros [G1 G2]. change (str " ") with [" "%char]. cbn [app]. rewrite read_space. rewrite (read_word _ G1). cbn [app].
  change (str " = ") with [" "%char; "="%char; " "%char]. cbn [app read].
  assert (E : end_word (Rd (str n) (XArgs f args None :: k) None) = Some (Rd [] (XArgs f args None :: k) (Some (EName n)))).
  { unfold end_word. cbn [rd_word rd_open rd_cur]. destruct (str n) as [|x y]; [discriminate G2|]. rewrite G2. reflexivity. }
  unfold read_char at 1. change (is_word " ") with false. rewrite E. change (Ascii.eqb " " " ") with true. cbv iota. reflexivity.
Qed.

(** the keywords of a call after its last positional argument *)
Definition kw_text (x : string * text * expr) : text := keyword (fst (fst x)) (snd (fst x)).
Definition kw_ok (x : string * text * expr) : Prop := good_name (fst (fst x)) /\ expression (snd (fst x)) = Some (snd x).
Definition kw_arg (x : string * text * expr) : option string * expr := (Some (fst (fst x)), snd x).

Lemma read_kws l : Forall kw_ok l -> forall t e f args kw k r, expression t = Some e ->
  read (Rd [] (XArgs f args kw :: k) None) (t ++ flat_map kw_text l ++ ")"%char :: r) =
  read (Rd [] k (Some (ECall f (args ++ (kw, e) :: map kw_arg l)))) r.
Proof.
  induction 1 as [|[[n t1] e1] l [G E1] F IH]; intros t e f args kw k r E.
  - cbn [flat_map app map]. apply read_last. exact E.
  - cbn [flat_map map fst snd] in *. unfold kw_text at 1, keyword. unfold kw_arg at 1. cbn [fst snd]. rewrite <- !app_assoc. change (str ", ") with (","%char :: str " "). cbn [app].
    rewrite (read_arg t e) by exact E. rewrite read_keyword by exact G. rewrite (IH t1 e1) by exact E1. rewrite <- app_assoc. reflexivity.
Qed.

(** members, each on its line *)
Definition member_text (n : nat) (t : text) : text := indentation n ++ t ++ str "," ++ line.

Lemma read_members n l : forall f args k r, Forall (fun x => expression (fst x) = Some (snd x)) l ->
  read (Rd [] (XArgs f args None :: k) None) (flat_map (fun x => member_text n (fst x)) l ++ r) =
  read (Rd [] (XArgs f (args ++ map (fun x => (None, snd x)) l) None :: k) None) r.
Proof.
  induction l as [|[t e] l IH]; intros f args k r F; cbn [flat_map map app]; [rewrite app_nil_r; reflexivity|].
  inversion F as [|? ? E F']; subst. cbn [fst snd] in *. unfold member_text at 1, indentation. rewrite <- !app_assoc. rewrite read_spaces.
  change (str ",") with [","%char]. cbn [app]. rewrite (read_arg t e) by exact E. unfold line. cbn [app]. rewrite read_line by reflexivity.
  rewrite IH by exact F'. rewrite <- app_assoc. reflexivity.
Qed.

(** a call is an expression *)
Lemma expression_call t e : read rd_init t = Some (Rd [] [] (Some e)) -> expression t = Some e.
Proof. intros H. unfold expression. rewrite H. reflexivity. Qed.

(** a list, each element on its line *)
Lemma expression_list n l : Forall (fun x => expression (fst x) = Some (snd x)) l ->
  expression (str "[" ++ line ++ flat_map (fun x => indentation n ++ fst x ++ str "," ++ line) l ++ indentation n ++ str "]") = Some (EList (map snd l)).
Proof.
  intros F. apply expression_call. change (str "[") with ["["%char]. cbn [app]. change (read rd_init ("["%char :: ?t)) with (read (Rd [] [XItems []] None) t).
  unfold line at 1. cbn [app]. rewrite read_line by reflexivity.
  assert (G : forall l acc r, Forall (fun x => expression (fst x) = Some (snd x)) l ->
    read (Rd [] [XItems acc] None) (flat_map (fun x => indentation n ++ fst x ++ str "," ++ line) l ++ r) = read (Rd [] [XItems (acc ++ map snd l)] None) r).
  { clear. induction l as [|[t e] l IH]; intros acc r F; cbn [flat_map map app]; [rewrite app_nil_r; reflexivity|].
    inversion F as [|? ? E F']; subst. cbn [fst snd] in *. unfold indentation at 1. rewrite <- !app_assoc. rewrite read_spaces. change (str ",") with [","%char]. cbn [app].
    destruct (expression_pending t e [XItems acc] eq_refl E) as [s [R P]]. rewrite read_app, R. cbn [read]. rewrite (pending_item _ _ _ _ P).
    unfold line at 1. cbn [app]. rewrite read_line by reflexivity. rewrite IH by exact F'. rewrite <- app_assoc. reflexivity. }
  rewrite G by exact F. unfold indentation. rewrite read_spaces. reflexivity.
Qed.

(* ------------------------------------------------------------------ *)
(** words *)

Lemma expression_word w e : forallb is_word w = true -> word w = Some e -> expression w = Some e.
Proof.
  intros H W. unfold expression. rewrite <- (app_nil_r w) at 1. unfold rd_init. rewrite (read_word w H). cbn [app read].
  unfold end_word. cbn [rd_word rd_open rd_cur]. destruct w as [|x y]; [discriminate W|]. rewrite W. destruct e; reflexivity.
Qed.

Definition digits (t : text) : bool := forallb (between 48 57) t.

Lemma digits_uint d : digits (str (NilEmpty.string_of_uint d)) = true.
Proof. induction d; [reflexivity|..]; unfold digits, str in *; cbn [NilEmpty.string_of_uint list_ascii_of_string forallb]; rewrite IHd; reflexivity. Qed.

Lemma dec_uint z : 0 <= z -> exists d, dec_of_Z z = NilEmpty.string_of_uint d /\ Z.of_uint d = z /\ d <> Decimal.Nil.
Proof.
  intros H. pose proof (DecimalZ.of_to z) as O. unfold dec_of_Z. unfold Z.to_int in *. destruct z as [|p|p]; [| |lia].
  - exists (Decimal.D0 Decimal.Nil). repeat split; try discriminate.
  - exists (Pos.to_uint p). cbn [NilZero.string_of_int Z.of_int] in *. split; [|split; [exact O|]].
    + unfold NilZero.string_of_uint. destruct (Pos.to_uint p) eqn:E; try reflexivity. cbn in O. discriminate O.
    + intros E. rewrite E in O. cbn in O. discriminate O.
Qed.

Lemma str_back s : string_of_list_ascii (str s) = s.
Proof. apply string_of_list_ascii_of_string. Qed.

Lemma between_digit c : between 48 57 c = true -> is_word c = true /\ (code c =? 120) = false /\ is_letter c = false.
Proof.
  intros H. pose proof (TextProofs.for_ascii (fun c => implb (between 48 57 c) (is_word c && negb (code c =? 120) && negb (is_letter c)))) as F.
  specialize (F ltac:(vm_compute; reflexivity) c). cbv beta in F. rewrite H in F. cbn [implb] in F. apply andb_true_iff in F. destruct F as [F F3]. apply andb_true_iff in F. destruct F as [F1 F2].
  apply negb_true_iff in F2, F3. auto.
Qed.

Lemma digits_word t : digits t = true -> forallb is_word t = true.
Proof. unfold digits. rewrite !forallb_forall. intros H x I. apply between_digit. auto. Qed.

Lemma word_dec z : 0 <= z -> word (str (dec_of_Z z)) = Some (ENum z) /\ digits (str (dec_of_Z z)) = true.
Proof.
  intros H. destruct (dec_uint z H) as [d [E [O N]]]. pose proof (digits_uint d) as D. rewrite <- E in D. split; [|exact D].
  assert (X : dec_number (str (dec_of_Z z)) = Some z).
  { unfold dec_number. rewrite str_back, E, NilEmpty.usu. cbv zeta. rewrite O, E, String.eqb_refl. reflexivity. }
  destruct (str (dec_of_Z z)) as [|c r] eqn:S.
  { rewrite E in S. destruct d; try discriminate S. contradiction. }
  unfold digits in D. cbn [forallb] in D. apply andb_true_iff in D. destruct D as [D1 D2]. unfold word. rewrite D1.
  destruct r as [|x [|y r]]; try (rewrite X; reflexivity). cbn [forallb] in D2. apply andb_true_iff in D2. destruct D2 as [D2 _].
  destruct (between_digit x D2) as [_ [-> _]]. rewrite andb_false_r, X. reflexivity.
Qed.

Lemma expression_dec z : exists e, expression (show_int z) = Some e /\ eval e = Some (OVal (VInt z)).
Proof.
  destruct (Z.leb_spec 0 z) as [H|H].
  - exists (ENum z). split; [|reflexivity]. destruct (word_dec z H) as [W D]. apply expression_word; [apply digits_word; exact D|exact W].
  - exists (ENeg (ENum (- z))). split; [|cbn [eval]; do 3 f_equal; lia].
    assert (S : show_int z = "-"%char :: str (dec_of_Z (- z))). { unfold show_int, dec_of_Z. destruct z; try lia. reflexivity. }
    rewrite S. destruct (word_dec (- z) ltac:(lia)) as [W D]. unfold expression.
    change (read rd_init ("-"%char :: ?t)) with (read (Rd [] [XNeg] None) t).
    rewrite <- (app_nil_r (str _)) at 1. rewrite (read_word _ (digits_word _ D)). cbn [app read].
    unfold end_word. cbn [rd_word rd_open rd_cur]. destruct (str (dec_of_Z (- z))); [discriminate W|]. rewrite W. reflexivity.
Qed.

Lemma hexdigit_ok d : 0 <= d < 16 -> is_hex (hexdigit d) = true /\ hex_val (hexdigit d) = d.
Proof.
  intros H. assert (F : forallb (fun d => is_hex (hexdigit d) && (hex_val (hexdigit d) =? d)) (zrange 0 16) = true) by (vm_compute; reflexivity).
  rewrite forallb_forall in F. specialize (F d). assert (I : In d (zrange 0 16)). { unfold zrange. apply in_map_iff. exists (Z.to_nat d). split; [lia|]. apply in_seq. lia. }
  specialize (F I). apply andb_true_iff in F. destruct F as [F1 F2]. split; [exact F1|apply Z.eqb_eq; exact F2].
Qed.

Lemma hex_number_fuel n : forall z acc, 0 <= z < 2 ^ Z.of_nat n -> forallb is_hex (str acc) = true ->
  hex_number 0 (str (hex_digits_fuel n z acc)) = hex_number z (str acc) /\ forallb is_hex (str (hex_digits_fuel n z acc)) = true.
Proof.
  induction n as [|n IH]; intros z acc H A.
  - cbn [hex_digits_fuel]. assert (z = 0) by (change (2 ^ Z.of_nat 0) with 1 in H; lia). subst z. auto.
  - cbn [hex_digits_fuel]. cbv zeta. destruct (hexdigit_ok (z mod 16) ltac:(lia)) as [X1 X2].
    assert (A' : forallb is_hex (str (String (hexdigit (z mod 16)) acc)) = true).
    { change (is_hex (hexdigit (z mod 16)) && forallb is_hex (str acc) = true). rewrite X1, A. reflexivity. }
    assert (HS : forall a, hex_number a (str (String (hexdigit (z mod 16)) acc)) = hex_number (16 * a + z mod 16) (str acc)).
    { intros a. change (str (String ?c acc)) with (c :: str acc). cbn [hex_number]. rewrite X1, X2. reflexivity. }
    destruct (z / 16 =? 0) eqn:E.
    + split; [|exact A']. rewrite HS. f_equal. lia.
    + replace (Z.of_nat (S n)) with (Z.of_nat n + 1) in H by lia. rewrite Z.pow_add_r in H by lia.
      destruct (IH (z / 16) (String (hexdigit (z mod 16)) acc) ltac:(lia) A') as [I1 I2]. split; [|exact I2]. rewrite I1, HS. f_equal. lia.
Qed.

Lemma hex_of_word z : 0 <= z -> expression (str (hex_of_Z z)) = Some (ENum z).
Proof.
  intros H. unfold hex_of_Z. replace (z <? 0) with false by lia. unfold hex_digits.
  assert (B : 0 <= z < 2 ^ Z.of_nat (S (Z.to_nat (Z.log2 z)))).
  { split; [lia|]. pose proof (Z.log2_nonneg z). destruct (Z.eq_dec z 0) as [->|N]; [reflexivity|]. pose proof (Z.log2_spec z ltac:(lia)).
    replace (Z.of_nat (S (Z.to_nat (Z.log2 z)))) with (Z.succ (Z.log2 z)) by lia. lia. }
  destruct (hex_number_fuel _ z EmptyString B eq_refl) as [I1 I2].
  assert (N : hex_digits_fuel (S (Z.to_nat (Z.log2 z))) z EmptyString <> EmptyString).
  { cbn [hex_digits_fuel]. cbv zeta. destruct (z / 16 =? 0); [discriminate|].
    assert (G : forall n z acc, acc <> EmptyString -> hex_digits_fuel n z acc <> EmptyString).
    { clear. induction n as [|n IH]; intros z acc A; [exact A|]. cbn [hex_digits_fuel]. cbv zeta. destruct (z / 16 =? 0); [discriminate|]. apply IH. discriminate. }
    apply G. discriminate. }
  change (str ("0x" ++ hex_digits_fuel (S (Z.to_nat (Z.log2 z))) z "")) with ("0"%char :: "x"%char :: str (hex_digits_fuel (S (Z.to_nat (Z.log2 z))) z "")).
  destruct (str (hex_digits_fuel (S (Z.to_nat (Z.log2 z))) z "")) as [|d r] eqn:E.
  { destruct (hex_digits_fuel _ z "") eqn:E2; [contradiction|discriminate E]. }
  apply expression_word.
  - change (forallb is_word (d :: r) = true). rewrite forallb_forall in *. intros x I. apply TextProofs.hex_word. auto.
  - unfold word. change (between 48 57 "0") with true. change ((code "0" =? 48) && (code "x" =? 120)) with true. cbv iota. rewrite I1. reflexivity.
Qed.
