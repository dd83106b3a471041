(* HutProofs.v -- C74: the constants against the HID Usage Tables *)
From Coq Require Import ZArith List Bool String Lia.
From Verif Require Import Py Usage UsageTable UsageModules TableProofs HutSpec.
Import ListNotations.
Local Open Scope list_scope.
Local Open Scope Z_scope.

#[local] Opaque t_arcade modules default_db hut.

(** ** numbers, by computation *)
Fixpoint in_names (a : string) (i : Z) (l : list string) : option Z :=
  match l with
  | [] => None
  | x :: r => if String.eqb x a then Some i else in_names a (i + 1) r
  end.

Fixpoint in_runs (a : string) (l : list (Z * list string)) : option Z :=
  match l with
  | [] => None
  | (s, ns) :: r => match in_names a s ns with Some i => Some i | None => in_runs a r end
  end.

Definition number_in (t : list (string * (Z * list (Z * list string)))) (m a : string) : option Z :=
  match find (fun e => String.eqb (fst e) m) t with
  | Some (_, (p, runs)) => match in_runs a runs with Some i => Some (p * 65536 + i) | None => None end
  | None => None
  end.

Lemma in_names_some a l : forall i n, in_names a i l = Some n ->
  exists k, nth_error l k = Some a /\ n = i + Z.of_nat k.
Proof.
  induction l as [|x r IH]; intros i n H; [discriminate|]. cbn [in_names] in H.
  destruct (String.eqb x a) eqn:E.
  - apply String.eqb_eq in E. injection H as <-. exists 0%nat. split; [cbn; congruence|lia].
  - apply IH in H. destruct H as [k [K E']]. exists (S k). split; [exact K|lia].
Qed.

Lemma in_runs_some a l n : in_runs a l = Some n ->
  exists s ns k, In (s, ns) l /\ nth_error ns k = Some a /\ n = s + Z.of_nat k.
Proof.
  induction l as [|[s ns] r IH]; intros H; [discriminate|]. cbn [in_runs] in H.
  destruct (in_names a s ns) as [i|] eqn:E.
  - injection H as <-. apply in_names_some in E. destruct E as [k [K E]].
    exists s, ns, k. split; [left; reflexivity|split; assumption].
  - destruct (IH H) as [s' [ns' [k [I Q]]]]. exists s', ns', k. split; [right; exact I|exact Q].
Qed.

Lemma number_in_sound m a n : number_in hut m a = Some n -> hut_number m a n.
Proof.
  unfold number_in. intros H. destruct (find _ hut) as [[q [p runs]]|] eqn:F; [|discriminate].
  apply find_some in F. destruct F as [I E]. cbn [fst] in E. apply String.eqb_eq in E. subst q.
  destruct (in_runs a runs) as [i|] eqn:R; [|discriminate]. injection H as <-.
  apply in_runs_some in R. destruct R as [s [ns [k [J [K E]]]]].
  exists p, runs, s, ns, k. repeat split; auto. lia.
Qed.

(** ** every usage of the standard's list *)
Fixpoint numbered_from {A} (i : Z) (l : list A) : list (Z * A) :=
  match l with [] => [] | x :: r => (i, x) :: numbered_from (i + 1) r end.

Lemma in_numbered {A} (l : list A) : forall i k x,
  nth_error l k = Some x -> In (i + Z.of_nat k, x) (numbered_from i l).
Proof.
  induction l as [|y r IH]; intros i k x H; [destruct k; discriminate|].
  destruct k as [|k]; cbn [nth_error numbered_from] in *.
  - left. injection H as <-. f_equal. lia.
  - right. replace (i + Z.of_nat (S k)) with (i + 1 + Z.of_nat k) by lia. apply IH, H.
Qed.

Definition usages_of (t : list (string * (Z * list (Z * list string)))) : list (string * string * Z) :=
  flat_map (fun e => flat_map (fun r => map (fun q => (fst e, snd q, fst (snd e) * 65536 + fst q))
    (numbered_from (fst r) (snd r))) (snd (snd e))) t.

Lemma in_usages m a n : hut_number m a n -> In (m, a, n) (usages_of hut).
Proof.
  intros [p [runs [s [ns [k [I [J [K ->]]]]]]]]. unfold usages_of. apply in_flat_map.
  exists (m, (p, runs)). split; [exact I|]. cbn [fst snd]. apply in_flat_map.
  exists (s, ns). split; [exact J|]. cbn [fst snd]. apply in_map_iff.
  exists (s + Z.of_nat k, a). split; [cbn [fst snd]; f_equal; lia|]. apply in_numbered, K.
Qed.

Definition unique_ok (t : list (string * (Z * list (Z * list string)))) : bool :=
  forallb (fun u => match number_in t (fst (fst u)) (snd (fst u)) with
                    | Some n => n =? snd u | None => false end) (usages_of t).

Lemma unique_ok_true : unique_ok hut = true.
Proof. vm_compute. reflexivity. Qed.

Lemma number_in_complete m a n : hut_number m a n -> number_in hut m a = Some n.
Proof.
  intros H. apply in_usages in H. pose proof unique_ok_true as T. unfold unique_ok in T.
  rewrite forallb_forall in T. specialize (T _ H). cbn [fst snd] in T.
  destruct (number_in hut m a); [|discriminate]. apply Z.eqb_eq in T. congruence.
Qed.

Lemma hut_number_unique m a n n' : hut_number m a n -> hut_number m a n' -> n = n'.
Proof. intros H H'. apply number_in_complete in H, H'. congruence. Qed.

(** ** the constants *)
Definition no_claim : list (string * string) :=
  [("led", "PlayerIndicator"); ("led", "Player1"); ("led", "Player2"); ("led", "Player3"); ("led", "Player4");
   ("led", "Player5"); ("led", "Player6"); ("led", "Player7"); ("led", "Player8")]%string.

Definition undefined : list (string * string) := [("led", "IndicatorGreen"); ("led", "GenericIndicator")]%string.

Lemma existsb_pair m a l : existsb (pair_eqb (m, a)) l = true <-> In (m, a) l.
Proof.
  rewrite existsb_exists. split.
  - intros [[x y] [I E]]. unfold pair_eqb in E. cbn [fst snd] in E.
    apply andb_true_iff in E. destruct E as [E1 E2].
    apply String.eqb_eq in E1. apply String.eqb_eq in E2. congruence.
  - intros I. exists (m, a). split; [exact I|]. unfold pair_eqb. cbn [fst snd].
    rewrite !String.eqb_refl. reflexivity.
Qed.

Definition counted (m : string) : bool := String.eqb m "button" || String.eqb m "ordinal".

Definition numbers_ok (ms : list (string * list udecl)) : bool :=
  forallb (fun e => if counted (fst e) then true else
    forallb (fun d => if existsb (pair_eqb (fst e, u_attr d)) no_claim then true else
      match number_in hut (fst e) (u_attr d) with
      | Some n => Bool.eqb (u_value d =? n) (negb (existsb (pair_eqb (fst e, u_attr d)) misplaced))
      | None => false
      end) (snd e)) ms.

Lemma numbers_ok_true : numbers_ok modules = true.
Proof. vm_compute. reflexivity. Qed.

Lemma c74_always m ds d :
  In (m, ds) modules -> In d ds -> m <> "button"%string -> m <> "ordinal"%string ->
  ~ In (m, u_attr d) no_claim ->
  exists n, hut_number m (u_attr d) n /\ (u_value d = n <-> ~ In (m, u_attr d) misplaced).
Proof.
  intros M D B O N. pose proof numbers_ok_true as T. unfold numbers_ok in T.
  rewrite forallb_forall in T. specialize (T _ M). cbn [fst snd] in T.
  assert (C : counted m = false).
  { unfold counted. apply orb_false_iff. split; apply String.eqb_neq; assumption. }
  rewrite C in T. rewrite forallb_forall in T. specialize (T _ D). cbv beta in T.
  rewrite <- existsb_pair in N. apply not_true_is_false in N. rewrite N in T.
  destruct (number_in hut m (u_attr d)) as [n|] eqn:E; [|discriminate].
  exists n. split; [apply number_in_sound, E|].
  apply eqb_prop in T. rewrite <- Z.eqb_eq, T, negb_true_iff, <- existsb_pair.
  destruct (existsb _ misplaced); intuition congruence.
Qed.

Lemma c74_partial m ds d n :
  In (m, ds) modules -> In d ds -> hut_number m (u_attr d) n -> ~ In (m, u_attr d) misplaced -> u_value d = n.
Proof.
  intros M D H N.
  assert (B : m <> "button"%string /\ m <> "ordinal"%string /\ ~ In (m, u_attr d) no_claim).
  { apply number_in_complete in H. repeat split.
    - intros ->. vm_compute in H. discriminate.
    - intros ->. vm_compute in H. discriminate.
    - intros I. cbn [In no_claim] in I.
      repeat (destruct I as [I|I]; [injection I as <- E; rewrite <- E in H; vm_compute in H; discriminate|]).
      exact I. }
  destruct B as [B [O C]]. destruct (c74_always m ds d M D B O C) as [n' [H' E]].
  rewrite (hut_number_unique _ _ _ _ H H'). apply E, N.
Qed.

(** ** every usage of the list has its constant *)
Definition defined_ok (t : list (string * (Z * list (Z * list string)))) : bool :=
  forallb (fun u => let '(m, a, n) := u in
    if String.eqb m "arcade" then true else
    if existsb (pair_eqb (m, a)) undefined then true else
    match find (fun e => String.eqb (fst e) m) modules with
    | Some e => existsb (fun d => String.eqb (u_attr d) a) (snd e)
    | None => false
    end) (usages_of t).

Lemma defined_ok_true : defined_ok hut = true.
Proof. vm_compute. reflexivity. Qed.

Lemma c74_defined m a n :
  hut_number m a n -> m <> "arcade"%string -> ~ In (m, a) undefined ->
  exists ds d, In (m, ds) modules /\ In d ds /\ u_attr d = a.
Proof.
  intros H A U. apply in_usages in H. pose proof defined_ok_true as T. unfold defined_ok in T.
  rewrite forallb_forall in T. specialize (T _ H). cbv beta iota in T.
  apply String.eqb_neq in A. rewrite A in T.
  rewrite <- existsb_pair in U. apply not_true_is_false in U. rewrite U in T.
  destruct (find _ modules) as [[q l]|] eqn:F; [|discriminate].
  apply find_fst in F. cbn [snd] in F, T. apply existsb_exists in T. destruct T as [d [D E]].
  apply String.eqb_eq in E. exists l, d. auto.
Qed.

Lemma c74_named m a n h :
  hut_number m a n -> m <> "arcade"%string -> ~ In (m, a) undefined -> ~ In (m, a) misplaced -> Forall call_ok h ->
  exists ds d, In (m, ds) modules /\ In d ds /\ u_attr d = a /\ lookup (db_after h) (VInt n) = usage_of d.
Proof.
  intros H A U P C. destruct (c74_defined m a n H A U) as [ds [d [M [D E]]]].
  exists ds, d. repeat split; auto. subst a.
  rewrite <- (c74_partial m ds d n M D H P). apply (c19 h m ds d C M D).
Qed.

(** ** arcade *)
Definition arcade_numbers (l : list udecl) : bool :=
  forallb (fun d => match number_in hut "arcade" (u_attr d) with
                    | Some n => u_value d =? n + (0xff00 - 0x91) * 65536
                    | None => false
                    end) l.

Lemma arcade_numbers_true : arcade_numbers t_arcade = true.
Proof. vm_compute. reflexivity. Qed.

Lemma c74_arcade d : In d t_arcade ->
  exists n, hut_number "arcade" (u_attr d) n /\ n / 65536 = 0x91 /\
    u_value d mod 65536 = n mod 65536 /\ u_value d / 65536 = 0xff00.
Proof.
  intros D. pose proof arcade_numbers_true as T. unfold arcade_numbers in T.
  rewrite forallb_forall in T. specialize (T _ D). cbv beta in T.
  destruct (number_in hut "arcade" (u_attr d)) as [n|] eqn:E; [|discriminate]. apply Z.eqb_eq in T.
  exists n. split; [apply number_in_sound, E|].
  assert (Q : n / 65536 = 0x91).
  { apply number_in_sound, in_usages in E. revert E.
    assert (A : forallb (fun u => if String.eqb (fst (fst u)) "arcade" then snd u / 65536 =? 0x91 else true)
                  (usages_of hut) = true) by (vm_compute; reflexivity).
    rewrite forallb_forall in A. intros I. specialize (A _ I). cbn [fst snd] in A.
    rewrite String.eqb_refl in A. apply Z.eqb_eq, A. }
  split; [exact Q|]. rewrite T. split.
  - rewrite Z.mod_add; [reflexivity|lia].
  - rewrite Z.div_add; lia.
Qed.

Lemma c74_refuted : exists m ds d n,
  In (m, ds) modules /\ In d ds /\ hut_number m (u_attr d) n /\ u_value d <> n.
Proof.
  exists "desktop"%string, desktop_decls, (attr_decl "SystemDisplayRotationLockButton"), 0x100c9.
  split; [exact desktop_in|]. split.
  { unfold attr_decl. destruct (find _ desktop_decls) eqn:F; [apply find_some in F; apply F|].
    exfalso. revert F. vm_compute. discriminate. }
  split; [|vm_compute; discriminate].
  apply number_in_sound. vm_compute. reflexivity.
Qed.

Lemma c74_arcade_refuted : exists d n,
  In d t_arcade /\ hut_number "arcade" (u_attr d) n /\ u_value d <> n.
Proof.
  assert (A : exists d, In d t_arcade).
  { destruct t_arcade as [|d r] eqn:E; [exfalso; revert E; vm_compute; discriminate|].
    exists d. left. reflexivity. }
  destruct A as [d D]. destruct (c74_arcade d D) as [n [H [P [_ Q]]]].
  exists d, n. split; [exact D|]. split; [exact H|]. intros E. rewrite E in Q. lia.
Qed.
