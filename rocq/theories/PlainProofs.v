(* PlainProofs.v -- the numbers of parsed items are plain ints *)
From Coq Require Import ZArith List Bool Lia.
From Verif Require Import Py Usage Item Parser Optimizer TextFormats Tools Spec ItemFacts PlainSpec.
Import ListNotations.
Local Open Scope list_scope.
Local Open Scope Z_scope.

Lemma init_plain c v i z : item_init c (Some v) = Ok i -> v = VInt z -> exists z', iv i = VInt z'.
Proof.
  unfold item_init. intros H ->. destruct (truthy (VInt z)); destruct (signed c || _); inversion H; cbn [iv]; eauto.
Qed.

Lemma made_plain db c z i : mk_item db c (Some (VInt z)) = Ok i -> plain_number (ic i) (iv i).
Proof.
  intros H. assert (P : numeric c = true -> exists z', iv i = VInt z').
  { intros N. destruct c; try discriminate N; cbn [mk_item] in H; exact (init_plain _ _ _ z H eq_refl). }
  rewrite (mk_item_class _ _ _ _ H).
  exact P.
Qed.

Lemma parsed_plain n : forall db p b, Forall (fun i => plain_number (ic i) (iv i)) (appended (blob_parse_fuel n db p b)).
Proof.
  induction n as [|n IH]; intros db p b; destruct b as [|h b]; try constructor.
  cbn [blob_parse_fuel]. destruct (parse db _) as [i|] eqn:P; [|constructor].
  assert (C : plain_number (ic i) (iv i)).
  { unfold parse in P. destruct (firstn _ _) as [|h' r]; [discriminate|]. destruct (itemclass _ _) as [c|]; [|discriminate].
    match type of P with bind ?r _ = _ => destruct r as [v|]; [|discriminate] end. cbn [bind] in P. exact (made_plain _ _ _ _ P). }
  destruct (parser_append db p i) as [p' [j|]] eqn:A; [|constructor]. cbn [appended]. constructor; [|apply IH].
  assert (NP : forall c v k, numeric c = false -> mk_item db c v = Ok k -> plain_number (ic k) (iv k)).
  { intros c v k N H N'. rewrite (mk_item_class _ _ _ _ H) in N'. congruence. }
  unfold parser_append in A. destruct (match ic i with UsagePage => _ | _ => _ end) as [page1 i1] eqn:E.
  assert (C1 : forall k, i1 = Ok k -> plain_number (ic k) (iv k)).
  { intros k ->. destruct (ic i) eqn:EC; injection E as _ E; try (subst k; rewrite EC; exact C). exact (NP UsagePage _ _ eq_refl E). }
  destruct i1 as [k|e]; [|discriminate A]. specialize (C1 k eq_refl).
  destruct (ic k) eqn:EK; try (injection A as _ <-; rewrite EK; exact C1);
    (destruct (Z.shiftr (ival k) 16 =? 0); apply (f_equal snd) in A; cbn [snd] in A;
     [refine (NP _ _ _ _ A); reflexivity|injection A as <-; rewrite EK; exact C1]).
Qed.

Lemma c84 loc db f src content : Forall (fun i => plain_number (ic i) (iv i)) (appended (read_items loc db f src content)).
Proof.
  unfold read_items, parse_hex, parse_code.
  destruct f; [destruct src| |]; repeat match goal with |- context [match ?x with _ => _ end] => destruct x end;
    try (apply Forall_nil); apply parsed_plain.
Qed.
