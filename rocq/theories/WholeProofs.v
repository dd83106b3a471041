(* WholeProofs.v -- printing a tree does not fail *)
From Coq Require Import ZArith List Bool Lia String.
From Verif Require Import Py Usage Item Parser Optimizer Descriptor Extractor TextFormats Dumper HidSpec Spec StreamSpec OptSpec ExtractSpec
  ItemFacts OptFacts PassFacts StreamProofs StreamTree ExtractFacts ExtractAgain DumpSpec DumpProofs TwiceProofs.
Import ListNotations.
Local Open Scope list_scope.
Local Open Scope Z_scope.

Lemma value_printed db n v : (exists k a, mk_value k a = Ok v) -> exists s, dump_value db n v = Ok s.
Proof.
  intros [k [a M]]. unfold dump_value. destruct (v_kind v); [|eauto..].
  assert (E : exists b, narr_truthy (v_named v) = Ok b).
  { unfold mk_value in M. destruct (narr_truthy (a_named a)) as [b|e] eqn:T; [|discriminate M]. cbn [bind] in M.
    destruct (_ && _ && _); [discriminate M|]. exists b. rewrite <- T. f_equal.
    destruct (if _ && _ then _ else _) as [p q]. destruct (a_named a) as [arr|] eqn:N, b; cbn [bind] in M;
      try (destruct (narr_len arr); [|discriminate M]; cbn [bind] in M; destruct (a_lmin a); [|discriminate M]);
      injection M as <-; cbn [v_named]; congruence. }
  destruct E as [b E]. unfold dump_flags. rewrite E. cbn [bind].
  destruct (py_int (v_flags v) =? 2); [cbn [bind]; eauto|]. destruct (negb _ && negb _); cbn [bind]; eauto.
Qed.

Lemma printed t : forall db n, well_formed t -> exists s, dump db n t = Ok s.
Proof.
  assert (ALL : forall ms, Forall (fun t => forall db n, well_formed t -> exists s, dump db n t = Ok s) ms ->
    forall db n, Forall well_formed ms ->
    exists s, (fix go (ms : list tree) : result text :=
      match ms with [] => Ok [] | m :: r => let* a := dump db (S n) m in let* b := go r in Ok (a ++ b) end) ms = Ok s).
  { induction 1 as [|m ms H _ IH]; intros db n F; [eauto|]. inversion F as [|? ? F1 F2]; subst.
    destruct (H db (S n) F1) as [a A]. destruct (IH db n F2) as [b B]. rewrite A. cbn [bind]. rewrite B. cbn [bind]. eauto. }
  induction t as [v|id ms IH|ms IH|k u ms IH] using tree_rect2; intros db n WF; cbn [dump].
  - apply value_printed. exact WF.
  - destruct (ALL ms IH db n) as [s S]; [apply well_formed_all; exact WF|]. rewrite S. cbn [bind]. eauto.
  - destruct (ALL ms IH db n) as [s S]; [apply well_formed_all; exact WF|]. rewrite S. cbn [bind]. eauto.
  - destruct (ALL ms IH db n) as [s S]; [apply well_formed_all; apply WF|]. rewrite S. cbn [bind]. eauto.
Qed.

Lemma printed_blob db blob : Forall (fun x => 0 <= x < 256) blob ->
  match decompile db blob with
  | Err e => decompile_text db blob = Err e
  | Ok _ => exists s, decompile_text db blob = Ok s
  end.
Proof.
  intros F. unfold decompile_text. destruct (decompile db blob) as [t|e] eqn:D; cbn [bind]; [|reflexivity].
  apply printed. exact (proj1 (decompiled db blob t F D)).
Qed.

Lemma framed t db s : match t with TValue _ => False | _ => True end -> dump db 0 t = Ok s -> exists b, s = prelude ++ b ++ postlude.
Proof.
  assert (B : forall h b, exists m, bracketed 0 h b = prelude ++ m ++ postlude).
  { intros h b. unfold bracketed. exists (indentation 0 ++ h ++ b ++ indentation 0 ++ str ")" ++ [] ++ line). rewrite !app_assoc. reflexivity. }
  intros N H. destruct t as [v|id ms|ms|k u ms]; [destruct N|..]; cbn [dump] in H;
    match type of H with bind ?x _ = _ => destruct x as [b|e]; [|discriminate H] end; cbn [bind] in H; injection H as <-; apply B.
Qed.
