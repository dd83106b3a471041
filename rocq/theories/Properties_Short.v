(* Properties_Short.v -- C90: shorthands compile like what they stand for. *)
From Coq Require Import Lia.
From Verif Require Import Py Usage Item Optimizer Descriptor ShortSpec ShortProofs.
Local Open Scope list_scope.
Local Open Scope Z_scope.

(** C90: members that say the same, anywhere in a tree, compile to the same
    bytes or the same exception, optimised or not. *)
Theorem C90 : forall db opt a b, same_members a b -> compile db opt (TTop a) = compile db opt (TTop b).
Proof. exact same_compile. Qed.
Print Assumptions C90.

(** doc/descriptor.rst: two buttons on two bytes, written with TopLevel, Report,
    alignment and Padding in two ways *)
Definition button_args (n : Z) (align : option Z) : vargs :=
  VArgs (VInt 8) (Some (VInt (0x90000 + n))) 1 (VInt 2) (Some 0) (Some 1) None None None (VInt 0) 0 0 0 1 align.
Definition button_value (n : Z) (align : option Z) : value :=
  match mk_value KValue (button_args n align) with Ok v => v | Err _ => Value KValue (VInt 0) None 0 (VInt 0) None None None None None (VInt 0) 0 0 0 0 0 end.
Definition align_value (n f : Z) : value :=
  match mk_align (VInt 8) n (VInt f) with Ok v => v | Err _ => button_value 0 None end.
Definition padding_value (n : Z) : value :=
  match mk_padding (VInt 8) n with Ok v => v | Err _ => button_value 0 None end.
Definition constant_value (n : Z) : value :=
  match mk_value KValue (constant_args (VInt 8) n) with Ok v => v | Err _ => button_value 0 None end.

Definition short_form : list tree :=
  [TColl (VInt 1) (Some (VInt 0x10002))
     [TReport 3 [TTop [TValue (button_value 1 None); TValue (button_value 2 (Some 8))]; TValue (padding_value 7)]]].
Definition long_form : list tree :=
  [TColl (VInt 1) (Some (VInt 0x10002))
     [TReport 3 [TValue (button_value 1 None); TValue (align_value 8 1); TValue (button_value 2 (Some 0)); TValue (constant_value 7)]]].

Example C90_case : same_members short_form long_form /\
  compile empty_db false (TTop short_form) =
    Ok [0x0b; 0x02; 0x00; 0x01; 0x00; 0xa1; 0x01; 0x85; 0x03;
        0x0b; 0x01; 0x00; 0x09; 0x00; 0x35; 0x00; 0x45; 0x00; 0x15; 0x00; 0x25; 0x01; 0x65; 0x00; 0x55; 0x00; 0x95; 0x01; 0x75; 0x01; 0x81; 0x02;
        0x95; 0x01; 0x75; 0x07; 0x81; 0x03;
        0x0b; 0x02; 0x00; 0x09; 0x00; 0x35; 0x00; 0x45; 0x00; 0x15; 0x00; 0x25; 0x01; 0x65; 0x00; 0x55; 0x00; 0x95; 0x01; 0x75; 0x01; 0x81; 0x02;
        0x95; 0x01; 0x75; 0x07; 0x81; 0x03; 0xc0].
Proof.
  split; [|vm_compute; reflexivity]. apply same_in_collection, same_in_report.
  change (same_members ([TTop [TValue (button_value 1 None); TValue (button_value 2 (Some 8))]] ++ [TValue (padding_value 7)])
    ([TValue (button_value 1 None); TValue (align_value 8 1); TValue (button_value 2 (Some 0))] ++ [TValue (constant_value 7)])).
  apply same_app.
  - eapply same_trans; [apply same_top|].
    change (same_members ([TValue (button_value 1 None)] ++ [TValue (button_value 2 (Some 8))])
      ([TValue (button_value 1 None)] ++ [TValue (align_value 8 1); TValue (button_value 2 (Some 0))])).
    apply same_app; [apply same_refl|]. apply (same_align (button_args 2 (Some 8)) 8 (VInt 1)); try reflexivity. left. reflexivity.
  - apply (same_padding (VInt 8) 7); [lia|reflexivity|reflexivity].
Qed.

(** C90 for Align: wherever one is, there is a Padding of fewer bits than the
    boundary that does the same. *)
Theorem C90_align : forall db opt p w n f al, mk_align w n f = Ok al ->
  exists k pd, 0 <= k < Z.max 2 n /\ mk_padding w k = Ok pd /\
  compile db opt (put p (TValue al)) = compile db opt (put p (TValue pd)).
Proof. exact align_is_padding. Qed.
Print Assumptions C90_align.

(** the two ways of doc/descriptor.rst; no other padding does *)
Example C90_align_case :
  let p := ACollection ARoot (VInt 1) (Some (VInt 0x10002)) [TValue (button_value 1 None)] [TValue (button_value 2 None)] in
  mk_align (VInt 8) 8 (VInt 3) = Ok (align_value 8 3) /\
  put p (TValue (align_value 8 3)) =
    TColl (VInt 1) (Some (VInt 0x10002)) [TValue (button_value 1 None); TValue (align_value 8 3); TValue (button_value 2 None)] /\
  compile empty_db true (put p (TValue (align_value 8 3))) = compile empty_db true (put p (TValue (padding_value 7))) /\
  compile empty_db true (put p (TValue (align_value 8 3))) <> compile empty_db true (put p (TValue (padding_value 6))).
Proof. vm_compute. repeat split. discriminate. Qed.

(** A Padding is no constant Value with the default alignment, though
    doc/descriptor.rst calls it a short-hand for that. *)
Theorem C90_padding_refuted : exists db opt w n p v l,
  mk_padding w n = Ok p /\
  mk_value KValue (VArgs w (Some (VInt 0)) n (VInt 3) (Some 1) None None None None (VInt 0) 0 0 0 1 None) = Ok v /\
  compile db opt (TTop (l ++ [TValue p])) <> compile db opt (TTop (l ++ [TValue v])).
Proof.
  exists empty_db, false, (VInt 8), 7, (padding_value 7). eexists. exists [TValue (button_value 1 None)].
  split; [reflexivity|]. split; [reflexivity|]. vm_compute. discriminate.
Qed.
Print Assumptions C90_padding_refuted.
