(* Properties_Dump.v -- C50: the script printed by the decompiler rebuilds
   the decompiled tree. *)
From Verif Require Import Py Usage Item Parser Optimizer Descriptor Extractor TextFormats UsageModules HidSpec StreamSpec
  Dumper PyExpr DumpSpec ExtractAgain DumpFacts DumpProofs DumpExtract.
Local Open Scope list_scope.
Local Open Scope Z_scope.

(** Full statement (false, see C50_refuted): without [dumpable]. *)
Theorem C50_partial blob t :
  decompile default_db blob = Ok t -> dumpable t ->
  exists s t', decompile_text default_db blob = Ok s /\ script s t' /\ same_tree t t'.
Proof. exact (c50 blob t). Qed.
Print Assumptions C50_partial.

(** a script determines its tree *)
Definition body_of (s : text) : text :=
  firstn (length s - length script_head - length script_tail) (skipn (length script_head) s).
Definition value_of (s : text) : option obj :=
  match expression (body_of s) with Some e => eval e | None => None end.

Lemma script_value s t : script s t -> value_of s = Some (OTree t).
Proof.
  intros [body [e [-> [X V]]]]. unfold value_of.
  assert (B : body_of (script_head ++ body ++ script_tail) = body).
  { unfold body_of. rewrite skipn_app, skipn_all, Nat.sub_diag, !app_length.
    replace (length script_head + (length body + length script_tail) - length script_head - length script_tail)%nat with (length body) by lia.
    cbn [app skipn]. rewrite firstn_app, firstn_all, Nat.sub_diag. cbn [firstn]. apply app_nil_r. }
  rewrite B, X. exact V.
Qed.

(** a mouse: buttons (array and bits), two axes with physical bounds and a
    unit, padding, a vendor usage, a named array and a second report *)
Definition blob50 : list Z :=
  [0x05;0x01;0x09;0x02;0xa1;0x01;
   0x85;0x01;0x09;0x01;0xa1;0x00;
   0x05;0x09;0x19;0x01;0x29;0x03;0x15;0x00;0x25;0x01;0x95;0x03;0x75;0x01;0x81;0x02;
   0x95;0x01;0x75;0x05;0x81;0x03;
   0x05;0x01;0x09;0x30;0x09;0x31;0x15;0x81;0x25;0x7f;0x35;0x9c;0x45;0x64;0x65;0x13;0x55;0x0e;0x75;0x08;0x95;0x02;0x81;0x06;
   0xc0;
   0x85;0x02;0x35;0x00;0x45;0x00;0x65;0x00;0x55;0x00;
   0x06;0x00;0xff;0x09;0x21;0x15;0x00;0x26;0xff;0x00;0x75;0x08;0x95;0x10;0xb2;0x02;0x01;
   0x05;0x07;0x09;0x04;0x09;0x05;0x09;0x09;0x15;0x00;0x25;0x02;0x75;0x08;0x95;0x01;0x81;0x00;
   0x05;0x08;0x19;0x01;0x29;0x03;0x15;0x01;0x25;0x03;0x95;0x02;0x91;0x00;
   0xc0].

Definition tree50 : tree := match decompile default_db blob50 with Ok t => t | Err _ => TTop [] end.
Definition text50 : text := match decompile_text default_db blob50 with Ok s => s | Err _ => [] end.

Example C50_case :
  decompile default_db blob50 = Ok tree50 /\ dumpable tree50 /\ decompile_text default_db blob50 = Ok text50 /\
  string_of_list_ascii text50 =
"from hrdc.usage import *
from hrdc.descriptor import *

descriptor = TopLevel(
    Collection(Collection.Application, desktop.Mouse,
        Report(1,
            Collection(Collection.Physical, desktop.Pointer,
                Value(Value.Input, button.Button(1), 1, logicalMin = 0, logicalMax = 1),
                Value(Value.Input, button.Button(2), 1, logicalMin = 0, logicalMax = 1),
                Value(Value.Input, button.Button(3), 1, logicalMin = 0, logicalMax = 1),
                Padding(Value.Input, 5),
                Value(Value.Input, desktop.X, 8, flags = Value.Variable|Value.Relative, logicalMin = -127, logicalMax = 127, physicalMin = -100, physicalMax = 100, unit = Unit.Inch, unitExponent = 14),
                Value(Value.Input, desktop.Y, 8, flags = Value.Variable|Value.Relative, logicalMin = -127, logicalMax = 127, physicalMin = -100, physicalMax = 100, unit = Unit.Inch, unitExponent = 14),
            ),
        ),
        Report(2,
            Value(Value.Feature, 0xff000021, 8, flags = Value.Variable|Value.BufferedBytes, logicalMin = 0, logicalMax = 255, count = 16),
            Value(Value.Input, None, 8, logicalMin = 0, namedArray = [
                keyboard.A,
                keyboard.B,
                keyboard.F,
                ]),
            Value(Value.Output, None, 8, namedArray = UsageRange(led.NumLock, led.ScrollLock)),
            Value(Value.Output, None, 8, namedArray = UsageRange(led.NumLock, led.ScrollLock)),
        ),
    ),
)

if __name__ == ""__main__"":
    compile_main(descriptor)
"%string.
Proof.
  split; [vm_compute; reflexivity|]. split; [|split; [vm_compute; reflexivity|vm_compute; reflexivity]].
  match goal with |- dumpable ?t => let t' := eval vm_compute in t in change (dumpable t') end.
  cbn [dumpable]. unfold dumpable_value, printed_right.
  repeat split; try discriminate; cbn [v_named]; repeat constructor; cbn; intuition discriminate.
Qed.

(** what the script loses or cannot say: usage 0; a misprinted constant; the
    flags above 0x100; the unit 0xf011; the collection types from 7 on *)
Definition lost50 : list (list Z) :=
  [ [0x05;0x01;0x09;0x02;0xa1;0x01;0x05;0x00;0x09;0x00;0x15;0x00;0x25;0x01;0x75;0x08;0x95;0x01;0x81;0x02;0xc0];
    [0x05;0x01;0x09;0x02;0xa1;0x01;0x09;0x3d;0x15;0x00;0x25;0x01;0x75;0x08;0x95;0x01;0x81;0x02;0xc0];
    [0x05;0x01;0x09;0x02;0xa1;0x01;0x09;0x30;0x15;0x00;0x25;0x01;0x75;0x08;0x95;0x01;0x82;0x02;0x02;0xc0];
    [0x05;0x01;0x09;0x02;0xa1;0x01;0x09;0x30;0x66;0x11;0xf0;0x15;0x00;0x25;0x01;0x75;0x08;0x95;0x01;0x81;0x02;0xc0];
    [0x05;0x01;0x09;0x02;0xa1;0x07;0x09;0x30;0x15;0x00;0x25;0x01;0x75;0x08;0x95;0x01;0x81;0x02;0xc0] ].

(** the usages and flags of the values *)
Fixpoint looks (t : tree) : list (list Z * Z) :=
  match t with
  | TValue v => [(usage_list (v_usage v), py_int (v_flags v))]
  | TReport _ ms | TTop ms | TColl _ _ ms => flat_map looks ms
  end.

Lemma same_looks t : forall t', same_tree t t' -> looks t' = looks t.
Proof.
  revert t.
  assert (G : forall ms, Forall (fun t => forall t', same_tree t t' -> looks t' = looks t) ms -> forall ns, same_members ms ns -> flat_map looks ns = flat_map looks ms).
  { induction 1 as [|m ms H F IH]; intros ns S; inversion S; subst; [reflexivity|]. cbn [flat_map]. rewrite (H n), (IH ns0) by assumption. reflexivity. }
  apply (tree_all (fun t => forall t', same_tree t t' -> looks t' = looks t)).
  - intros v t' S. inversion S as [? w R| | |]; subst. cbn [looks]. rewrite (rb_usage _ _ R), (rb_flags _ _ R). reflexivity.
  - intros id ms F t' S. inversion S; subst. apply G; assumption.
  - intros ms F t' S. inversion S; subst. apply G; assumption.
  - intros k u ms F t' S. inversion S; subst. apply G; assumption.
Qed.

Theorem C50_refuted : Forall (fun blob => exists t s,
  decompile default_db blob = Ok t /\ decompile_text default_db blob = Ok s /\ forall t', script s t' -> ~ same_tree t t') lost50.
Proof.
  assert (G : forall t s, match value_of s with Some (OTree t') => looks t' <> looks t | _ => True end -> forall t', script s t' -> ~ same_tree t t').
  { intros t s H t' S E. rewrite (script_value s t' S) in H. apply H. apply same_looks. exact E. }
  unfold lost50. repeat apply Forall_cons; [..|apply Forall_nil].
  all: match goal with |- exists t s, decompile ?d ?b = _ /\ _ =>
         exists (match decompile d b with Ok t => t | Err _ => TTop [] end), (match decompile_text d b with Ok s => s | Err _ => [] end) end.
  all: split; [vm_compute; reflexivity|]; split; [vm_compute; reflexivity|]; apply G.
  all: vm_compute; try exact I; discriminate.
Qed.
Print Assumptions C50_refuted.
