(* Properties_Print.v -- C78: the Dumper on the trees of scripts. *)
From Verif Require Import Py Usage Item Parser Optimizer Descriptor Extractor TextFormats UsageTable UsageModules HidSpec StreamSpec
  Dumper PyExpr DumpSpec PrintSpec ExtractAgain DumpFacts DumpProofs PrintProofs Properties_Dump.
Local Open Scope list_scope.
Local Open Scope Z_scope.

(** Full statement (false, see C78_refuted): without [dumpable], with bounds
    beside namedArray, with empty arrays, with Align of other flags. *)
Theorem C78_partial : forall t, script_tree t -> is_value t = false -> dumpable t ->
  exists s t', dump default_db 0 t = Ok s /\ script s t' /\ same_tree t t' /\
    forall db opt, compile db opt t' = compile default_db opt t.
Proof. exact c78. Qed.
Print Assumptions C78_partial.

Definition v78 (a : vargs) : tree := match mk_value KValue a with Ok v => TValue v | Err _ => TTop [] end.
Definition align78 (w : pval) (n : Z) : tree := match mk_align w n (VInt 3) with Ok v => TValue v | Err _ => TTop [] end.
Definition pad78 (w : pval) (n : Z) : tree := match mk_padding w n with Ok v => TValue v | Err _ => TTop [] end.
Definition input78 := VNamed "Input" 8.
Definition tree78 : tree :=
  TColl (VNamed "Application" 1) (Some (get "desktop" "Mouse"))
    [TReport 3
      [v78 (VArgs input78 (Some (get "desktop" "X")) 12 (VInt 6) (Some (-5)) (Some 5) (Some 0) (Some 40) None (VNamed "Centimeter" 0x11) 0 0 4 2 (Some 1));
       v78 (VArgs input78 None 3 (VNamed "Constant" 1) (Some 1) None None None None (VInt 0) 0 0 0 1 None);
       v78 (VArgs input78 (Some (VInt 0)) 3 (VInt 1) None (Some 9) None None None (VInt 0) 0 7 0 1 None);
       v78 (VArgs input78 (Some (VInt 0x90001)) 3 (VInt 2) (Some 1) (Some 9) (Some 1) (Some 9) None (VNamed "SILinear" 1) 0 7 0 1 None)];
     align78 (VNamed "Output" 9) 16; pad78 input78 4;
     TTop [v78 (VArgs (VNamed "Feature" 11) (Some (get "desktop" "Pointer")) 8 (VInt 99) (Some 0) None None None
                 (Some (NList [get "keyboard" "A"; VInt 0x70005])) (VInt 0x22) 0 0 0 1 None);
           v78 (VArgs (VNamed "Feature" 11) None 8 (VInt 99) (Some 1) None None None
                 (Some (NRange (URange (get "led" "NumLock") (VInt 0x80003)))) (VInt 0) (-2) 0 0 1 None)];
     TColl (VNamed "Physical" 0) (Some (get "desktop" "Pointer")) []].
Definition text78 : text := match dump default_db 0 tree78 with Ok s => s | Err _ => [] end.

Lemma get_script m a d : getattr m a = Some d -> script_usage (usage_of d).
Proof.
  unfold getattr, find_module. destruct (find _ modules) as [[n l]|] eqn:F; [|discriminate]. intros H.
  right. exists n, l, d. split; [apply (find_some _ _ F)|]. split; [apply (find_some _ _ H)|reflexivity].
Qed.

Ltac script_constant :=
  match goal with
  | |- script_usage (get ?m ?a) =>
      let H := fresh in destruct (getattr m a) eqn:H; [unfold get; rewrite H; exact (get_script _ _ _ H)|vm_compute in H; discriminate H]
  | |- script_usage (VInt _) => left; eexists; split; [|reflexivity]; vm_compute; discriminate
  | |- script_way _ => vm_compute; tauto
  | |- script_flags (VInt _) => left; eexists; reflexivity
  | |- script_flags _ => right; vm_compute; tauto
  | |- script_unit (VInt _) => left; eexists; split; [|reflexivity]; vm_compute; discriminate
  | |- script_unit _ => right; vm_compute; tauto
  | |- script_kind _ => vm_compute; tauto
  end.
Ltac script_leaf :=
  eapply sc_value; [|vm_compute; reflexivity];
  constructor; cbn [a_way a_usage a_size a_flags a_lmin a_lmax a_pmin a_pmax a_named a_unit a_uexp a_desig a_str a_count a_align];
  try script_constant; try exact I.

Example C78_case : script_tree tree78 /\ is_value tree78 = false /\ dumpable tree78 /\
  (exists b, compile default_db true tree78 = Ok b) /\
  string_of_list_ascii text78 =
"from hrdc.usage import *
from hrdc.descriptor import *

descriptor = Collection(Collection.Application, desktop.Mouse,
    Report(3,
        Value(Value.Input, desktop.X, 12, flags = 6, logicalMin = -5, logicalMax = 5, physicalMin = 0, physicalMax = 40, unit = Unit.Centimeter, string = 4, count = 2, alignment = 1),
        Value(Value.Input, None, 3, flags = Value.Constant),
        Value(Value.Input, None, 3, flags = 1, logicalMin = None, logicalMax = 9, designator = 7),
        Value(Value.Input, button.Button(1), 3, logicalMax = 9, unit = Unit.SILinear, designator = 7),
    ),
    Align(Value.Output, 16),
    Padding(Value.Input, 4),
    TopLevel(
        Value(Value.Feature, desktop.Pointer, 8, logicalMin = 0, namedArray = [
            keyboard.A,
            458757,
            ], unit = 34),
        Value(Value.Feature, None, 8, namedArray = UsageRange(led.NumLock, 524291), unitExponent = -2),
    ),
    Collection(Collection.Physical, desktop.Pointer,
    ),
)

if __name__ == ""__main__"":
    compile_main(descriptor)
"%string.
Proof.
  split.
  { unfold tree78, v78, align78, pad78. 
    split; [script_constant|]. split; [script_constant|].
    split; [split; [|split; [|split; [|split; [|exact I]]]]|].
    1-4: match goal with |- context [mk_value KValue ?a] => destruct (mk_value KValue a) eqn:E; [|vm_compute in E; discriminate E] end;
         cbn [script_tree]; eapply sc_value; [|exact E]; constructor;
         cbn [a_way a_usage a_size a_flags a_lmin a_lmax a_pmin a_pmax a_named a_unit a_uexp a_desig a_str a_count a_align];
         try script_constant; exact I.
    split.
    { destruct (mk_align (VNamed "Output" 9) 16 (VInt 3)) eqn:E; [|vm_compute in E; discriminate E]. eapply sc_align; [|exact E]. script_constant. }
    split.
    { destruct (mk_padding input78 4) eqn:E; [|vm_compute in E; discriminate E]. eapply sc_padding; [|exact E]. script_constant. }
    split; [|split; [split; [script_constant|split; [script_constant|exact I]]|exact I]].
    split; [|split; [|exact I]].
    all: match goal with |- context [mk_value KValue ?a] => destruct (mk_value KValue a) eqn:E; [|vm_compute in E; discriminate E] end;
         cbn [script_tree]; eapply sc_value; [|exact E]; constructor;
         cbn [a_way a_usage a_size a_flags a_lmin a_lmax a_pmin a_pmax a_named a_unit a_uexp a_desig a_str a_count a_align];
         try script_constant; try exact I; (split; [|auto]); cbn [script_array r_min r_max].
    - split; [discriminate|]. repeat (apply Forall_cons; [script_constant|]). apply Forall_nil.
    - split; [script_constant|]. split; [script_constant|]. vm_compute. discriminate. }
  split; [reflexivity|]. split; [|split; [eexists; vm_compute; reflexivity|vm_compute; reflexivity]].
  match goal with |- dumpable ?t => let t' := eval vm_compute in t in change (dumpable t') end.
  cbn [dumpable]. unfold dumpable_value, printed_right.
  repeat split; try discriminate; cbn [v_named]; repeat constructor; cbn; intuition discriminate.
Qed.

(** what is lost besides: the physical bounds of a named array; an empty
    array; the flags of Align *)
Definition lost78 : list tree :=
  [TTop [v78 (VArgs input78 None 8 (VInt 0) (Some 0) None None (Some 9) (Some (NList [VInt 0x70005])) (VInt 0) 0 0 0 1 None)];
   TTop [v78 (VArgs input78 (Some (VInt 0x70005)) 8 (VInt 2) (Some 0) (Some 7) None None (Some (NList [])) (VInt 0) 0 0 0 1 None)];
   TTop [match mk_align input78 8 (VInt 1) with Ok v => TValue v | Err _ => TTop [] end]].

Fixpoint looks78 (t : tree) : list (option Z * Z) :=
  match t with
  | TValue v => [(v_pmax v, py_int (v_flags v))]
  | TReport _ ms | TTop ms | TColl _ _ ms => flat_map looks78 ms
  end.

Lemma same_looks78 t : forall t', same_tree t t' -> looks78 t' = looks78 t.
Proof.
  revert t.
  assert (G : forall ms, Forall (fun t => forall t', same_tree t t' -> looks78 t' = looks78 t) ms -> forall ns, same_members ms ns -> flat_map looks78 ns = flat_map looks78 ms).
  { induction 1 as [|m ms H F IH]; intros ns S; inversion S; subst; [reflexivity|]. cbn [flat_map]. rewrite (H n), (IH ns0) by assumption. reflexivity. }
  apply (tree_all (fun t => forall t', same_tree t t' -> looks78 t' = looks78 t)).
  - intros v t' S. inversion S as [? w R| | |]; subst. cbn [looks78]. rewrite (rb_pmax _ _ R), (rb_flags _ _ R). reflexivity.
  - intros id ms F t' S. inversion S; subst. apply G; assumption.
  - intros ms F t' S. inversion S; subst. apply G; assumption.
  - intros k u ms F t' S. inversion S; subst. apply G; assumption.
Qed.

Theorem C78_refuted : Forall (fun t => well_formed t /\ is_value t = false /\ dumpable t /\ (exists b, compile default_db false t = Ok b) /\
  exists s, dump default_db 0 t = Ok s /\ forall t', script s t' -> ~ same_tree t t') lost78.
Proof.
  assert (G : forall t s, match value_of s with Some (OTree t') => looks78 t' <> looks78 t | _ => True end -> forall t', script s t' -> ~ same_tree t t').
  { intros t s H t' S E. rewrite (script_value s t' S) in H. apply H. apply same_looks78. exact E. }
  unfold lost78. repeat apply Forall_cons; [..|apply Forall_nil].
  all: (split; [cbn [well_formed]; split; [|exact I]|]).
  all: try (unfold v78; match goal with |- context [mk_value ?k ?a] => destruct (mk_value k a) eqn:E; [exists k, a; exact E|vm_compute in E; discriminate E] end).
  all: try (match goal with |- context [mk_align ?w ?n ?f] => destruct (mk_align w n f) eqn:E; [unfold mk_align in E; do 2 eexists; exact E|vm_compute in E; discriminate E] end).
  all: (split; [reflexivity|]).
  all: (split; [vm_compute; repeat split; try discriminate; repeat constructor; intuition discriminate|]).
  all: (split; [eexists; vm_compute; reflexivity|]).
  all: match goal with |- exists s, dump ?d ?n ?t = _ /\ _ => exists (match dump d n t with Ok s => s | Err _ => [] end) end.
  all: (split; [vm_compute; reflexivity|]; apply G).
  all: vm_compute; try exact I; discriminate.
Qed.
Print Assumptions C78_refuted.
