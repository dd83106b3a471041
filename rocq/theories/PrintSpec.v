(* PrintSpec.v -- the trees a script can build out of the constants of the
   package; independent of the Dumper. *)
From Coq Require Import ZArith List Bool String.
From Verif Require Import Py Usage Item Descriptor UsageTable UsageModules HidSpec StreamSpec DumpSpec.
Import ListNotations.
Local Open Scope list_scope.
Local Open Scope Z_scope.

(** an int or a constant of a usage module *)
Definition script_usage (u : pval) : Prop :=
  (exists z, 0 <= z /\ u = VInt z) \/ exists m l d, In (m, l) modules /\ In d l /\ u = usage_of d.

(** Value.Input, Value.Output, Value.Feature *)
Definition script_way (w : pval) : Prop :=
  In w [VNamed "Input" 8; VNamed "Output" 9; VNamed "Feature" 11].

(** an int, such as Value.Variable | Value.Relative, or one flag of Value *)
Definition script_flags (f : pval) : Prop :=
  (exists i, f = VInt i) \/
  In f [VNamed "Data" 0; VNamed "Constant" 1; VNamed "Array" 0; VNamed "Variable" 2; VNamed "Absolute" 0;
        VNamed "Relative" 4; VNamed "NoWrap" 0; VNamed "Wrap" 8; VNamed "Linear" 0; VNamed "NonLinear" 16;
        VNamed "PreferredState" 0; VNamed "NoPreferred" 32; VNamed "NoNullPosition" 0; VNamed "NullState" 64;
        VNamed "NonVolatile" 0; VNamed "Volatile" 128; VNamed "BitField" 0; VNamed "BufferedBytes" 256].

(** an int or one constant of Unit *)
Definition script_unit (u : pval) : Prop :=
  (exists z, 0 <= z /\ u = VInt z) \/
  In u [VNamed "SILinear" 1; VNamed "SIRotation" 2; VNamed "EnglishLinear" 3; VNamed "EnglishRotation" 4;
        VNamed "Centimeter" 0x11; VNamed "Radian" 0x12; VNamed "Inch" 0x13; VNamed "Degree" 0x14;
        VNamed "Gram" 0x101; VNamed "Slug" 0x103; VNamed "Second" 0x1000; VNamed "Kelvin" 0x10001;
        VNamed "Fahrenheit" 0x10003; VNamed "Ampere" 0x100000; VNamed "Candela" 0x1000000;
        VNamed "Velocity" 0xf011; VNamed "Momentum" 0xf111; VNamed "G" 0xe011; VNamed "Newton" 0xe111;
        VNamed "Joule" 0xe121; VNamed "Volt" 0xf0d121].

(** Collection.Physical and so on *)
Definition script_kind (k : pval) : Prop :=
  In k [VNamed "Physical" 0; VNamed "Application" 1; VNamed "Logical" 2; VNamed "Report" 3; VNamed "NamedArray" 4;
        VNamed "UsageSwitch" 5; VNamed "UsageModifier" 6].

(** a list of usages that is not empty, or a range that is not *)
Definition script_array (a : narr) : Prop :=
  match a with
  | NList l => l <> [] /\ Forall script_usage l
  | NRange r => script_usage (r_min r) /\ script_usage (r_max r) /\ py_int (r_min r) <= py_int (r_max r)
  end.

(** the arguments of Value(...); with namedArray, which determines them, no
    other bounds than logicalMin are given *)
Record script_args (a : vargs) : Prop := {
  sa_way : script_way (a_way a);
  sa_usage : match a_usage a with Some u => script_usage u | None => True end;
  sa_flags : script_flags (a_flags a);
  sa_unit : script_unit (a_unit a);
  sa_array : match a_named a with
             | Some arr => script_array arr /\ a_lmax a = None /\ a_pmin a = None /\ a_pmax a = None
             | None => True
             end
}.

Inductive script_value (v : value) : Prop :=
| sc_value a : script_args a -> mk_value KValue a = Ok v -> script_value v
| sc_padding w n : script_way w -> mk_padding w n = Ok v -> script_value v
| sc_align w n : script_way w -> mk_align w n (VInt 3) = Ok v -> script_value v.

Fixpoint script_tree (t : tree) : Prop :=
  let all := fix all ms := match ms with [] => True | m :: r => script_tree m /\ all r end in
  match t with
  | TValue v => script_value v
  | TTop ms | TReport _ ms => all ms
  | TColl k u ms => script_kind k /\ match u with Some u => script_usage u | None => True end /\ all ms
  end.

Definition is_value (t : tree) : bool := match t with TValue _ => true | _ => false end.
