(* Item.v -- model of hrdc/stream/item.py *)
From Verif Require Import Py Usage.

(** Item classes -- item.py:198-407, one constructor per class that has a
    (kind, tag) pair and is therefore put in [Item.registry] by the metaclass
    (item.py:3-10). *)
Inductive icls :=
| Input | Output | Feature | Collection | EndCollection
| UsagePage | LogicalMinimum | LogicalMaximum | PhysicalMinimum
| PhysicalMaximum | UnitExponent | Unit | ReportSize | ReportID
| ReportCount | Push | Pop
| Usage | UsageMinimum | UsageMaximum | DesignatorIndex
| DesignatorMinimum | DesignatorMaximum | StringIndex | StringMinimum
| StringMaximum | Delimiter.

Definition registry : list icls :=
  [Input; Output; Feature; Collection; EndCollection;
   UsagePage; LogicalMinimum; LogicalMaximum; PhysicalMinimum;
   PhysicalMaximum; UnitExponent; Unit; ReportSize; ReportID;
   ReportCount; Push; Pop;
   Usage; UsageMinimum; UsageMaximum; DesignatorIndex;
   DesignatorMinimum; DesignatorMaximum; StringIndex; StringMinimum;
   StringMaximum; Delimiter].

Definition icls_eqb (a b : icls) : bool :=
  match a, b with
  | Input, Input | Output, Output | Feature, Feature
  | Collection, Collection | EndCollection, EndCollection
  | UsagePage, UsagePage | LogicalMinimum, LogicalMinimum
  | LogicalMaximum, LogicalMaximum | PhysicalMinimum, PhysicalMinimum
  | PhysicalMaximum, PhysicalMaximum | UnitExponent, UnitExponent
  | Unit, Unit | ReportSize, ReportSize | ReportID, ReportID
  | ReportCount, ReportCount | Push, Push | Pop, Pop
  | Usage, Usage | UsageMinimum, UsageMinimum | UsageMaximum, UsageMaximum
  | DesignatorIndex, DesignatorIndex | DesignatorMinimum, DesignatorMinimum
  | DesignatorMaximum, DesignatorMaximum | StringIndex, StringIndex
  | StringMinimum, StringMinimum | StringMaximum, StringMaximum
  | Delimiter, Delimiter => true
  | _, _ => false
  end.

(* Kinds -- item.py:13-15, 128-129, 137-138, 153-154 *)
Inductive ikind := Main | Global | Local.

Definition ikind_eqb (a b : ikind) : bool :=
  match a, b with
  | Main, Main | Global, Global | Local, Local => true
  | _, _ => false
  end.

Definition kind_int (k : ikind) : Z :=
  match k with Main => 0 | Global => 1 | Local => 2 end.

Definition kind_of (c : icls) : ikind :=
  match c with
  | Input | Output | Feature | Collection | EndCollection => Main
  | UsagePage | LogicalMinimum | LogicalMaximum | PhysicalMinimum
  | PhysicalMaximum | UnitExponent | Unit | ReportSize | ReportID
  | ReportCount | Push | Pop => Global
  | _ => Local
  end.

(* Tags -- item.py:131-165 *)
Definition tag_of (c : icls) : Z :=
  match c with
  | Input => 0x8 | Output => 0x9 | Feature => 0xb | Collection => 0xa
  | EndCollection => 0xc
  | UsagePage => 0x0 | LogicalMinimum => 0x1 | LogicalMaximum => 0x2
  | PhysicalMinimum => 0x3 | PhysicalMaximum => 0x4 | UnitExponent => 0x5
  | Unit => 0x6 | ReportSize => 0x7 | ReportID => 0x8
  | ReportCount => 0x9 | Push => 0xa | Pop => 0xb
  | Usage => 0x0 | UsageMinimum => 0x1 | UsageMaximum => 0x2
  | DesignatorIndex => 0x3 | DesignatorMinimum => 0x4
  | DesignatorMaximum => 0x5 | StringIndex => 0x7 | StringMinimum => 0x8
  | StringMaximum => 0x9 | Delimiter => 0xa
  end.

(* names of the tag constants -- item.py:131-165; used by str(item) *)
Definition tag_name (c : icls) : string :=
  match c with
  | Input => "Input" | Output => "Output" | Feature => "Feature"
  | Collection => "Collection" | EndCollection => "EndCollection"
  | UsagePage => "UsagePage" | LogicalMinimum => "LogicalMinimum"
  | LogicalMaximum => "LogicalMaximum" | PhysicalMinimum => "PhysicalMinimum"
  | PhysicalMaximum => "PhysicalMaximum" | UnitExponent => "UnitExponent"
  | Unit => "Unit" | ReportSize => "ReportSize" | ReportID => "ReportID"
  | ReportCount => "ReportCount" | Push => "Push" | Pop => "Pop"
  | Usage => "Usage" | UsageMinimum => "UsageMinimum"
  | UsageMaximum => "UsageMaximum" | DesignatorIndex => "DesignatorIndex"
  | DesignatorMinimum => "DesignatorMinimum"
  | DesignatorMaximum => "DesignatorMaximum" | StringIndex => "StringIndex"
  | StringMinimum => "StringMinimum" | StringMaximum => "StringMaximum"
  | Delimiter => "Delimiter"
  end%string.

(* the [signed] class attribute -- item.py:17, 236, 240, 244, 248, 252 *)
Definition signed (c : icls) : bool :=
  match c with
  | LogicalMinimum | LogicalMaximum | PhysicalMinimum | PhysicalMaximum
  | UnitExponent => true
  | _ => false
  end.

(* Item.itemclass(kind, tag) -- item.py:27-29 (KeyError when absent) *)
Definition itemclass (kind tag : Z) : option icls :=
  find (fun c => (kind_int (kind_of c) =? kind) && (tag_of c =? tag)) registry.

(** An item object: its class and its [value] attribute. *)
Record item := Item { ic : icls; iv : pval }.

Definition ikd (i : item) : ikind := kind_of (ic i).
Definition ival (i : item) : Z := py_int (iv i).

(* Item.__eq__ between two items -- item.py:110-114 *)
Definition item_eqb (a b : item) : bool :=
  (kind_int (ikd a) =? kind_int (ikd b)) && (tag_of (ic a) =? tag_of (ic b))
  && (ival a =? ival b).

(* optionalValue -- item.py:64-65 *)
Definition optional (c : icls) : bool :=
  match c with Input | EndCollection => true | _ => false end.

(* Item.__init__ -- item.py:59-65; [None] is Python's None.  Evaluating the
   message of a failing assert may itself raise another exception; both are
   recorded as AssertionError. *)
Definition item_init (c : icls) (v : option pval) : result item :=
  let v' := match v with
            | None => VInt 0
            | Some x => if truthy x then x else VInt 0
            end in
  if signed c || (0 <=? py_int v') then Ok (Item c v') else Err AssertionError.

(* DataItem constants and _rev -- item.py:168-189 *)
Definition fl_Constant : Z := 1.
Definition fl_Array : Z := 0.
Definition fl_Variable : Z := 2.
Definition fl_Relative : Z := 4.
Definition fl_BufferedBytes : Z := 256.

Definition flag_rev : list (string * Z) :=
  [("Constant", 1); ("Variable", 2); ("Relative", 4); ("Wrap", 8);
   ("NonLinear", 16); ("NoPreferred", 32); ("NullState", 64);
   ("Volatile", 128); ("BufferedBytes", 256)]%string.

(* "|".join(x.name for x in v) or "Array" -- item.py:194-195 *)
Definition flags_name (i : Z) : string :=
  let s := join "|" (map fst (filter (fun r => negb (Z.land (snd r) i =? 0))
                                     flag_rev)) in
  match s with EmptyString => "Array"%string | _ => s end.

(* Collection._rev -- item.py:210-218 *)
Definition collection_rev : list (string * Z) :=
  [("Physical", 0); ("Application", 1); ("Logical", 2); ("Report", 3);
   ("NamedArray", 4); ("UsageSwitch", 5); ("UsageModifier", 6)]%string.

(* _unit_nibble -- item.py:255-259 *)
Definition unit_nibble (val pos : Z) : result Z :=
  if (-8 <=? val) && (val <=? 7) then
    let v := if val <? 0 then val + 0x10 else val in
    Ok (Z.shiftl v (pos * 4))
  else Err AssertionError.

(* Unit.length .. Unit.luminousintensity -- item.py:269-285 *)
Definition unit_length (x : Z) := unit_nibble x 1.
Definition unit_mass (x : Z) := unit_nibble x 2.
Definition unit_time (x : Z) := unit_nibble x 3.
Definition unit_temperature (x : Z) := unit_nibble x 4.
Definition unit_current (x : Z) := unit_nibble x 5.
Definition unit_luminousintensity (x : Z) := unit_nibble x 6.

(* the constants of item.py:264-303; [nib v p] is the value of
   [_unit_nibble] on the in-range literals used there *)
Definition nib (v p : Z) : Z :=
  match unit_nibble v p with Ok z => z | Err _ => 0 end.
Definition SILinear := 1.
Definition SIRotation := 2.
Definition EnglishLinear := 3.
Definition EnglishRotation := 4.

Definition usual_units : list (string * string * Z) :=
  (* python attribute of Unit, name given to NamedConstant, value *)
  [("Centimeter", "Centimeter", Z.lor SILinear (nib 1 1));
   ("Radian", "Radian", Z.lor SIRotation (nib 1 1));
   ("Inch", "Inch", Z.lor EnglishLinear (nib 1 1));
   ("Degree", "Degree", Z.lor EnglishRotation (nib 1 1));
   ("Gram", "Gram", Z.lor SILinear (nib 1 2));
   ("Slug", "Slug", Z.lor EnglishLinear (nib 1 2));
   ("Second", "Second", nib 1 3);
   ("Kelvin", "Kelvin", Z.lor SILinear (nib 1 4));
   ("Fahrenheit", "Fahrenheit", Z.lor EnglishLinear (nib 1 4));
   ("Ampere", "Ampere", nib 1 5);
   ("Candela", "Candela", nib 1 6);
   ("CmPerSec", "Velocity", Z.lor (Z.lor SILinear (nib (-1) 3)) (nib 1 1));
   ("Momentum", "Momentum",
     Z.lor (Z.lor (Z.lor SILinear (nib (-1) 3)) (nib 1 1)) (nib 1 2));
   ("G", "G", Z.lor (Z.lor SILinear (nib (-2) 3)) (nib 1 1));
   ("Newton", "Newton",
     Z.lor (Z.lor (Z.lor SILinear (nib (-2) 3)) (nib 1 1)) (nib 1 2));
   ("Joule", "Joule",
     Z.lor (Z.lor (Z.lor SILinear (nib (-2) 3)) (nib 2 1)) (nib 1 2));
   ("Volt", "Volt",
     Z.lor (Z.lor (Z.lor (Z.lor SILinear (nib (-3) 3)) (nib 2 1)) (nib 1 2))
           (nib (-1) 5))]%string.

(* _usual_units.get(value, value) -- item.py:305-323, 335 *)
Definition usual_unit (v : pval) : pval :=
  match find (fun e => snd e =? py_int v) usual_units with
  | Some (_, n, z) => VNamed n z
  | None => v
  end.

(** Item constructors: [itemclass(value)].  Class by class:
    DataItem item.py:191-196, Collection 220-223, EndCollection 228-230,
    Unit 332-336, Push 350-352, Pop 357-359, Usage 364-368,
    UsageMinimum 373-377, UsageMaximum 382-386, all others Item.__init__. *)
Definition mk_item (db : udb) (c : icls) (v : option pval) : result item :=
  match c with
  | Input | Output | Feature =>
      match v with
      | None => Err TypeError
      | Some (VInt i) => item_init c (Some (VNamed (flags_name i) i))
      | Some x => item_init c (Some x)
      end
  | Collection =>
      match v with
      | None => Err TypeError
      | Some (VInt i) =>
          if i <? Z.of_nat (length collection_rev) then
            let* (n, z) := py_index collection_rev i in
            item_init c (Some (VNamed n z))
          else item_init c (Some (VInt i))
      | Some x => item_init c (Some x)
      end
  | EndCollection | Push | Pop =>
      match v with
      | Some x => if py_int x =? 0 then item_init c (Some (VInt 0))
                  else Err AssertionError
      | None => Err AssertionError
      end
  | Unit =>
      item_init c (match v with None => None | Some x => Some (usual_unit x) end)
  | Usage | UsageMinimum | UsageMaximum =>
      let* u := lookup_opt db v in
      item_init c (Some u)
  | _ => item_init c v
  end.

(* struct.pack/unpack of "<B" "<H" "<L" and their lower-case (signed)
   versions: n little-endian bytes. *)
Fixpoint le_bytes (n : nat) (z : Z) : list Z :=
  match n with
  | O => []
  | S k => z mod 256 :: le_bytes k (z / 256)
  end.

Fixpoint le_value (l : list Z) : Z :=
  match l with
  | [] => 0
  | b :: r => b + 256 * le_value r
  end.

Definition pack (sgn : bool) (n : nat) (z : Z) : result (list Z) :=
  let w := 8 * Z.of_nat n in
  let '(lo, hi) := if sgn then (- 2 ^ (w - 1), 2 ^ (w - 1)) else (0, 2 ^ w) in
  if (lo <=? z) && (z <? hi) then Ok (le_bytes n z) else Err StructError.

Definition unpack (sgn : bool) (n : nat) (l : list Z) : result Z :=
  if Nat.eqb (length l) n then
    let u := le_value l in
    Ok (if sgn && (2 ^ (8 * Z.of_nat n - 1) <=? u)
        then u - 2 ^ (8 * Z.of_nat n) else u)
  else Err StructError.

(* Item.bytes -- item.py:73-108.
   [flog2 m] stands for [int(math.log(m, 2))]; the model uses the exact
   floor of the logarithm (see C02_log_robust in Properties for exactly what
   is needed of the floating-point computation). *)
Definition bytes_with (flog2 : Z -> Z) (i : item) : result (list Z) :=
  let c := ic i in
  let m0 := ival i in
  let neg := signed c && (m0 <? 0) in
  let m := if neg then - m0 - 1 else m0 in
  let* bits :=
    (if negb (m =? 0) then
       if m <? 0 then Err ValueError      (* math.log of a negative number *)
       else Ok (flog2 m + (if signed c then 1 else 0) + 1)
     else Ok (if truthy (iv i) then 1 else 0)) in
  let n : nat :=
    if (bits =? 0) && optional c then 0%nat
    else if bits <=? 8 then 1%nat
    else if bits <=? 16 then 2%nat
    else 4%nat in
  let l := match n with 0%nat => 0 | 1%nat => 1 | 2%nat => 2 | _ => 3 end in
  let hdr := Z.lor (Z.lor (Z.shiftl (tag_of c) 4)
                          (Z.shiftl (kind_int (kind_of c)) 2)) l in
  match n with
  | 0%nat => Ok [hdr]
  | _ => let* p := pack (signed c) n m0 in Ok (hdr :: p)
  end.

Definition bytes (i : item) : result (list Z) := bytes_with Z.log2 i.

(* Item.parse -- item.py:31-57 *)
Definition parse (db : udb) (data : list Z) : result item :=
  match data with
  | [] => Err IndexError
  | h :: rest =>
      let kind := Z.land (Z.shiftr h 2) 3 in
      let tag := Z.shiftr h 4 in
      match itemclass kind tag with
      | None => Err KeyError
      | Some c =>
          let size := Z.land h 3 in
          let* value :=
            (if size =? 1 then unpack (signed c) 1 rest
             else if size =? 2 then unpack (signed c) 2 rest
             else if size =? 3 then unpack (signed c) 4 rest
             else Ok 0) in
          mk_item db c (Some (VInt value))
      end
  end.

(* Item.__str__ -- item.py:21-25, 67-71.  Every registered class has a
   NamedConstant tag, so tagname is the name of the tag. *)
Definition item_str (i : item) : string :=
  if negb (ival i =? 0) || negb (optional (ic i))
  then (tag_name (ic i) ++ " (" ++ pval_name (iv i) ++ ")")%string
  else tag_name (ic i).
