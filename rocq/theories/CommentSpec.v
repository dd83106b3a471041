(* CommentSpec.v -- what the comments in C output should say: the item and its
   number, by the names of the HID specification where it has names.  Written
   from HID 1.11 (6.2.2.4 to 6.2.2.8) and the HID Usage Tables; uses nothing of
   the model but the item classes and Python's decimal and hexadecimal notation
   of a number. *)
From Coq Require Import ZArith List Bool String Ascii.
From Verif Require Import Py Usage Item HidSpec.
Import ListNotations.
Local Open Scope string_scope.
Local Open Scope list_scope.
Local Open Scope Z_scope.

(** names of items *)
Definition hid_item_name (c : icls) : string :=
  match c with
  | Input => "Input" | Output => "Output" | Feature => "Feature"
  | Collection => "Collection" | EndCollection => "EndCollection"
  | UsagePage => "UsagePage" | LogicalMinimum => "LogicalMinimum" | LogicalMaximum => "LogicalMaximum"
  | PhysicalMinimum => "PhysicalMinimum" | PhysicalMaximum => "PhysicalMaximum"
  | UnitExponent => "UnitExponent" | Unit => "Unit" | ReportSize => "ReportSize"
  | ReportID => "ReportID" | ReportCount => "ReportCount" | Push => "Push" | Pop => "Pop"
  | Usage => "Usage" | UsageMinimum => "UsageMinimum" | UsageMaximum => "UsageMaximum"
  | DesignatorIndex => "DesignatorIndex" | DesignatorMinimum => "DesignatorMinimum"
  | DesignatorMaximum => "DesignatorMaximum" | StringIndex => "StringIndex"
  | StringMinimum => "StringMinimum" | StringMaximum => "StringMaximum" | Delimiter => "Delimiter"
  end%string.

(** bits of Input, Output and Feature items *)
Definition hid_bits : list (Z * string) :=
  [(0, "Constant"); (1, "Variable"); (2, "Relative"); (3, "Wrap"); (4, "NonLinear");
   (5, "NoPreferred"); (6, "NullState"); (7, "Volatile"); (8, "BufferedBytes")]%string.

Fixpoint listed (l : list string) : string :=
  match l with
  | [] => ""
  | [x] => x
  | x :: r => x ++ "|" ++ listed r
  end%string.

(** the bits that are set *)
Definition bits_named (v : Z) : string :=
  match filter (fun e => Z.testbit v (fst e)) hid_bits with
  | [] => "Array"%string
  | l => listed (map snd l)
  end.

Definition hid_collections : list (Z * string) :=
  [(0, "Physical"); (1, "Application"); (2, "Logical"); (3, "Report"); (4, "NamedArray");
   (5, "UsageSwitch"); (6, "UsageModifier")]%string.

(** units, by their nibbles (6.2.2.7): system, length, mass, time, temperature,
    current, luminous intensity *)
Definition hid_units : list (Z * string) :=
  [(0x11, "Centimeter"); (0x12, "Radian"); (0x13, "Inch"); (0x14, "Degree"); (0x101, "Gram");
   (0x103, "Slug"); (0x1000, "Second"); (0x10001, "Kelvin"); (0x10003, "Fahrenheit");
   (0x100000, "Ampere"); (0x1000000, "Candela"); (0xf011, "Velocity"); (0xf111, "Momentum");
   (0xe011, "G"); (0xe111, "Newton"); (0xe121, "Joule"); (0xf0d121, "Volt")]%string.

Definition hid_pages : list (Z * string) :=
  [(0x01, "GenericDesktop"); (0x02, "Simulation"); (0x03, "VR"); (0x05, "Game"); (0x06, "Device");
   (0x07, "Keyboard"); (0x08, "Led"); (0x09, "Button"); (0x0a, "Ordinal"); (0x0b, "TelephonyDevice");
   (0x0c, "Consumer"); (0x0d, "Digitizers"); (0x0f, "PID"); (0x20, "Sensors"); (0x59, "Lighting");
   (0x90, "Camera"); (0xff00, "Arcade")]%string.

(** the name of a number, or its digits *)
Definition named (table : list (Z * string)) (v : Z) : string :=
  match find (fun e => fst e =? v) table with
  | Some (_, n) => n
  | None => dec_of_Z v
  end.

(** the part of a name after its first dot *)
Fixpoint after_dot (s : string) : option string :=
  match s with
  | EmptyString => None
  | String c r => if Ascii.eqb c "."%char then Some r else after_dot r
  end.

(** the name of a usage: of a long one, the registered name; of a short one,
    the part within the page in force *)
Definition usage_named (db : udb) (page v : Z) : string :=
  if 2 ^ 16 <=? v then match db v with Some (n, _) => n | None => hex_of_Z v end
  else
    match (if page =? 0 then None else db (2 ^ 16 * page + v)) with
    | Some (n, _) => match after_dot n with Some s => s | None => dec_of_Z v end
    | None => dec_of_Z v
    end.

Definition number_named (db : udb) (page : Z) (w : witem) : string :=
  let v := w_val w in
  match w_cls w with
  | Input | Output | Feature => bits_named v
  | Collection => named hid_collections v
  | Unit => named hid_units v
  | UsagePage => named hid_pages v
  | Usage | UsageMinimum | UsageMaximum => usage_named db page v
  | _ => dec_of_Z v
  end.

(** the comment of an item; the number is left out of an Input or EndCollection
    of 0 *)
Definition comment (db : udb) (page : Z) (w : witem) : string :=
  let number := (" (" ++ number_named db page w ++ ")")%string in
  (hid_item_name (w_cls w) ++
   match w_cls w with
   | Input | EndCollection => if (w_val w =? 0)%Z then "" else number
   | _ => number
   end)%string.

(** the usage page in force after some items (6.2.2.7) *)
Fixpoint page_from (page : Z) (saved : list Z) (l : list witem) : Z :=
  match l with
  | [] => page
  | w :: r =>
      match w_cls w with
      | UsagePage => page_from (w_val w) saved r
      | Push => page_from page (page :: saved) r
      | Pop => match saved with p :: s => page_from p s r | [] => page_from page [] r end
      | _ => page_from page saved r
      end
  end.
Definition page_in_force (l : list witem) : Z := page_from 0 [] l.

(** the same if Push and Pop are not looked at *)
Fixpoint last_page (page : Z) (l : list witem) : Z :=
  match l with
  | [] => page
  | w :: r => last_page (match w_cls w with UsagePage => w_val w | _ => page end) r
  end.

(** collections open after some items, and around the next one *)
Fixpoint open_after (l : list witem) : Z :=
  match l with
  | [] => 0
  | w :: r => match w_cls w with Collection => 1 | EndCollection => -1 | _ => 0 end + open_after r
  end.
Definition open_around (before : list witem) (w : witem) : Z :=
  open_after before - match w_cls w with EndCollection => 1 | _ => 0 end.

Definition is_any_usage (c : icls) : bool :=
  match c with Usage | UsageMinimum | UsageMaximum => true | _ => false end.

(** Input, Output and Feature items with only the nine bits that have names *)
Definition nine_bits (w : witem) : Prop :=
  w_cls w = Input \/ w_cls w = Output \/ w_cls w = Feature -> 0 <= w_val w < 2 ^ 9.
