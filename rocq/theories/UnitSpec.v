(* UnitSpec.v -- unit codes as in the HID specification, 6.2.2.7: C86.
   Nibble 0 is the system of units, nibbles 1 to 6 are the exponents of
   length, mass, time, temperature, current and luminous intensity. *)
From Coq Require Import ZArith List String.
Import ListNotations.
Local Open Scope string_scope.
Local Open Scope Z_scope.

(** the base units of the four systems; system 0 is "None", 5 to 14 are
    reserved, 15 is left to the vendor *)
Definition bases (system : Z) : option (list string) :=
  match system with
  | 1 => Some ["centimeter"; "gram"; "second"; "kelvin"; "ampere"; "candela"]
  | 2 => Some ["radian"; "gram"; "second"; "kelvin"; "ampere"; "candela"]
  | 3 => Some ["inch"; "slug"; "second"; "fahrenheit"; "ampere"; "candela"]
  | 4 => Some ["degree"; "slug"; "second"; "fahrenheit"; "ampere"; "candela"]
  | _ => None
  end.

(** four bits, two's complement *)
Definition exponent (k : Z) (code : Z) : Z :=
  let n := (code / 16 ^ k) mod 16 in if n <? 8 then n else n - 16.

(** base units with their exponents, those with exponent 0 left out *)
Definition powers (names : list string) (exps : list Z) : list (string * Z) :=
  filter (fun e => negb (snd e =? 0)) (combine names exps).

(** what is measured with a unit code; [None] if that is no unit at all *)
Definition measures (code : Z) : option (list (string * Z)) :=
  match bases (code mod 16) with
  | Some b => Some (powers b (map (fun k => exponent k code) [1; 2; 3; 4; 5; 6]))
  | None => None
  end.

(** what the names mean, up to powers of ten (those are the unit exponent's
    business); [G] stands for an acceleration *)
Definition meant (name : string) : option (list (string * Z)) :=
  match name with
  | "Centimeter" => Some [("centimeter", 1)]
  | "Radian" => Some [("radian", 1)]
  | "Inch" => Some [("inch", 1)]
  | "Degree" => Some [("degree", 1)]
  | "Gram" => Some [("gram", 1)]
  | "Slug" => Some [("slug", 1)]
  | "Second" => Some [("second", 1)]
  | "Kelvin" => Some [("kelvin", 1)]
  | "Fahrenheit" => Some [("fahrenheit", 1)]
  | "Ampere" => Some [("ampere", 1)]
  | "Candela" => Some [("candela", 1)]
  | "CmPerSec" => Some [("centimeter", 1); ("second", -1)]
  | "Momentum" => Some [("centimeter", 1); ("gram", 1); ("second", -1)]
  | "G" => Some [("centimeter", 1); ("second", -2)]
  | "Newton" => Some [("centimeter", 1); ("gram", 1); ("second", -2)]
  | "Joule" => Some [("centimeter", 2); ("gram", 1); ("second", -2)]
  | "Volt" => Some [("centimeter", 2); ("gram", 1); ("second", -3); ("ampere", -1)]
  | _ => None
  end.
