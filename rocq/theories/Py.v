(* Py.v -- the fragment of Python that the model of hrdc relies on:
   exceptions as values, integers, named constants, truthiness, a few
   string operations.  No code of /repo except util/named_constant.py is
   modelled here. *)
From Coq Require Export String Ascii List ZArith Bool Lia.
From Coq Require Import DecimalString.
Export ListNotations.
Open Scope Z_scope.
Open Scope bool_scope.

(* ------------------------------------------------------------------ *)
(** Exceptions as values *)

Inductive exn :=
| KeyError | IndexError | StructError | AssertionError
| TypeError | ValueError | AttributeError.

Inductive result (A : Type) :=
| Ok (a : A)
| Err (e : exn).
Arguments Ok {A} a.
Arguments Err {A} e.

Definition bind {A B} (r : result A) (f : A -> result B) : result B :=
  match r with Ok a => f a | Err e => Err e end.

Declare Scope result_scope.
Notation "'let*' x ':=' r 'in' k" := (bind r (fun x => k))
  (at level 200, x pattern, r at level 100, k at level 200) : result_scope.
Open Scope result_scope.

Definition is_ok {A} (r : result A) : bool :=
  match r with Ok _ => true | Err _ => false end.

(* ------------------------------------------------------------------ *)
(** Usage kinds -- hrdc/usage/usage.py:106-121 (the 16 UsageType objects;
    UsageType has identity equality, so an enumeration is exact). *)
Inductive utype :=
| CA | CL | CP | RTC | LC | MC | OSC | Sel | SV | SF | DF | DV | NAry
| US | UM | OOC.

Definition utype_eqb (a b : utype) : bool :=
  match a, b with
  | CA, CA | CL, CL | CP, CP | RTC, RTC | LC, LC | MC, MC | OSC, OSC
  | Sel, Sel | SV, SV | SF, SF | DF, DF | DV, DV | NAry, NAry | US, US
  | UM, UM | OOC, OOC => true
  | _, _ => false
  end.

(* ------------------------------------------------------------------ *)
(** Values stored in items: plain Python ints, NamedConstant objects
    (hrdc/util/named_constant.py:2-5) and Usage objects
    (hrdc/usage/usage.py:3-11; a subclass of NamedConstant that also has a
    set of kinds; the set is modelled as a list, only membership is used).
    Simplification: the [value] attribute of a NamedConstant is an int (the
    package never builds one with another type). *)
Inductive pval :=
| VInt (z : Z)
| VNamed (name : string) (z : Z)
| VUsage (name : string) (z : Z) (kinds : list utype).

(* int(v) -- named_constant.py:7-8 *)
Definition py_int (v : pval) : Z :=
  match v with VInt z => z | VNamed _ z => z | VUsage _ z _ => z end.

(* bool(v): NamedConstant defines neither __bool__ nor __len__, so every
   NamedConstant is true, even one whose value is 0
   (named_constant.py:2-63). *)
Definition truthy (v : pval) : bool :=
  match v with VInt z => negb (z =? 0) | _ => true end.

(* isinstance(v, NamedConstant) *)
Definition is_named (v : pval) : bool :=
  match v with VInt _ => false | _ => true end.

(* ------------------------------------------------------------------ *)
(** Strings *)

Definition nl : ascii := ascii_of_nat 10.
Definition newline : string := String nl EmptyString.

Definition str_repeat (c : ascii) (n : nat) : string :=
  (fix go n := match n with O => EmptyString | S k => String c (go k) end) n.

(* str(z), "%d" % z for an int *)
Definition dec_of_Z (z : Z) : string := NilZero.string_of_int (Z.to_int z).

Definition hexdigit (d : Z) : ascii :=
  if d <? 10 then ascii_of_nat (Z.to_nat (48 + d))
  else ascii_of_nat (Z.to_nat (87 + d)).

(* lower-case hexadecimal digits of a non-negative number, most significant
   first, by recursion on fuel; [hex_digits z] provides enough fuel. *)
Fixpoint hex_digits_fuel (fuel : nat) (z : Z) (acc : string) : string :=
  match fuel with
  | O => acc
  | S f =>
      let acc' := String (hexdigit (z mod 16)) acc in
      if z / 16 =? 0 then acc' else hex_digits_fuel f (z / 16) acc'
  end.

Definition hex_digits (z : Z) : string :=
  hex_digits_fuel (S (Z.to_nat (Z.log2 z))) z EmptyString.

(* hex(z) *)
Definition hex_of_Z (z : Z) : string :=
  if z <? 0 then ("-0x" ++ hex_digits (- z))%string
  else ("0x" ++ hex_digits z)%string.

(* "%02x" % b for a byte 0 <= b < 256 *)
Definition hex2 (b : Z) : string :=
  String (hexdigit (b / 16)) (String (hexdigit (b mod 16)) EmptyString).

(* sep.join(l) *)
Fixpoint join (sep : string) (l : list string) : string :=
  match l with
  | [] => EmptyString
  | [x] => x
  | x :: r => (x ++ sep ++ join sep r)%string
  end.

(* s.split(".", 1): [None] when there is no dot, else the two parts *)
Fixpoint split_dot (s : string) : option (string * string) :=
  match s with
  | EmptyString => None
  | String c r =>
      if Ascii.eqb c "."%char then Some (EmptyString, r)
      else match split_dot r with
           | None => None
           | Some (p, u) => Some (String c p, u)
           end
  end.

(* Python list indexing l[i], with negative indices counting from the end *)
Definition py_index {A} (l : list A) (i : Z) : result A :=
  let n := Z.of_nat (length l) in
  let j := if i <? 0 then i + n else i in
  if (j <? 0) || (n <=? j) then Err IndexError
  else match nth_error l (Z.to_nat j) with
       | Some x => Ok x
       | None => Err IndexError
       end.

(* range(a, b) as a list *)
Definition zrange (a b : Z) : list Z :=
  map (fun k => a + Z.of_nat k) (seq 0 (Z.to_nat (b - a))).
