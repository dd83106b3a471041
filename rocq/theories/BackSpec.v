(* BackSpec.v -- what decompiling a compiled tree gives back; independent of
   the Streamer and of the Extractor. *)
From Coq Require Import ZArith List Bool.
From Verif Require Import Py Usage Item Descriptor HidSpec StreamSpec.
Import ListNotations.
Open Scope Z_scope.

(** the open collections, innermost first, with kind and usage *)
Definition place := list (pval * option pval).

(** the values of a tree in order, each in its collections and its report *)
Fixpoint located (open : place) (ls : list leaf) : list (place * Z * value) :=
  match ls with
  | [] => []
  | LOpen k u :: r => located ((k, u) :: open) r
  | LClose :: r => located (tl open) r
  | LVal rid v :: r => (open, rid, v) :: located open r
  end.

(** a field that carries data: neither Align, nor Padding, nor constant *)
Definition real (v : value) : bool :=
  match v_kind v with KValue => negb (is_constant (py_int (v_flags v))) | _ => false end.

Definition real_values (ls : list leaf) : list (place * Z * value) :=
  filter (fun x => real (snd x)) (located [] ls).

(** collections with the same kinds and usages *)
Definition same_place (a b : place) : Prop :=
  Forall2 (fun x y => py_int (fst x) = py_int (fst y) /\
                      option_map py_int (snd x) = option_map py_int (snd y)) a b.

(** The attributes of two Values, as numbers.  The alignment is not compared:
    no item tells it.  Neither is the physical range of a NamedArray, which is
    always its logical range. *)
Record same_attributes (v w : value) : Prop := {
  sa_way : py_int (v_way w) = py_int (v_way v);
  sa_usage : usage_list (v_usage w) = usage_list (v_usage v);
  sa_size : v_size w = v_size v;
  sa_flags : py_int (v_flags w) = py_int (v_flags v);
  sa_lmin : or0 (v_lmin w) = or0 (v_lmin v);
  sa_lmax : or0 (v_lmax w) = or0 (v_lmax v);
  sa_pmin : is_array v = false -> or0 (v_pmin w) = or0 (v_pmin v);
  sa_pmax : is_array v = false -> or0 (v_pmax w) = or0 (v_pmax v);
  sa_named : array_usages (v_named w) = array_usages (v_named v);
  sa_unit : py_int (v_unit w) = py_int (v_unit v);
  sa_uexp : v_uexp w = v_uexp v;
  sa_desig : v_desig w = v_desig v;
  sa_str : v_str w = v_str v;
  sa_count : v_count w = v_count v
}.

Definition same_value (x y : place * Z * value) : Prop :=
  let '(p, r, v) := x in
  let '(p', r', v') := y in
  same_place p p' /\ r' = r /\ same_attributes v v'.

(** a usage with a page, of type NamedArray *)
Definition nary (db : udb) (u : option pval) : Prop :=
  match u with
  | Some (VUsage _ z ks) => 65536 <= z /\ In NAry ks
  | Some (VInt z) => exists n ks, 65536 <= z /\ db z = Some (n, ks) /\ In NAry ks
  | _ => False
  end.

(** in a collection that is not taken for the one of a NamedArray *)
Definition apart (db : udb) (open : place) (flags : Z) : Prop :=
  exists k u r, open = (k, u) :: r /\ ~ (flags = 2 /\ py_int k = 4) /\ ~ (py_int k = 2 /\ nary db u).

(** a value that comes back:
    - its count is one, or it is a buffer of bytes (flag 0x100);
    - a NamedArray with a usage has a NamedArray usage, no unit, no exponent;
    - a NamedArray without usage has no unit, no exponent, and is apart;
    - another value of count one with as many usages as logical values is
      apart and not an array. *)
Definition restorable (db : udb) (x : place * Z * value) : Prop :=
  let '(open, _, v) := x in
  let flags := py_int (v_flags v) in
  real v = true ->
  (v_count v = 1 \/ (is_array v = false /\ Z.testbit flags 8 = true)) /\
  (if is_array v then
     py_int (v_unit v) = 0 /\ v_uexp v = 0 /\
     match usage_list (v_usage v) with
     | [] => apart db open flags
     | _ => nary db (v_usage v)
     end
   else
     v_count v = 1 -> Z.of_nat (length (usage_list (v_usage v))) = or0 (v_lmax v) - or0 (v_lmin v) + 1 ->
     apart db open flags /\ flags <> 0).

(** after the last value with data, a collection ends *)
Definition idle (x : leaf) : Prop := match x with LVal _ v => real v = false | _ => True end.

Definition closing (x : leaf) : Prop :=
  match x with
  | LOpen _ _ => False
  | LClose => True
  | LVal _ v => real v = true /\ is_array v = true /\ usage_list (v_usage v) <> []
  end.

Definition settled (ls : list leaf) : Prop :=
  exists a x b, ls = a ++ x :: b /\ closing x /\ Forall idle b.

(** Usages by number, as the decompiler finds them in a binary descriptor and
    looks them up in its registry.  Zero is left alone: a named zero is
    written, the int 0 is not. *)
Definition by_number (x : pval) : pval := if py_int x =? 0 then x else VInt (py_int x).

Definition bare_array (a : option narr) : option narr :=
  match a with Some (NList l) => Some (NList (map by_number l)) | _ => a end.

Definition bare_value (v : value) : value :=
  Value (v_kind v) (v_way v) (option_map by_number (v_usage v)) (v_size v) (v_flags v) (v_lmin v) (v_lmax v) (v_pmin v) (v_pmax v)
        (bare_array (v_named v)) (v_unit v) (v_uexp v) (v_desig v) (v_str v) (v_count v) (v_align v).

Definition bare (x : place * Z * value) : place * Z * value :=
  let '(p, r, v) := x in (map (fun y => (fst y, option_map by_number (snd y))) p, r, bare_value v).

(** a usage registered as the usage of NamedArrays *)
Definition array_usage (db : udb) (z : Z) : Prop := exists n ks, db z = Some (n, ks) /\ In NAry ks.
