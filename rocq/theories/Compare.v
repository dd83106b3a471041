(* Compare.v -- model of the comparison of items (hrdc/stream/item.py:119-126;
   equality is Item.item_eqb) and of the operators of NamedConstant
   (hrdc/util/named_constant.py:13-63). *)
From Verif Require Import Py Usage Item.

(* Item.__lt__ between two items -- item.py:119-123 *)
Definition item_ltb (a b : item) : bool :=
  (kind_int (ikd a) <? kind_int (ikd b)) || (tag_of (ic a) <? tag_of (ic b))
  || (ival a <? ival b).

(** Python's binary operators as far as NamedConstant or scripts use them. *)
Inductive binop := OAdd | OSub | OMul | OAnd | OOr | OShl | OShr.

(* the operator on two ints; a negative shift count raises ValueError *)
Definition int_op (o : binop) (x y : Z) : result Z :=
  match o with
  | OAdd => Ok (x + y)
  | OSub => Ok (x - y)
  | OMul => Ok (x * y)
  | OAnd => Ok (Z.land x y)
  | OOr => Ok (Z.lor x y)
  | OShl => if y <? 0 then Err ValueError else Ok (Z.shiftl x y)
  | OShr => if y <? 0 then Err ValueError else Ok (Z.shiftr x y)
  end.

(* the methods NamedConstant defines for a named left operand: __add__,
   __mul__, __and__, __lshift__, __rshift__, __or__
   -- named_constant.py:22-25, 30-33, 35-38, 45-48, 50-53, 55-58 *)
Definition has_method (o : binop) : bool :=
  match o with OSub => false | _ => true end.

(* the reflected methods, for a plain int on the left: __rand__, __ror__
   -- named_constant.py:40-43, 60-63 *)
Definition has_reflected (o : binop) : bool :=
  match o with OAnd | OOr => true | _ => false end.

(* a <op> b.  int's own method gives NotImplemented on a NamedConstant, then
   Python tries the reflected method, then raises TypeError.  Every method
   returns an int. *)
Definition py_binop (o : binop) (a b : pval) : result pval :=
  let* z :=
    match a, b with
    | VInt x, VInt y => int_op o x y
    | VInt x, _ => if has_reflected o then int_op o (py_int b) x
                   else Err TypeError
    | _, _ => if has_method o then int_op o (py_int a) (py_int b)
              else Err TypeError
    end in
  Ok (VInt z).

(* ~a -- named_constant.py:27-28 *)
Definition py_invert (a : pval) : pval := VInt (Z.lnot (py_int a)).

(* a < b -- named_constant.py:13-14; an int on the left and a NamedConstant
   on the right would need __gt__ *)
Definition py_lt (a b : pval) : result bool :=
  match a, b with
  | VInt x, VInt y => Ok (x <? y)
  | VInt _, _ => Err TypeError
  | _, _ => Ok (py_int a <? py_int b)
  end.

(* a > b: NamedConstant has no __gt__, Python tries b < a *)
Definition py_gt (a b : pval) : result bool :=
  match a, b with
  | VInt x, VInt y => Ok (y <? x)
  | _, _ => py_lt b a
  end.

(* a == b -- named_constant.py:16-17; for an int on the left Python falls
   back on the __eq__ of b *)
Definition py_eq (a b : pval) : bool :=
  match a, b with
  | VInt x, VInt y => x =? y
  | VInt x, _ => py_int b =? x
  | _, _ => py_int a =? py_int b
  end.

(** Expressions over named constants and ints, as scripts write them in
    flags, units and usages. *)
Inductive cexpr :=
| CLit (v : pval)
| CBin (o : binop) (e1 e2 : cexpr)
| CInv (e : cexpr).

Fixpoint ceval (e : cexpr) : result pval :=
  match e with
  | CLit v => Ok v
  | CBin o e1 e2 => let* a := ceval e1 in let* b := ceval e2 in py_binop o a b
  | CInv e => let* a := ceval e in Ok (py_invert a)
  end.
