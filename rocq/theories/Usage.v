(* Usage.v -- model of hrdc/usage/usage.py *)
From Verif Require Import Py.

(** The class attribute [Usage.reverse] (usage.py:4,10-11): a mutable dict
    from usage number to the last Usage object registered with it.  The
    model passes its current content as an argument, so every theorem is
    universally quantified over registration histories.  A registered object
    always has [int(self)] equal to its key, hence only the name and kinds
    are stored. *)
Definition udb := Z -> option (string * list utype).

Definition empty_db : udb := fun _ => None.

(* Usage(name, value, *kinds) with register = True -- usage.py:6-11 *)
Definition register (db : udb) (name : string) (z : Z) (kinds : list utype)
  : udb :=
  fun k => if k =? z then Some (name, kinds) else db k.

(* usage.py:25-43 *)
Definition pageName (no : Z) : option string :=
  match no with
  | 0x1 => Some "GenericDesktop"
  | 0x2 => Some "Simulation"
  | 0x3 => Some "VR"
  | 0x5 => Some "Game"
  | 0x6 => Some "Device"
  | 0x7 => Some "Keyboard"
  | 0x8 => Some "Led"
  | 0x9 => Some "Button"
  | 0xa => Some "Ordinal"
  | 0xb => Some "TelephonyDevice"
  | 0xc => Some "Consumer"
  | 0xd => Some "Digitizers"
  | 0xf => Some "PID"
  | 0x20 => Some "Sensors"
  | 0x59 => Some "Lighting"
  | 0x90 => Some "Camera"
  | 0xff00 => Some "Arcade"
  | _ => None
  end%string.

(* Usage.page -- usage.py:13-17 *)
Definition usage_page (no : Z) : pval :=
  VNamed (match pageName no with Some n => n | None => dec_of_Z no end) no.

(* Usage.lookup -- usage.py:45-56.  [None] (Python None) raises TypeError in
   int(value); callers that can pass None handle it ([lookup_opt]). *)
Definition lookup (db : udb) (v : pval) : pval :=
  match v with
  | VUsage _ _ _ => v
  | VNamed n z => VUsage n z []
  | VInt z =>
      if negb (Z.shiftr z 16 =? 0) then
        match db z with
        | Some (n, ks) => VUsage n z ks
        | None => VUsage (hex_of_Z z) z []
        end
      else VUsage (hex_of_Z z) z []
  end.

Definition lookup_opt (db : udb) (v : option pval) : result pval :=
  match v with None => Err TypeError | Some v => Ok (lookup db v) end.

(* the name attribute of a Usage object *)
Definition pval_name (v : pval) : string :=
  match v with VInt z => dec_of_Z z | VNamed n _ => n | VUsage n _ _ => n end.

(* Usage.split -- usage.py:58-67; [u] is a Usage object.  When the name has
   no dot, the tuple unpacking raises ValueError and the except branch is
   taken. *)
Definition split (u : pval) : pval * pval :=
  match split_dot (pval_name u) with
  | Some (p, n) =>
      (VNamed p (Z.shiftr (py_int u) 16), VNamed n (Z.land (py_int u) 0xffff))
  | None =>
      let n := Z.land (py_int u) 0xffff in
      (usage_page (Z.shiftr (py_int u) 16), VNamed (dec_of_Z n) n)
  end.

(* Usage.inpage -- usage.py:19-23 *)
Definition inpage (db : udb) (page no : Z) : pval :=
  snd (split (lookup db (VInt (Z.lor (Z.shiftl page 16) no)))).

(** UsageRange -- usage.py:69-94 *)
Record urange := URange { r_min : pval; r_max : pval }.

(* len(r): __len__ (usage.py:77-78) raises ValueError (raised by len()) when
   negative *)
Definition range_len (r : urange) : result Z :=
  let n := py_int (r_max r) - py_int (r_min r) + 1 in
  if n <? 0 then Err ValueError else Ok n.

(* r[no] -- usage.py:80-81 *)
Definition range_getitem (db : udb) (r : urange) (no : Z) : result pval :=
  Ok (lookup db (VInt (py_int (r_min r) + no))).

(* list(iter(r)) -- usage.py:83-85 *)
Definition range_iter (db : udb) (r : urange) : list pval :=
  map (fun z => lookup db (VInt z))
      (zrange (py_int (r_min r)) (py_int (r_max r) + 1)).

(* zip(arr, arr[1:]) check of usage.py:91-93 *)
Fixpoint contiguous (l : list pval) : bool :=
  match l with
  | [] => true
  | x :: r =>
      match r with
      | [] => true
      | y :: _ => (py_int x + 1 =? py_int y) && contiguous r
      end
  end.

(* UsageRange.from_array -- usage.py:87-94 *)
Definition from_array (arr : list pval) : result urange :=
  match arr with
  | x :: _ :: _ =>
      if contiguous arr then Ok (URange x (last arr x)) else Err ValueError
  | _ => Err ValueError
  end.

(* UsageType.test -- usage.py:100-104 (the isinstance test is always true
   after lookup); None raises TypeError *)
Definition utype_test (db : udb) (t : utype) (u : option pval) : result bool :=
  let* v := lookup_opt db u in
  Ok (match v with
      | VUsage _ _ ks => existsb (utype_eqb t) ks
      | _ => false
      end).
