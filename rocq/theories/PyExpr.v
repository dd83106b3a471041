(* PyExpr.v -- the Python expressions found in dumped scripts: an independent
   reader (Python 3 language reference, 2.1, 2.3, 2.4, 6.2, 6.3, 6.6, 6.9) and
   evaluator.  It accepts a subset of Python: names, decimal and hexadecimal
   integers, attributes, calls with positional and keyword arguments, lists,
   unary minus and |.  Anything else is refused, never misread. *)
From Coq Require Import DecimalString.
From Verif Require Import Py Usage Item Descriptor TextFormats UsageModules.
Local Open Scope Z_scope.

(* ------------------------------------------------------------------ *)
(** expressions *)

Inductive expr :=
| ENum (z : Z)
| EName (s : string)
| EAttr (e : expr) (s : string)
| ECall (f : expr) (args : list (option string * expr))
| EList (l : list expr)
| EOr (a b : expr)
| ENeg (e : expr).

(* ------------------------------------------------------------------ *)
(** words: a number when they start with a digit, else a name *)

Fixpoint hex_number (acc : Z) (t : text) : option Z :=
  match t with
  | [] => Some acc
  | c :: r => if is_hex c then hex_number (16 * acc + hex_val c) r else None
  end.

(* decimal numbers have no leading zeros *)
Definition dec_number (t : text) : option Z :=
  match NilEmpty.uint_of_string (string_of_list_ascii t) with
  | Some d =>
      let z := Z.of_uint d in
      if String.eqb (dec_of_Z z) (string_of_list_ascii t) then Some z else None
  | None => None
  end.

Definition word (t : text) : option expr :=
  match t with
  | [] => None
  | c :: r =>
      if between 48 57 c then
        match r with
        | x :: d :: r' =>
            if (code c =? 48) && (code x =? 120) then option_map ENum (hex_number 0 (d :: r'))
            else option_map ENum (dec_number t)
        | _ => option_map ENum (dec_number t)
        end
      else Some (EName (string_of_list_ascii t))
  end.

(* ------------------------------------------------------------------ *)
(** the reader: a push-down automaton over characters *)

(** what is open, innermost first *)
Inductive ctx :=
| XArgs (f : expr) (args : list (option string * expr)) (kw : option string)
| XItems (l : list expr)
| XDot (e : expr)
| XOr (e : expr)
| XNeg.

(** the word being read, the open contexts, the expression just completed *)
Record rd := Rd { rd_word : text; rd_open : list ctx; rd_cur : option expr }.

Definition rd_init : rd := Rd [] [] None.

Definition bracket (x : ctx) : bool := match x with XArgs _ _ _ | XItems _ => true | _ => false end.

(* a word has ended *)
Definition end_word (s : rd) : option rd :=
  match rd_word s with
  | [] => Some s
  | w =>
      match word w, rd_cur s, rd_open s with
      | Some (EName n), None, XDot e :: k => Some (Rd [] k (Some (EAttr e n)))
      | Some _, None, XDot _ :: _ => None
      | Some e, None, k => Some (Rd [] k (Some e))
      | _, _, _ => None
      end
  end.

(* the operators before the bracket *)
Fixpoint reduce (k : list ctx) (e : expr) : list ctx * expr :=
  match k with
  | XNeg :: k' => reduce k' (ENeg e)
  | XOr a :: k' => reduce k' (EOr a e)
  | _ => (k, e)
  end.

(* a character that is not part of a word *)
Definition symbol (c : ascii) (s : rd) : option rd :=
  let k := rd_open s in
  match rd_cur s with
  | Some e =>
      if Ascii.eqb c "."%char then Some (Rd [] (XDot e :: k) None)
      else if Ascii.eqb c "("%char then Some (Rd [] (XArgs e [] None :: k) None)
      else if Ascii.eqb c "|"%char then let (k', e') := reduce k e in Some (Rd [] (XOr e' :: k') None)
      else if Ascii.eqb c "="%char then
        match e, k with
        | EName n, XArgs f args None :: k' => Some (Rd [] (XArgs f args (Some n) :: k') None)
        | _, _ => None
        end
      else if Ascii.eqb c ","%char then
        match reduce k e with
        | (XArgs f args kw :: k', e') => Some (Rd [] (XArgs f (args ++ [(kw, e')]) None :: k') None)
        | (XItems l :: k', e') => Some (Rd [] (XItems (l ++ [e']) :: k') None)
        | _ => None
        end
      else if Ascii.eqb c ")"%char then
        match reduce k e with
        | (XArgs f args kw :: k', e') => Some (Rd [] k' (Some (ECall f (args ++ [(kw, e')]))))
        | _ => None
        end
      else if Ascii.eqb c "]"%char then
        match reduce k e with
        | (XItems l :: k', e') => Some (Rd [] k' (Some (EList (l ++ [e']))))
        | _ => None
        end
      else None
  | None =>
      if Ascii.eqb c "-"%char then Some (Rd [] (XNeg :: k) None)
      else if Ascii.eqb c "["%char then Some (Rd [] (XItems [] :: k) None)
      else if Ascii.eqb c ")"%char then
        match k with
        | XArgs f args None :: k' => Some (Rd [] k' (Some (ECall f args)))
        | _ => None
        end
      else if Ascii.eqb c "]"%char then
        match k with XItems l :: k' => Some (Rd [] k' (Some (EList l))) | _ => None end
      else None
  end.

(* one character; new lines count only outside brackets *)
Definition read_char (s : rd) (c : ascii) : option rd :=
  if is_word c then Some (Rd (rd_word s ++ [c]) (rd_open s) (rd_cur s))
  else
    match end_word s with
    | None => None
    | Some s1 =>
        if Ascii.eqb c " "%char then Some s1
        else if Ascii.eqb c nl then if existsb bracket (rd_open s1) then Some s1 else None
        else symbol c s1
    end.

Fixpoint read (s : rd) (t : text) : option rd :=
  match t with
  | [] => Some s
  | c :: r => match read_char s c with Some s1 => read s1 r | None => None end
  end.

(** the expression written by a text *)
Definition expression (t : text) : option expr :=
  match read rd_init t with
  | Some s =>
      match end_word s with
      | Some (Rd _ k (Some e)) => match reduce k e with ([], e') => Some e' | _ => None end
      | _ => None
      end
  | None => None
  end.

(* ------------------------------------------------------------------ *)
(** values of expressions *)

Inductive obj :=
| ONone
| OVal (v : pval)
| ORange (r : urange)
| OList (l : list pval)
| OTree (t : tree)
| OModule (m : string)
| OClass (c : string)
| OUsages (m : string).     (* button.Button, ordinal.Ordinal *)

(** after [from hrdc.usage import *] and [from hrdc.descriptor import *]
    -- hrdc/usage/__init__.py, hrdc/descriptor/__init__.py, the __all__ of
    descriptor.py:3, streamer.py:4 and compiler.py:7 *)
Definition classes : list string :=
  ["Value"; "Align"; "Padding"; "Report"; "Collection"; "TopLevel"; "Unit"; "UsageRange"]%string.

Definition global (s : string) : option obj :=
  if String.eqb s "None" then Some ONone
  else if existsb (String.eqb s) classes then Some (OClass s)
  else match find_module s with Some _ => Some (OModule s) | None => None end.

(** class attributes of Value -- descriptor.py:58-79, item.py:131-133, 168-186 *)
Definition value_constants : list (string * Z) :=
  [("Input", 8); ("Output", 9); ("Feature", 11);
   ("Data", 0); ("Constant", 1); ("Array", 0); ("Variable", 2); ("Absolute", 0); ("Relative", 4);
   ("NoWrap", 0); ("Wrap", 8); ("Linear", 0); ("NonLinear", 16); ("PreferredState", 0);
   ("NoPreferred", 32); ("NoNullPosition", 0); ("NullState", 64); ("NonVolatile", 0);
   ("Volatile", 128); ("BitField", 0); ("BufferedBytes", 256)]%string.

(** of Collection -- descriptor.py:44-50, item.py:201-207 *)
Definition collection_constants : list (string * Z) :=
  [("Physical", 0); ("Application", 1); ("Logical", 2); ("Report", 3); ("NamedArray", 4);
   ("UsageSwitch", 5); ("UsageModifier", 6)]%string.

(** of Unit -- item.py:264-267, 287-303, the values as numbers *)
Definition unit_constants : list (string * Z) :=
  [("SILinear", 1); ("SIRotation", 2); ("EnglishLinear", 3); ("EnglishRotation", 4);
   ("Centimeter", 0x11); ("Radian", 0x12); ("Inch", 0x13); ("Degree", 0x14); ("Gram", 0x101);
   ("Slug", 0x103); ("Second", 0x1000); ("Kelvin", 0x10001); ("Fahrenheit", 0x10003);
   ("Ampere", 0x100000); ("Candela", 0x1000000); ("Momentum", 0xf111);
   ("G", 0xe011); ("Newton", 0xe111); ("Joule", 0xe121); ("Volt", 0xf0d121)]%string.

Definition constant (l : list (string * Z)) (s : string) : option obj :=
  match find (fun e => String.eqb (fst e) s) l with
  | Some (n, z) => Some (OVal (VNamed n z))
  | None => None
  end.

Definition attribute (o : obj) (s : string) : option obj :=
  match o with
  | OModule m =>
      if String.eqb m "button" && String.eqb s "Button" || String.eqb m "ordinal" && String.eqb s "Ordinal"
      then Some (OUsages m)
      else match getattr m s with Some d => Some (OVal (usage_of d)) | None => None end
  | OClass c =>
      if String.eqb c "Value" then constant value_constants s
      else if String.eqb c "Collection" then constant collection_constants s
      else if String.eqb c "Unit" then
        if String.eqb s "CmPerSec" then Some (OVal (VNamed "Velocity" 0xf011)) (* item.py:298 *)
        else constant unit_constants s
      else None
  | _ => None
  end.

(** one keyword argument of Value(...) -- descriptor.py:81-90 *)
Definition set_keyword (a : vargs) (k : string) (o : obj) : option vargs :=
  let int := match o with OVal v => Some (py_int v) | _ => None end in
  let bound := match o with OVal v => Some (Some (py_int v)) | ONone => Some None | _ => None end in
  match a with
  | VArgs way usage size flags lmin lmax pmin pmax named unit uexp desig st count align =>
      let mk flags lmin lmax pmin pmax named unit uexp desig st count align :=
        Some (VArgs way usage size flags lmin lmax pmin pmax named unit uexp desig st count align) in
      if String.eqb k "flags" then
        match o with OVal v => mk v lmin lmax pmin pmax named unit uexp desig st count align | _ => None end
      else if String.eqb k "logicalMin" then
        match bound with Some b => mk flags b lmax pmin pmax named unit uexp desig st count align | None => None end
      else if String.eqb k "logicalMax" then
        match bound with Some b => mk flags lmin b pmin pmax named unit uexp desig st count align | None => None end
      else if String.eqb k "physicalMin" then
        match bound with Some b => mk flags lmin lmax b pmax named unit uexp desig st count align | None => None end
      else if String.eqb k "physicalMax" then
        match bound with Some b => mk flags lmin lmax pmin b named unit uexp desig st count align | None => None end
      else if String.eqb k "namedArray" then
        match o with
        | ORange r => mk flags lmin lmax pmin pmax (Some (NRange r)) unit uexp desig st count align
        | OList l => mk flags lmin lmax pmin pmax (Some (NList l)) unit uexp desig st count align
        | _ => None
        end
      else if String.eqb k "unit" then
        match o with OVal v => mk flags lmin lmax pmin pmax named v uexp desig st count align | _ => None end
      else if String.eqb k "unitExponent" then
        match int with Some z => mk flags lmin lmax pmin pmax named unit z desig st count align | None => None end
      else if String.eqb k "designator" then
        match int with Some z => mk flags lmin lmax pmin pmax named unit uexp z st count align | None => None end
      else if String.eqb k "string" then
        match int with Some z => mk flags lmin lmax pmin pmax named unit uexp desig z count align | None => None end
      else if String.eqb k "count" then
        match int with Some z => mk flags lmin lmax pmin pmax named unit uexp desig st z align | None => None end
      else if String.eqb k "alignment" then
        match bound with Some b => mk flags lmin lmax pmin pmax named unit uexp desig st count b | None => None end
      else None
  end.

(* each keyword once *)
Fixpoint set_keywords (a : vargs) (seen : list string) (l : list (option string * obj)) : option vargs :=
  match l with
  | [] => Some a
  | (Some k, o) :: r =>
      if existsb (String.eqb k) seen then None
      else match set_keyword a k o with Some a' => set_keywords a' (k :: seen) r | None => None end
  | (None, _) :: _ => None
  end.

Fixpoint trees (l : list (option string * obj)) : option (list tree) :=
  match l with
  | [] => Some []
  | (None, OTree t) :: r => option_map (cons t) (trees r)
  | _ => None
  end.

Definition usage_arg (o : obj) : option (option pval) :=
  match o with ONone => Some None | OVal v => Some (Some v) | _ => None end.

Definition built (r : result value) : option obj :=
  match r with Ok v => Some (OTree (TValue v)) | Err _ => None end.

(** calls -- descriptor.py:36-40, 42, 52-55, 81, 127, 133; usage.py:70;
    button.py:3-5; ordinal.py:3-4 *)
Definition call (f : obj) (args : list (option string * obj)) : option obj :=
  match f with
  | OUsages m =>
      match args with
      | [(None, OVal v)] =>
          Some (OVal (usage_of (if String.eqb m "button" then button_decl (py_int v) else ordinal_decl (py_int v))))
      | _ => None
      end
  | OClass c =>
      if String.eqb c "UsageRange" then
        match args with [(None, OVal a); (None, OVal b)] => Some (ORange (URange a b)) | _ => None end
      else if String.eqb c "TopLevel" then option_map (fun ms => OTree (TTop ms)) (trees args)
      else if String.eqb c "Report" then
        match args with
        | (None, OVal v) :: r => option_map (fun ms => OTree (TReport (py_int v) ms)) (trees r)
        | _ => None
        end
      else if String.eqb c "Collection" then
        match args with
        | (None, OVal k) :: (None, u) :: r =>
            match usage_arg u with
            | Some u' => option_map (fun ms => OTree (TColl k u' ms)) (trees r)
            | None => None
            end
        | _ => None
        end
      else if String.eqb c "Align" then
        match args with
        | [(None, OVal w); (None, OVal b)] => built (mk_align w (py_int b) (VInt 3))
        | _ => None
        end
      else if String.eqb c "Padding" then
        match args with
        | [(None, OVal w); (None, OVal n)] => built (mk_padding w (py_int n))
        | _ => None
        end
      else if String.eqb c "Value" then
        match args with
        | (None, OVal w) :: (None, u) :: (None, OVal n) :: r =>
            match usage_arg u with
            | Some u' =>
                match set_keywords (default_args w u' (py_int n)) [] r with
                | Some a => built (mk_value KValue a)
                | None => None
                end
            | None => None
            end
        | _ => None
        end
      else None
  | _ => None
  end.

Fixpoint eval (e : expr) : option obj :=
  match e with
  | ENum z => Some (OVal (VInt z))
  | EName s => global s
  | EAttr a s => match eval a with Some o => attribute o s | None => None end
  | ENeg a => match eval a with Some (OVal (VInt z)) => Some (OVal (VInt (- z))) | _ => None end
  | EOr a b =>
      match eval a, eval b with
      | Some (OVal x), Some (OVal y) => Some (OVal (VInt (Z.lor (py_int x) (py_int y))))
      | _, _ => None
      end
  | EList l =>
      option_map OList
        ((fix go (l : list expr) : option (list pval) :=
            match l with
            | [] => Some []
            | x :: r => match eval x, go r with Some (OVal v), Some vs => Some (v :: vs) | _, _ => None end
            end) l)
  | ECall f args =>
      match eval f,
            ((fix go (l : list (option string * expr)) : option (list (option string * obj)) :=
                match l with
                | [] => Some []
                | (k, x) :: r => match eval x, go r with Some o, Some os => Some ((k, o) :: os) | _, _ => None end
                end) args) with
      | Some o, Some os => call o os
      | _, _ => None
      end
  end.

(** The script: imports, then [descriptor = ] an expression ended by a new
    line outside brackets, then the call of compile_main.  [script s t] when
    running [s] binds [descriptor] to the tree [t]. *)
Definition script_head : text :=
  str "from hrdc.usage import *" ++ [nl] ++ str "from hrdc.descriptor import *" ++ [nl] ++ [nl]
  ++ str "descriptor = ".
Definition script_tail : text :=
  [nl; nl] ++ str "if __name__ == ""__main__"":" ++ [nl] ++ str "    compile_main(descriptor)" ++ [nl].

Definition script (s : text) (t : tree) : Prop :=
  exists body e, s = script_head ++ body ++ script_tail /\
    expression body = Some e /\ eval e = Some (OTree t).
