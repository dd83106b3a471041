(* UsageModules.v -- the usage modules of hrdc/usage and the registry
   Usage.reverse after [import hrdc.usage]. *)
From Verif Require Import Py Usage UsageTable.

(* Button(n) -- button.py:3-5; Ordinal(n) -- ordinal.py:3-4 *)
Definition button_decl (n : Z) : udecl :=
  UDecl ("Button(" ++ dec_of_Z n ++ ")") ("button.Button(" ++ dec_of_Z n ++ ")")
        (0x90000 + n) [Sel; OOC; MC; OSC].
Definition ordinal_decl (n : Z) : udecl :=
  UDecl ("Ordinal(" ++ dec_of_Z n ++ ")")
        ("ordinal.Ordinal(" ++ dec_of_Z n ++ ")") (0xa0000 + n) [CL].

(* the module-level loops -- button.py:7-8, ordinal.py:6-7 *)
Definition t_button : list udecl := map button_decl (zrange 0 128).
Definition t_ordinal : list udecl := map ordinal_decl (zrange 0 128).

(** Modules in import order -- hrdc/usage/__init__.py:3-21 *)
Definition modules : list (string * list udecl) :=
  [("button", t_button); ("pid", t_pid); ("keyboard", t_keyboard);
   ("desktop", t_desktop); ("telephony", t_telephony);
   ("consumer", t_consumer); ("ordinal", t_ordinal);
   ("simulation", t_simulation); ("led", t_led); ("vr", t_vr);
   ("game", t_game); ("camera", t_camera); ("device", t_device);
   ("digitizers", t_digitizers); ("lighting", t_lighting);
   ("sensors", t_sensors)]%string.

Definition register_decls (db : udb) (l : list udecl) : udb :=
  fold_left (fun d e => register d (u_name e) (u_value e) (u_kinds e)) l db.

(** Usage.reverse after [from hrdc.usage import *] *)
Definition default_db : udb :=
  fold_left (fun d m => register_decls d (snd m)) modules empty_db.

(** Usage.reverse after additionally importing hrdc.usage.arcade *)
Definition arcade_db : udb := register_decls default_db t_arcade.

(** getattr(module, attr) *)
Definition find_module (m : string) : option (list udecl) :=
  match find (fun e => String.eqb (fst e) m) modules with
  | Some (_, l) => Some l
  | None => None
  end.
Definition getattr (m attr : string) : option udecl :=
  match find_module m with
  | Some l => find (fun d => String.eqb (u_attr d) attr) l
  | None => None
  end.

Definition usage_of (d : udecl) : pval := VUsage (u_name d) (u_value d) (u_kinds d).

Definition get (m attr : string) : pval :=
  match getattr m attr with Some d => usage_of d | None => VInt (-1) end.

(** Calls that register usages after the import: Button(n) (button.py:3-5),
    Ordinal(n) (ordinal.py:3-4), [import hrdc.usage.arcade]. *)
Inductive call := CButton (n : Z) | COrdinal (n : Z) | CArcade.

Definition db_call (db : udb) (c : call) : udb :=
  match c with
  | CButton n => register_decls db [button_decl n]
  | COrdinal n => register_decls db [ordinal_decl n]
  | CArcade => register_decls db t_arcade
  end.

Definition db_after (h : list call) : udb := fold_left db_call h default_db.

(** Evaluation of a usage name as a Python expression after
    [from hrdc.usage import *]: module.Attribute (white space after the dot is
    skipped by Python), or button.Button(n) / ordinal.Ordinal(n) with a
    decimal literal.  Simplification: other expressions do not occur in the
    table and evaluate to nothing. *)
Fixpoint skip_spaces (s : string) : string :=
  match s with
  | String c r => if Ascii.eqb c " "%char then skip_spaces r else s
  | EmptyString => EmptyString
  end.

Fixpoint strip_prefix (p s : string) : option string :=
  match p, s with
  | EmptyString, _ => Some s
  | String a p', String b s' => if Ascii.eqb a b then strip_prefix p' s' else None
  | _, _ => None
  end.

Fixpoint strip_paren (s : string) : option string :=
  match s with
  | EmptyString => None
  | String c r =>
      match r with
      | EmptyString => if Ascii.eqb c ")"%char then Some EmptyString else None
      | _ => match strip_paren r with
             | Some t => Some (String c t)
             | None => None
             end
      end
  end.

Definition call_arg (f s : string) : option Z :=
  match strip_prefix f s with
  | Some r =>
      match strip_paren r with
      | Some d =>
          match DecimalString.NilZero.int_of_string d with
          | Some n => Some (Z.of_int n)
          | None => None
          end
      | None => None
      end
  | None => None
  end.

Definition eval_name (s : string) : option udecl :=
  match split_dot s with
  | None => None
  | Some (m, a) =>
      let a := skip_spaces a in
      match (if String.eqb m "button" then call_arg "Button(" a else None) with
      | Some n => Some (button_decl n)
      | None =>
          match (if String.eqb m "ordinal" then call_arg "Ordinal(" a else None) with
          | Some n => Some (ordinal_decl n)
          | None => getattr m a
          end
      end
  end.
