(* CSpec.v -- the text between the braces of a C array initialiser: integer
   constants separated by commas, white space, comments.  Written after the
   C standard (6.4.4.1, 6.4.9, 6.7.9), independently of the parser. *)
From Coq Require Import ZArith List Bool Ascii String.
From Verif Require Import Py Spec TextFormats TextProofs.
Import ListNotations.
Local Open Scope list_scope.
Local Open Scope Z_scope.

(** [Hexa x ds]: 0x or 0X and hexadecimal digits; [Decimal ds]: decimal
    digits, the first not 0 unless it is alone.  Octal constants and suffixes
    are left out. *)
Inductive numeral := Hexa (upper : bool) (ds : text) | Decimal (ds : text).

Definition numeral_text (n : numeral) : text :=
  match n with
  | Hexa u ds => "0"%char :: (if u then "X"%char else "x"%char) :: ds
  | Decimal ds => ds
  end.

(** positional value of a sequence of digits below the base, most
    significant first; nothing for no digits or for other characters *)
Fixpoint positional (base acc : Z) (ds : text) : option Z :=
  match ds with
  | [] => Some acc
  | d :: r =>
      match digit d with
      | Some k => if k <? base then positional base (base * acc + k) r else None
      | None => None
      end
  end.

Definition denotes (n : numeral) (z : Z) : Prop :=
  match n with
  | Hexa _ ds => ds <> [] /\ positional 16 0 ds = Some z
  | Decimal ds => (match ds with [] => False | "0"%char :: r => r = [] | _ => True end) /\ positional 10 0 ds = Some z
  end.

Inductive piece :=
| Blank (c : ascii)
| LineComment (body : text)    (* // body, newline *)
| BlockComment (body : text)   (* slash star body star slash *)
| Comma
| Number (n : numeral).

Definition piece_text (p : piece) : text :=
  match p with
  | Blank c => [c]
  | LineComment b => "/"%char :: "/"%char :: b ++ [nl]
  | BlockComment b => "/"%char :: "*"%char :: b ++ ["*"%char; "/"%char]
  | Comma => [","%char]
  | Number n => numeral_text n
  end.

Definition render (ps : list piece) : text := flat_map piece_text ps.

(** space, tab, newline, vertical tab, form feed, carriage return *)
Definition blanks : list ascii := map ascii_of_nat [32; 9; 10; 11; 12; 13]%nat.

Definition occurs (w t : text) : Prop := exists a b, t = a ++ w ++ b.

(** white space and comments *)
Definition gap (p : piece) : Prop :=
  match p with
  | Blank c => In c blanks
  | LineComment b => ~ In nl b
  | BlockComment b => ~ occurs ["*"%char; "/"%char] b
  | _ => False
  end.

(** the constants, separated by commas; a comma may follow the last *)
Inductive c_list : list piece -> list Z -> Prop :=
| c_end ps : Forall gap ps -> c_list ps []
| c_last ps n z qs : Forall gap ps -> denotes n z -> Forall gap qs -> c_list (ps ++ Number n :: qs) [z]
| c_more ps n z qs rs zs :
    Forall gap ps -> denotes n z -> Forall gap qs -> c_list rs zs ->
    c_list (ps ++ Number n :: qs ++ Comma :: rs) (z :: zs).

(** the text of an initialiser of the bytes [zs] *)
Definition c_bytes (t : text) (zs : list Z) : Prop :=
  exists ps, t = render ps /\ c_list ps zs /\ Forall is_byte zs.

(** What the parser asks for beyond C: numbers in hexadecimal or of one
    digit; no // inside a comment between slash-star and star-slash, and no
    comment directly after one. *)
Definition readable_number (n : numeral) : Prop :=
  match n with Hexa _ _ => True | Decimal ds => (length ds <= 1)%nat end.

Fixpoint readable (ps : list piece) : Prop :=
  match ps with
  | [] => True
  | p :: r =>
      match p with
      | Number n => readable_number n
      | BlockComment b =>
          ~ occurs ["/"%char; "/"%char] b /\
          match r with LineComment _ :: _ | BlockComment _ :: _ => False | _ => True end
      | _ => True
      end /\ readable r
  end.

(** the parts of a text between commas *)
Fixpoint parts (t : text) : list text :=
  match t with
  | [] => [[]]
  | c :: r => match parts r with
              | w :: ws => if Ascii.eqb c ","%char then [] :: w :: ws else (c :: w) :: ws
              | [] => []
              end
  end.

(** ASCII white space in the sense of Python *)
Definition white (c : ascii) : bool :=
  existsb (Nat.eqb (nat_of_ascii c)) [9; 10; 11; 12; 13; 28; 29; 30; 31; 32]%nat.

(** characters of numbers as Python reads them *)
Definition numeric (c : ascii) : bool :=
  existsb (Ascii.eqb c) (list_ascii_of_string "0123456789abcdefABCDEFxX_+-").
