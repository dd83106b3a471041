(* StdoutSpec.v -- which data items make the decompiler talk on standard
   output, in terms of the numbers of the items; independent of the Extractor. *)
From Coq Require Import ZArith List Bool String.
From Verif Require Import Py Usage Item HidSpec ExtractSpec TextFormats VerdictSpec.
Import ListNotations.
Local Open Scope list_scope.
Local Open Scope Z_scope.

Fixpoint in_a_row (us : list Z) : bool :=
  match us with a :: ((b :: _) as r) => (b =? a + 1) && in_a_row r | _ => true end.

Definition remark (us : list Z) : list text :=
  if Nat.ltb (length us) 2 then [str "Cannot create range from array with less than 2 elements"%string]
  else if in_a_row us then [] else [str "Noncontiguous values"%string].

(** as many usages as there are values *)
Definition spanning (g : gtab) (us : list Z) : bool := Z.of_nat (length us) =? g_lmax g - g_lmin g + 1.

(** a remark is made of a data item that is an array with a usage per value,
    unless it stands for its whole collection *)
Definition remarked (db : udb) (rs : list room) (e : sight) : list text :=
  let '(g, us, c, f) := e in
  match c with
  | Input | Output | Feature =>
      if (f =? 0) && spanning g us then
        match stands_alone db rs (g_count g =? 1) f with inr false => remark us | _ => [] end
      else []
  | _ => []
  end.

(** the collections open after a main item, as in VerdictSpec *)
Definition onward (db : udb) (rs : list room) (inside : bool) (e : sight) : list room * bool :=
  let '(g, us, c, f) := e in
  match c with
  | Collection => ((f, hd_error us, false) :: rs, inside)
  | EndCollection =>
      if inside then (rs, false)
      else match rs with [] => ([], false) | (_, _, any) :: o => (if any then furnish o else o, false) end
  | _ => match judged db rs g us f with inl _ => (rs, inside) | inr (rs', b) => (rs', inside || b) end
  end.

Fixpoint remarks (db : udb) (rs : list room) (inside : bool) (es : list sight) : list text :=
  match es with
  | [] => []
  | e :: r => remarked db rs e ++ (let '(rs', b) := onward db rs inside e in remarks db rs' b r)
  end.

Definition lines (l : list text) : text := flat_map (fun x => x ++ [nl]) l.

(** no item can cause a remark: the arrays with a usage per value have two
    usages or more, each one more than the one before *)
Definition tidy (e : sight) : Prop :=
  let '(g, us, c, f) := e in
  (c = Input \/ c = Output \/ c = Feature) -> f = 0 -> Z.of_nat (length us) = g_lmax g - g_lmin g + 1 ->
  (2 <= length us)%nat /\ forall k, (S k < length us)%nat -> nth (S k) us 0 = nth k us 0 + 1.
