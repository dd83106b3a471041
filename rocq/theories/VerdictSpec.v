(* VerdictSpec.v -- which descriptors the decompiler rejects, and with which
   exception, in terms of the numbers of the items; independent of the Extractor. *)
From Coq Require Import ZArith List Bool.
From Verif Require Import Py Usage Item HidSpec ExtractSpec.
Import ListNotations.
Local Open Scope list_scope.
Local Open Scope Z_scope.

(** the numbers of the items of class [c], and the last of them *)
Definition told (c : icls) (run : list (icls * Z)) : list Z :=
  flat_map (fun x => if icls_eqb (fst x) c then [snd x] else []) run.
Fixpoint final (l : list Z) : option Z :=
  match l with [] => None | [z] => Some z | _ :: r => final r end.

(** The usages of a main item, from the items since the main item before it:
    the single ones or, without any, those from the last minimum to the last
    maximum.  Numbers below 2^16 are in the page in force at the main item. *)
Definition in_page (page u : Z) : Z := if 65536 <=? u then u else page * 65536 + u.
Definition usages_told (page : Z) (run : list (icls * Z)) : list Z :=
  map (in_page page)
    (match told Usage run with
     | [] => match final (told UsageMinimum run), final (told UsageMaximum run) with Some a, Some b => upto a b | _, _ => [] end
     | us => us
     end).

(** a main item with the global table before it (Push and Pop are ignored)
    and its usages *)
Definition sight := (gtab * list Z * icls * Z)%type.

Fixpoint sights (g : gtab) (run l : list (icls * Z)) : list sight :=
  match l with
  | [] => []
  | (c, v) :: r =>
      match hid_kind c with
      | KMain => (g, usages_told (g_page g) run, c, v) :: sights g [] r
      | KGlobal => sights (g_set c v g) run r
      | KLocal => sights g (run ++ [(c, v)]) r
      end
  end.

(** an open collection: its kind, its first usage and whether anything is in
    it *)
Definition room := (Z * option Z * bool)%type.

Definition furnish (rs : list room) : list room :=
  match rs with (k, u, _) :: r => (k, u, true) :: r | [] => [] end.

(** the registry knows the usage as that of a NamedArray *)
Definition array_type (db : udb) (z : Z) : bool :=
  (65536 <=? z) &&
  match db z with Some (_, ks) => existsb (fun k => match k with NAry => true | _ => false end) ks | None => false end.

(** A data item that is a single field with a usage per logical value stands
    for its whole collection when it is Variable in a NamedArray, or when it
    is in a Logical collection whose usage is that of a NamedArray. *)
Definition stands_alone (db : udb) (rs : list room) (full : bool) (f : Z) : exn + bool :=
  if full then
    match rs with
    | [] => inl AttributeError
    | (k, u, _) :: _ =>
        if (f =? 2) && (k =? 4) then inr true
        else if k =? 2 then match u with None => inl TypeError | Some z => inr (array_type db z) end
        else inr false
    end
  else inr false.

(** the collections open after a data item and whether it took the place of
    one, or the exception *)
Definition judged (db : udb) (rs : list room) (g : gtab) (us : list Z) (f : Z) : exn + (list room * bool) :=
  let spans := Z.of_nat (length us) =? g_lmax g - g_lmin g + 1 in
  let none := match us with [] => true | _ => false end in
  if is_constant f then inr (furnish rs, false)
  else match stands_alone db rs ((g_count g =? 1) && spans) f with
  | inl e => inl e
  | inr true =>
      match rs with
      | (_, _, false) :: r => if none then inl ValueError else inr (furnish r, true)
      | _ => inl AssertionError
      end
  | inr false =>
      if (f =? 0) && spans then
        if g_count g <=? 0 then inr (rs, false)
        else if none then inl ValueError else inr (furnish rs, false)
      else inr (if is_buffered f || (0 <? g_count g) then furnish rs else rs, false)
  end.

(** [inside]: a collection gave its place to a data item and is not closed
    yet; [done]: the outermost collection was closed *)
Fixpoint verdict (db : udb) (rs : list room) (inside done : bool) (es : list sight) : option exn :=
  match es with
  | [] => if done then None else Some AttributeError
  | (g, us, c, f) :: r =>
      match c with
      | Collection => verdict db ((f, hd_error us, false) :: rs) inside done r
      | EndCollection =>
          if inside then verdict db rs false (done || match rs with [] => true | _ => false end) r
          else match rs with
          | [] => Some IndexError
          | (_, _, any) :: o => verdict db (if any then furnish o else o) false (done || match o with [] => true | _ => false end) r
          end
      | _ =>
          match judged db rs g us f with
          | inl e => Some e
          | inr (rs', b) => verdict db rs' (inside || b) done r
          end
      end
  end.
