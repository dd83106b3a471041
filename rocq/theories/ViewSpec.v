(* ViewSpec.v -- what a reader that ignores Push, Pop and Delimiter sees of a
   descriptor at each main item. *)
From Coq Require Import ZArith List Bool.
From Verif Require Import Py Usage Item HidSpec ExtractSpec VerdictSpec.
Import ListNotations.
Local Open Scope list_scope.
Local Open Scope Z_scope.

(** the single strings (designators) since the last main item or, without any,
    those from the last minimum to the last maximum *)
Definition labels_told (one mn mx : icls) (run : list (icls * Z)) : list Z :=
  match told one run with
  | [] => match final (told mn run), final (told mx run) with Some a, Some b => upto a b | _, _ => [] end
  | l => l
  end.

(** What a main item shows: the global table, usages with their page, strings,
    designators, kind and number.  Of a collection only the first usage counts,
    of the end of a collection nothing, of constants the way, the report and the
    number of bits, of data everything but the usage page itself. *)
Definition view := (gtab * list Z * list Z * list Z * icls * Z)%type.

Definition gist (g : gtab) (run : list (icls * Z)) (c : icls) (f : Z) : view :=
  match c with
  | Collection => (g_init, firstn 1 (usages_told (g_page g) run), [], [], c, f)
  | EndCollection => (g_init, [], [], [], c, 0)
  | _ =>
      if is_constant f then (g_set ReportSize (g_size g * g_count g) (g_set ReportID (g_rid g) g_init), [], [], [], c, 1)
      else (g_set UsagePage 0 g, usages_told (g_page g) run, labels_told StringIndex StringMinimum StringMaximum run,
            labels_told DesignatorIndex DesignatorMinimum DesignatorMaximum run, c, f)
  end.

Fixpoint views (g : gtab) (run l : list (icls * Z)) : list view :=
  match l with
  | [] => []
  | (c, v) :: r =>
      match hid_kind c with
      | KMain => gist g run c v :: views g [] r
      | KGlobal => views (g_set c v g) run r
      | KLocal => views g (run ++ [(c, v)]) r
      end
  end.

(** Streams that differ in what no main item shows: items of different classes
    between main items trade places; Push, Pop and Delimiter come and go; of two
    global items of a class in a row the last counts. *)
Inductive idle_same : list (icls * Z) -> list (icls * Z) -> Prop :=
| is_refl l : idle_same l l
| is_trade a x y b : hid_kind (fst x) <> KMain -> hid_kind (fst y) <> KMain -> fst x <> fst y -> idle_same (a ++ x :: y :: b) (a ++ y :: x :: b)
| is_idle a c v b : c = Push \/ c = Pop \/ c = Delimiter -> idle_same (a ++ (c, v) :: b) (a ++ b)
| is_over a c v w b : hid_kind c = KGlobal -> idle_same (a ++ (c, v) :: (c, w) :: b) (a ++ (c, w) :: b)
| is_sym l m : idle_same l m -> idle_same m l
| is_trans l m n : idle_same l m -> idle_same m n -> idle_same l n.
