(* LayoutSpec.v -- the layout of a compiled tree, computed from the tree.
   Uses the leaves and events of StreamSpec.v only, not the Streamer. *)
From Verif Require Import Py Usage Item Descriptor HidSpec StreamSpec.
Local Open Scope Z_scope.

(** bits counted so far: kind of report, report id, number of bits *)
Definition tally := list (Z * Z * Z).

Definition counted (t : tally) (way rid : Z) : Z :=
  fold_right Z.add 0
    (map snd (filter (fun x => (fst (fst x) =? way) && (snd (fst x) =? rid)) t)).

(** the bits of one repetition *)
Definition once (v : value) : Z :=
  match v_kind v with KValue => v_size v | KAlign _ => 0 | KPadding => v_size v end.

(** the least number of bits that brings [n] to a multiple of [a] *)
Definition fill (a n : Z) : Z := if 1 <? a then (- n) mod a else 0.

(** [laid_out t l l']: the fields of the leaves.  [l] gives the report a host
    puts each value in, [l'] the one its gap is computed for; gaps are computed
    as if every value were repeated once. *)
Fixpoint laid_out (t : tally) (l l' : list leaf) : list event :=
  match l, l' with
  | LOpen k (Some u) :: r, _ :: r' => EvColl (py_int k) [py_int u] [] [] [] :: laid_out t r r'
  | LClose :: r, _ :: r' => EvEnd :: laid_out t r r'
  | LVal h v :: r, LVal c _ :: r' =>
      let way := py_int (v_way v) in
      let p := fill (wanted_alignment v) (counted t way c) in
      gap_events h v p ++ own_events h v ++ laid_out ((way, c, p + once v) :: t) r r'
  | _, _ => []
  end.

Definition tree_layout (t : tree) : list event :=
  laid_out [] (fst (threaded 0 t)) (fst (entered 0 t)).
