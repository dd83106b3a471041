(* LengthSpec.v -- the length of a report, added up from the values of a tree;
   independent of the Streamer. *)
From Coq Require Import ZArith List.
From Verif Require Import Py Item Descriptor HidSpec StreamSpec ApartSpec.
Import ListNotations.
Open Scope Z_scope.

(** the bits of a value (one with a negative count does not compile, C55) *)
Definition bits (v : value) : Z :=
  match v_kind v with
  | KValue => Z.max 0 (v_count v) * v_size v
  | KPadding => v_size v
  | KAlign _ => 0
  end.

(** the bits of kind [c] in report [r], a host taking each value to be in the
    last numbered Report before it *)
Definition total_bits (c : icls) (r : Z) (t : tree) : Z :=
  fold_right Z.add 0 (map bits (kind_values c (values_of r (fst (threaded 0 t))))).

(** nothing is aligned *)
Definition unaligned (t : tree) : Prop :=
  Forall (fun x => match x with LVal _ v => wanted_alignment v <= 1 | _ => True end) (fst (threaded 0 t)).

(** the most bits that alignment may add to report [r] *)
Definition slack_bits (c : icls) (r : Z) (t : tree) : Z :=
  fold_right Z.add 0 (map (fun v => Z.max 0 (wanted_alignment v - 1)) (kind_values c (values_of r (fst (threaded 0 t))))).
