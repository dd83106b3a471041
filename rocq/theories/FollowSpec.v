(* FollowSpec.v -- trees one after the other, a report going on where the last
   one ended (C94) *)
From Coq Require Import ZArith List.
From Verif Require Import Descriptor.
Import ListNotations.
Local Open Scope list_scope.
Local Open Scope Z_scope.

(** the members of two trees in a row; where the first ends with the report
    with which the second begins, the two reports are one *)
Definition joined (a b : list tree) : list tree :=
  match rev a, b with
  | TReport i l :: r, TReport j k :: b' => if i =? j then rev r ++ TReport i (l ++ k) :: b' else a ++ b
  | _, _ => a ++ b
  end.
