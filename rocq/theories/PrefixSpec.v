(* PrefixSpec.v -- trees that go on where another one stops; independent of the
   Streamer. *)
From Coq Require Import ZArith List.
From Verif Require Import Py Item Descriptor.
Import ListNotations.
Open Scope Z_scope.

(** [goes_on n t t']: [t'] is [t] with more members at the end of the tree, of
    its last member, of the last member of that one and so on; the additions are
    in [n] collections that end with [t] *)
Inductive goes_on : nat -> tree -> tree -> Prop :=
| go_same t : goes_on 0 t t
| go_top ms ns : goes_on 0 (TTop ms) (TTop (ms ++ ns))
| go_top_in n ms m m' ns : goes_on n m m' -> goes_on n (TTop (ms ++ [m])) (TTop (ms ++ m' :: ns))
| go_report id ms ns : goes_on 0 (TReport id ms) (TReport id (ms ++ ns))
| go_report_in n id ms m m' ns : goes_on n m m' -> goes_on n (TReport id (ms ++ [m])) (TReport id (ms ++ m' :: ns))
| go_coll k u ms ns : goes_on 1 (TColl k u ms) (TColl k u (ms ++ ns))
| go_coll_in n k u ms m m' ns : goes_on n m m' -> goes_on (S n) (TColl k u (ms ++ [m])) (TColl k u (ms ++ m' :: ns)).
