(* StackSpec.v -- what a host reads that does not know Push and Pop *)
From Coq Require Import ZArith List Bool.
From Verif Require Import Item HidSpec.
Import ListNotations.

(** the items without Push and Pop *)
Definition no_stack (l : list witem) : list witem :=
  filter (fun w => match w_cls w with Push | Pop => false | _ => true end) l.

(** the Push and Pop items *)
Definition only_stack (l : list witem) : list witem :=
  filter (fun w => match w_cls w with Push | Pop => true | _ => false end) l.
