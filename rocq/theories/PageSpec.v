(* PageSpec.v -- specifications for streams with usages that do not include
   their page, independent of the optimiser. *)
From Coq Require Import ZArith List Bool.
From Verif Require Import Item HidSpec OptSpec AllSpec.
Import ListNotations.
Open Scope Z_scope.

(** a stream without its UsagePage items: a host reads the usages as the
    numbers written *)
Definition unpaged (l : list witem) : list witem :=
  filter (fun w => negb (icls_eqb (w_cls w) UsagePage)) l.

(** [regular] for streams with any usages *)
Definition orderly (l : list spec_item) : Prop :=
  Forall (fun x => fst x <> Delimiter /\ (fst x = DesignatorIndex -> snd x <> 0)) l /\
  (no_physical l \/ Forall own_physical (chunks l)).
