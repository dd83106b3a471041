(* InterruptSpec.v -- vocabulary for runs that stop at an exception: C85 *)
From Verif Require Import Py Usage Item Parser Descriptor HidSpec OptSpec.

(** one collection around everything, the usual shape of a descriptor *)
Inductive enclosed : tree -> Prop :=
| enclosed_coll k u ms : enclosed (TColl k u ms)
| enclosed_top t : enclosed t -> enclosed (TTop [t])
| enclosed_report id t : enclosed t -> enclosed (TReport id [t]).

(** no Input, Output, Feature, Collection or EndCollection among the items *)
Definition nothing_declared (ws : list witem) : Prop := Forall (fun w => main_tag (w_cls w) = false) ws.
