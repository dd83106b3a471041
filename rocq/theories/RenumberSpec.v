(* RenumberSpec.v -- giving Reports other ids; independent of the Streamer. *)
From Coq Require Import ZArith List.
From Verif Require Import Py Item Descriptor HidSpec.
Import ListNotations.
Open Scope Z_scope.

Fixpoint renumber (f : Z -> Z) (t : tree) : tree :=
  match t with
  | TValue v => TValue v
  | TReport id ms => TReport (f id) (map (renumber f) ms)
  | TTop ms => TTop (map (renumber f) ms)
  | TColl k u ms => TColl k u (map (renumber f) ms)
  end.

Definition renumber_attrs (f : Z -> Z) (a : attrs) : attrs :=
  Attrs (f_way a) (f (f_rid a)) (f_flags a) (f_size a) (f_lmin a) (f_lmax a) (f_pmin a) (f_pmax a) (f_unit a) (f_uexp a).

(** the same field in another report *)
Definition renumber_event (f : Z -> Z) (e : event) : event :=
  match e with
  | EvColl k us ds ss dl => EvColl k us ds ss dl
  | EvEnd => EvEnd
  | EvPad w r fl s => EvPad w (f r) fl s
  | EvVar a u d s dl => EvVar (renumber_attrs f a) u d s dl
  | EvArr a us ds ss dl => EvArr (renumber_attrs f a) us ds ss dl
  end.

(** different ids for different ids, and no id for no id *)
Definition renumbering (f : Z -> Z) : Prop := f 0 = 0 /\ forall a b, f a = f b -> a = b.
