(* BareSpec.v -- what the optimiser keeps of every stream, whatever becomes of
   usages, strings, designators and physical ranges. *)
From Coq Require Import ZArith List Bool.
From Verif Require Import Item HidSpec OptSpec.
Import ListNotations.
Local Open Scope Z_scope.

(** an event without its usages, designators, strings and delimiters *)
Definition unlabelled (e : event) : event :=
  match e with
  | EvColl k _ _ _ _ => EvColl k [] [] [] []
  | EvVar a _ _ _ _ => EvVar a None None None []
  | EvArr a _ _ _ _ => EvArr a [] [] [] []
  | _ => e
  end.

(** an event without its physical range *)
Definition no_bounds (a : attrs) : attrs :=
  Attrs (f_way a) (f_rid a) (f_flags a) (f_size a) (f_lmin a) (f_lmax a) 0 0 (f_unit a) (f_uexp a).
Definition unscaled (e : event) : event :=
  match e with
  | EvVar a u d s dl => EvVar (no_bounds a) u d s dl
  | EvArr a us ds ss dl => EvArr (no_bounds a) us ds ss dl
  | _ => e
  end.

(** the state of a main item without its physical range *)
Definition unbounded (e : mstate) : mstate :=
  let '(g, x, c, v) := e in (g_set PhysicalMinimum 0 (g_set PhysicalMaximum 0 g), x, c, v).

(** the state of a main item with its designators other than 0 in order *)
Definition with_designators (e : mstate) : gtab * ltab * list Z * ltab * list (nat * Z) * icls * Z :=
  let '(g, x, c, v) := e in
  (g, lo_us x, filter (fun d => negb (d =? 0)) (values AtMain (g_page g) (lo_ds x)), lo_ss x, lo_dl x, c, v).

(** the items MainMerge has no reason to touch *)
Definition untouched (l : list spec_item) : list spec_item :=
  filter (fun x => negb (data_tag (fst x) || icls_eqb (fst x) ReportCount)) l.
