(* PlainSpec.v -- plain ints as opposed to named constants *)
From Coq Require Import ZArith.
From Verif Require Import Py Usage Item.

(** the items the decompiler and MainMerge compute with *)
Definition numeric (c : icls) : bool :=
  match c with
  | LogicalMinimum | LogicalMaximum | PhysicalMinimum | PhysicalMaximum | UnitExponent | ReportSize | ReportID | ReportCount
  | DesignatorIndex | DesignatorMinimum | DesignatorMaximum | StringIndex | StringMinimum | StringMaximum => true
  | _ => false
  end.

Definition plain_number (c : icls) (v : pval) : Prop := numeric c = true -> exists z, v = VInt z.
