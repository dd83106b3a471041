(* HeedSpec.v -- the local items a reader heeds that knows single usages,
   strings and designators or one range of them per main item. *)
From Coq Require Import List Bool.
From Verif Require Import Item HidSpec StackSpec.
Import ListNotations.

Section Heed.
  Context {A : Type} (cls : A -> icls).

  Definition of_class (c : icls) (a : A) : bool := icls_eqb (cls a) c.

  (** without the items of class [c] but the last *)
  Fixpoint last_only (c : icls) (run : list A) : list A :=
    match run with
    | [] => []
    | a :: r => if of_class c a && existsb (of_class c) r then last_only c r else a :: last_only c r
    end.

  (** Where there are single items there are no bounds, elsewhere the last
      bounds count. *)
  Definition sift (one mn mx : icls) (run : list A) : list A :=
    if existsb (of_class one) run
    then filter (fun a => negb (of_class mn a || of_class mx a)) run
    else last_only mn (last_only mx run).

  (** [run]: the items since the last main item *)
  Fixpoint heed (one mn mx : icls) (run l : list A) : list A :=
    match l with
    | [] => run
    | a :: r =>
        match hid_kind (cls a) with
        | KMain => sift one mn mx run ++ a :: heed one mn mx [] r
        | _ => heed one mn mx (run ++ [a]) r
        end
    end.

  Definition heeded (l : list A) : list A :=
    heed Usage UsageMinimum UsageMaximum []
      (heed StringIndex StringMinimum StringMaximum []
        (heed DesignatorIndex DesignatorMinimum DesignatorMaximum [] l)).
End Heed.
