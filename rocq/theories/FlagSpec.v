(* FlagSpec.v -- the flags of data items, the types of collections and the
   tags of data items, as in the HID specification 6.2.2.4 to 6.2.2.6, under
   the names hrdc uses: C87. *)
From Coq Require Import ZArith List String.
Import ListNotations.
Local Open Scope string_scope.

(** bit by bit: the word for 0 and the word for 1 *)
Definition words : list (string * string) :=
  [("Data", "Constant"); ("Array", "Variable"); ("Absolute", "Relative"); ("NoWrap", "Wrap");
   ("Linear", "NonLinear"); ("PreferredState", "NoPreferred"); ("NoNullPosition", "NullState");
   ("NonVolatile", "Volatile"); ("BitField", "BufferedBytes")].

Definition flag_word (n : string) : Prop := exists z o, In (z, o) words /\ (n = z \/ n = o).

(** the types of collections, from 0 *)
Definition collection_types : list string :=
  ["Physical"; "Application"; "Logical"; "Report"; "NamedArray"; "UsageSwitch"; "UsageModifier"].

(** the data items *)
Definition data_items : list string := ["Input"; "Output"; "Feature"].
