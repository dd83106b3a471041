(* Spec.v -- small specifications used in the statements of the properties.
   Nothing here is used by the model. *)
From Coq Require Import ZArith List Bool.
From Verif Require Import Item HidSpec.
Import ListNotations.
Open Scope Z_scope.

(** the 32-bit range of an item (6.2.2.2: at most four data bytes) *)
Definition in_32_bits (c : icls) (z : Z) : Prop :=
  if hid_signed c then - 2 ^ 31 <= z < 2 ^ 31 else 0 <= z < 2 ^ 32.

(** the number a payload denotes for an item *)
Definition payload_value (c : icls) (data : list Z) : Z :=
  if hid_signed c then signed_le data else unsigned_le data.

Definition is_byte (b : Z) : Prop := 0 <= b < 256.

(** items that carry no number *)
Definition no_number (c : icls) : Prop :=
  c = EndCollection \/ c = Push \/ c = Pop.

Definition number_allowed (w : witem) : Prop :=
  no_number (w_cls w) -> w_val w = 0.

(** a complete item of a known type and tag, with an allowed number *)
Definition known_item (r : raw_item) : Prop :=
  exists w, interp_raw r = Some w /\ number_allowed w.

(** the tag and number of a wire item *)
Definition w_what (w : witem) : icls * Z := (w_cls w, w_val w).

(** the same number in the shortest form *)
Definition shortest (w : witem) : witem :=
  match w_cls w with
  | Usage | UsageMinimum | UsageMaximum => W (w_cls w) (w_val w) (2 ^ 16 <=? w_val w)
  | _ => w
  end.

(** a usage given with its page must not be a number below 2^16 *)
Definition long_form_needed (w : witem) : Prop :=
  (w_cls w = Usage \/ w_cls w = UsageMinimum \/ w_cls w = UsageMaximum) ->
  w_ext w = true -> 2 ^ 16 <= w_val w.
