(* NumberedSpec.v -- descriptors whose reports are numbered; independent of the
   Streamer. *)
From Coq Require Import ZArith List.
From Verif Require Import Py Item Descriptor HidSpec.
Import ListNotations.
Open Scope Z_scope.

(** the report ids of the fields a host reads *)
Definition field_ids (ev : list event) : list Z :=
  flat_map (fun e => match e with
    | EvColl _ _ _ _ _ | EvEnd => []
    | EvPad _ r _ _ => [r]
    | EvVar a _ _ _ _ => [f_rid a]
    | EvArr a _ _ _ _ => [f_rid a]
    end) ev.

(** the Reports ([Some id]) and the values ([None]) of a tree as they are
    written from top to bottom *)
Fixpoint marks (t : tree) : list (option Z) :=
  let all := fix all ms := match ms with [] => [] | m :: r => marks m ++ all r end in
  match t with
  | TValue _ => [None]
  | TReport id ms => Some id :: all ms
  | TTop ms | TColl _ _ ms => all ms
  end.

(** a Report other than Report(0) begins before the first value *)
Definition starts_numbered (t : tree) : Prop := exists before id rest,
  marks t = map Some before ++ Some id :: rest /\ id <> 0.

(** every Report is Report(0) *)
Definition never_numbered (t : tree) : Prop := forall id, In (Some id) (marks t) -> id = 0.
