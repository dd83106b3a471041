(* AcceptSpec.v -- which inputs the decompiler and the compiler have to
   accept; independent of the model. *)
From Coq Require Import ZArith List Bool.
From Verif Require Import Py Usage Item Descriptor HidSpec StreamSpec OptSpec AllSpec ExtractSpec Spec.
Import ListNotations.
Open Scope Z_scope.

(** A data item in the collections of kinds [open], innermost first, that is
    clearly no named array: its usages are single references or one range
    and, when it has a usage per logical value,
    - a single field is in a collection that is neither Logical nor a
      NamedArray;
    - an array has a logical value. *)
Definition clear_data (open : list Z) (e : mstate) : Prop :=
  let '(g, x, _, f) := e in
  let us := values AtMain (g_page g) (lo_us x) in
  is_constant f = false ->
  simple_tab (lo_us x) /\
  (Z.of_nat (length us) = g_lmax g - g_lmin g + 1 ->
   (g_count g = 1 -> exists k o, open = k :: o /\ k <> 2 /\ k <> 4) /\
   (f = 0 -> 0 < g_count g -> g_lmin g <= g_lmax g)).

Fixpoint clear_stream (open : list Z) (es : list mstate) : Prop :=
  match es with
  | [] => True
  | (g, x, c, f) :: r =>
      match c with
      | Collection => clear_stream (f :: open) r
      | EndCollection => clear_stream (tl open) r
      | _ => clear_data open (g, x, c, f) /\ clear_stream open r
      end
  end.

(* ------------------------------------------------------------------ *)
(** Trees the compiler has to accept *)

Definition u32 (z : Z) : Prop := 0 <= z < 2 ^ 32.
Definition s32 (z : Z) : Prop := - 2 ^ 31 <= z < 2 ^ 31.

(** the numbers of a Value fit in an item; those of a constant one are not
    written, except its count, size and flags *)
Definition storable_value (v : value) : Prop :=
  match v_named v with Some (NRange r) => py_int (r_min r) <= py_int (r_max r) + 1 | _ => True end /\
  u32 (v_count v) /\ u32 (v_size v) /\ u32 (py_int (v_flags v)) /\
  (is_constant (py_int (v_flags v)) = false ->
   Forall u32 (usage_list (v_usage v)) /\ Forall u32 (array_usages (v_named v)) /\
   s32 (or0 (v_lmin v)) /\ s32 (or0 (v_lmax v)) /\
   (is_array v = false -> s32 (or0 (v_pmin v)) /\ s32 (or0 (v_pmax v))) /\
   u32 (py_int (v_unit v)) /\ s32 (v_uexp v) /\ u32 (v_desig v) /\ u32 (v_str v)).

(** an Input, Output or Feature in a report of id 0 to 255 *)
Definition countable (rid : Z) (v : value) : Prop :=
  (py_int (v_way v) = 8 \/ py_int (v_way v) = 9 \/ py_int (v_way v) = 11) /\ 0 <= rid < 256.

Definition storable_leaf (x : leaf) : Prop :=
  match x with
  | LOpen k u => u32 (py_int k) /\ match u with Some n => u32 (py_int n) | None => False end
  | LClose => True
  | LVal rid v =>
      match v_kind v with
      | KValue => countable rid v /\ storable_value v
      | KPadding => v_size v <> 0 -> countable rid v /\ u32 (v_size v)
      | KAlign b => 1 < b -> countable rid v
      end
  end.

Fixpoint report_ids (t : tree) : list Z :=
  match t with
  | TValue _ => []
  | TReport id ms => id :: flat_map report_ids ms
  | TTop ms | TColl _ _ ms => flat_map report_ids ms
  end.

Definition storable (t : tree) : Prop :=
  Forall u32 (report_ids t) /\ Forall storable_leaf (fst (entered 0 t)).

(** no alignment beyond 32 bits *)
Definition modest_leaf (x : leaf) : Prop :=
  match x with LVal _ v => wanted_alignment v <= 2 ^ 32 | _ => True end.
Definition modest (t : tree) : Prop := Forall modest_leaf (fst (entered 0 t)).

(** the counts leave room for joining every field and gap of the tree *)
Definition roomy (t : tree) : Prop :=
  let vs := leaf_values (fst (entered 0 t)) in
  1 + 2 * Z.of_nat (length vs) < 2 ^ 32 /\
  Forall (fun v => v_kind v = KValue -> v_count v + 2 * Z.of_nat (length vs) < 2 ^ 32) vs.

(* ------------------------------------------------------------------ *)
(** What may keep a decompiled tree from being compiled: a collection without
    usage, a usage of more than 32 bits (made of a page of more than 16), a
    value in a report of id over 255, constant bits too many for an item. *)
Definition recompilable (x : leaf) : Prop :=
  match x with
  | LOpen _ u => match u with Some n => py_int n < 2 ^ 32 | None => False end
  | LClose => True
  | LVal rid v =>
      match v_kind v with
      | KPadding => v_size v <> 0 -> rid < 256 /\ v_size v < 2 ^ 32
      | _ => rid < 256 /\ Forall (fun u => u < 2 ^ 32) (usage_list (v_usage v) ++ array_usages (v_named v))
      end
  end.

(* ------------------------------------------------------------------ *)
(** Descriptors whose decompiled tree the compiler has to accept *)

(** usage pages of 16 bits, report ids of a byte, and fields of at most
    [size] bits, [count] at a time *)
Definition small_item (size count : Z) (w : witem) : Prop :=
  match w_cls w with
  | UsagePage => w_val w < 2 ^ 16
  | ReportID => w_val w < 256
  | ReportSize => w_val w <= size
  | ReportCount => w_val w <= count
  | _ => True
  end.

(** every Collection has a Usage of its own: one comes after the previous
    main item; [seen]: there is one already *)
Fixpoint labelled (seen : bool) (cs : list icls) : Prop :=
  match cs with
  | [] => True
  | c :: r =>
      match c with
      | Usage => labelled true r
      | Collection => seen = true /\ labelled false r
      | _ => labelled (seen && negb (main_tag c)) r
      end
  end.

(** Descriptors that can be decompiled and compiled again: the conditions
    above with those of C48 *)
Record tidy (size count : Z) (blob : list Z) (ws : list witem) : Prop := {
  td_means : blob_means blob ws;
  td_numbers : Forall number_allowed ws;
  td_long : Forall long_form_needed ws;
  td_stack : unstacked (map w_what ws);
  td_closes : closes (map w_cls ws);
  td_plain : plain_stream [] (main_states ws);
  td_clear : clear_stream [] (main_states ws);
  td_zeros : zeros_first (map state_rid (data_states ws));
  td_bytes : buffers_fit (data_states ws);
  td_align : naturally_aligned (host_view AtMain ws);
  td_room : 0 <= size /\ 0 <= count /\ size * count < 2 ^ 32;
  td_small : Forall (small_item size count) ws;
  td_label : labelled false (map w_cls ws)
}.
