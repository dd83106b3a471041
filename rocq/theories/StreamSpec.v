(* StreamSpec.v -- what a descriptor tree declares, independently of the
   Streamer.  Written from doc/descriptor.rst; uses the types of the trees and
   the host's events only. *)
From Verif Require Import Py Usage Item Descriptor HidSpec.

(** the items of a tree in order: collection boundaries, values, explicit
    alignments and paddings, each with its report id *)
Inductive leaf :=
| LOpen (kind : pval) (usage : option pval)
| LClose
| LVal (rid : Z) (v : value).

(** each value in the innermost enclosing Report *)
Fixpoint scoped (rid : Z) (t : tree) : list leaf :=
  match t with
  | TValue v => [LVal rid v]
  | TReport id ms => flat_map (scoped id) ms
  | TTop ms => flat_map (scoped rid) ms
  | TColl k u ms => LOpen k u :: flat_map (scoped rid) ms ++ [LClose]
  end.

(** each value in the Report with a non-zero id entered last, wherever it
    ends *)
Fixpoint threaded (rid : Z) (t : tree) : list leaf * Z :=
  let members :=
    (fix go (rid : Z) (ms : list tree) : list leaf * Z :=
       match ms with
       | [] => ([], rid)
       | m :: r =>
           let (a, rid1) := threaded rid m in
           let (b, rid2) := go rid1 r in
           (a ++ b, rid2)
       end) in
  match t with
  | TValue v => ([LVal rid v], rid)
  | TReport id ms => members (if id =? 0 then rid else id) ms
  | TTop ms => members rid ms
  | TColl k u ms => let (a, rid1) := members rid ms in (LOpen k u :: a ++ [LClose], rid1)
  end.

(** each value in the Report entered last, with id zero or not *)
Fixpoint entered (rid : Z) (t : tree) : list leaf * Z :=
  let members :=
    (fix go (rid : Z) (ms : list tree) : list leaf * Z :=
       match ms with
       | [] => ([], rid)
       | m :: r =>
           let (a, rid1) := entered rid m in
           let (b, rid2) := go rid1 r in
           (a ++ b, rid2)
       end) in
  match t with
  | TValue v => ([LVal rid v], rid)
  | TReport id ms => members id ms
  | TTop ms => members rid ms
  | TColl k u ms => let (a, rid1) := members rid ms in (LOpen k u :: a ++ [LClose], rid1)
  end.

(** the kind of report: Input (8), Output (9), Feature (11) *)
Definition way_class (z : Z) : icls :=
  if z =? 8 then Input else if z =? 9 then Output else Feature.

(** a usage argument: None and the int 0 mean "no usage" *)
Definition usage_list (u : option pval) : list Z :=
  match u with
  | None => []
  | Some (VInt z) => if z =? 0 then [] else [z]
  | Some v => [py_int v]
  end.

(** the usages of a named array *)
Definition array_usages (a : option narr) : list Z :=
  match a with
  | None => []
  | Some (NList l) => map py_int l
  | Some (NRange r) => upto (py_int (r_min r)) (py_int (r_max r))
  end.

Definition is_array (v : value) : bool :=
  match array_usages (v_named v) with [] => false | _ => true end.

Definition or0 (o : option Z) : Z := match o with Some z => z | None => 0 end.

(** 0 means "none" for strings and designators *)
Definition index (z : Z) : option Z := if z =? 0 then None else Some z.

Definition value_attrs (rid : Z) (v : value) : attrs :=
  let lo := or0 (v_lmin v) in
  let hi := or0 (v_lmax v) in
  Attrs (way_class (py_int (v_way v))) rid (py_int (v_flags v)) (v_size v) lo hi
        (if is_array v then lo else or0 (v_pmin v))
        (if is_array v then hi else or0 (v_pmax v))
        (py_int (v_unit v)) (v_uexp v).

(** the fields a Value declares *)
Definition value_events (rid : Z) (v : value) : list event :=
  let n := Z.to_nat (v_count v) in
  let flags := py_int (v_flags v) in
  if is_constant flags then
    repeat (EvPad (way_class (py_int (v_way v))) rid flags (v_size v)) n
  else
    let us := if is_array v then array_usages (v_named v) else usage_list (v_usage v) in
    let d := index (v_desig v) in
    let s := index (v_str v) in
    let a := value_attrs rid v in
    let sel := Z.to_nat (f_lmax a - f_lmin a + 1) in
    let fields :=
      if is_variable flags
      then map (fun k => EvVar a (nth_last us k) d s []) (seq 0 n)
      else repeat (EvArr a (firstn sel us) (repeat d sel) (repeat s sel) []) n in
    match is_array v, usage_list (v_usage v) with
    | true, [u] => EvColl 2 [u] [] [] [] :: fields ++ [EvEnd]
    | _, _ => fields
    end.

(** the constant bits inserted before a value or for an Align or Padding *)
Definition gap_events (rid : Z) (v : value) (p : Z) : list event :=
  if p =? 0 then [] else [EvPad (way_class (py_int (v_way v))) rid 3 p].

Definition own_events (rid : Z) (v : value) : list event :=
  match v_kind v with
  | KValue => value_events rid v
  | KAlign _ => []
  | KPadding => gap_events rid v (v_size v)
  end.

(** [follows Gap before ls ev]: the events [ev], after the events [before],
    are those of the leaves [ls], each value being preceded by a gap [p] such
    that [Gap before rid v p]. *)
Inductive follows (Gap : list event -> Z -> value -> Z -> Prop)
  : list event -> list leaf -> list event -> Prop :=
| fo_nil before : follows Gap before [] []
| fo_open before k u r ev :
    follows Gap (before ++ [EvColl (py_int k) [py_int u] [] [] []]) r ev ->
    follows Gap before (LOpen k (Some u) :: r) (EvColl (py_int k) [py_int u] [] [] [] :: ev)
| fo_close before r ev :
    follows Gap (before ++ [EvEnd]) r ev ->
    follows Gap before (LClose :: r) (EvEnd :: ev)
| fo_val before rid v p r ev :
    Gap before rid v p ->
    follows Gap (before ++ gap_events rid v p ++ own_events rid v) r ev ->
    follows Gap before (LVal rid v :: r) (gap_events rid v p ++ own_events rid v ++ ev).

(** the alignment asked for *)
Definition wanted_alignment (v : value) : Z :=
  match v_kind v with KValue => v_align v | KAlign b => b | KPadding => 1 end.

(** any gap smaller than the alignment *)
Definition any_gap (before : list event) (rid : Z) (v : value) (p : Z) : Prop :=
  0 <= p < Z.max 1 (wanted_alignment v).

(** a gap that puts the value at a multiple of its alignment *)
Definition aligned_gap (before : list event) (rid : Z) (v : value) (p : Z) : Prop :=
  any_gap before rid v p /\
  (1 < wanted_alignment v ->
   (wanted_alignment v |
      report_bits (way_class (py_int (v_way v))) rid before + p)).

(** trees built by the constructors: values by Value, Align or Padding;
    collection kinds are the named constants or non-negative ints *)
Fixpoint well_formed (t : tree) : Prop :=
  match t with
  | TValue v => exists k a, mk_value k a = Ok v
  | TReport _ ms | TTop ms => (fix all ms := match ms with [] => True | m :: r => well_formed m /\ all r end) ms
  | TColl k _ ms =>
      match k with VInt z => 0 <= z | _ => True end /\
      (fix all ms := match ms with [] => True | m :: r => well_formed m /\ all r end) ms
  end.

(** nesting of collections: [nest d l] is the depth reached from depth [d],
    nothing if some end has no start *)
Fixpoint nest (d : nat) (l : list icls) : option nat :=
  match l with
  | [] => Some d
  | Collection :: r => nest (S d) r
  | EndCollection :: r => match d with O => None | S d' => nest d' r end
  | _ :: r => nest d r
  end.

Definition balanced (l : list icls) : Prop := nest 0 l = Some 0%nat.

(** [inside s t]: the tree [s] occurs in [t] *)
Inductive inside : tree -> tree -> Prop :=
| in_self t : inside t t
| in_report s id ms m : In m ms -> inside s m -> inside s (TReport id ms)
| in_top s ms m : In m ms -> inside s m -> inside s (TTop ms)
| in_coll s k u ms m : In m ms -> inside s m -> inside s (TColl k u ms).

(** the values among the leaves *)
Definition leaf_values (ls : list leaf) : list value :=
  flat_map (fun x => match x with LVal _ v => [v] | _ => [] end) ls.
