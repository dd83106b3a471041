(* HidSpec.v -- what a USB HID host reads in a report descriptor.

   A specification written from the HID 1.11 specification (sections 5.3,
   6.2.2), not from hrdc.  It uses nothing of the model except the type
   [icls], whose constructors are the item names of that document. *)
From Coq Require Import ZArith List Bool.
From Verif Require Import Item.
Import ListNotations.
Open Scope Z_scope.

(* ------------------------------------------------------------------ *)
(** * Wire format (6.2.2.2, short items) *)

(** prefix byte: bits 1..0 size code, bits 3..2 type, bits 7..4 tag *)
Definition size_of_code (c : Z) : nat :=
  if c =? 3 then 4%nat else Z.to_nat c.

Record raw_item := Raw { r_type : Z; r_tag : Z; r_data : list Z }.

(** unsigned little-endian payload *)
Fixpoint unsigned_le (l : list Z) : Z :=
  match l with [] => 0 | b :: r => b + 256 * unsigned_le r end.

(** two's complement little-endian payload *)
Definition signed_le (l : list Z) : Z :=
  let u := unsigned_le l in
  let m := 256 ^ Z.of_nat (length l) in
  if m <=? 2 * u then u - m else u.

(** A blob is a sequence of complete short items.  Relational: no
    interpreter, no fuel. *)
Inductive short_items : list Z -> list raw_item -> Prop :=
| si_nil : short_items [] []
| si_cons : forall p data rest l,
    0 <= p < 256 ->
    Forall (fun b => 0 <= b < 256) data ->
    length data = size_of_code (p mod 4) ->
    short_items rest l ->
    short_items (p :: data ++ rest) (Raw ((p / 4) mod 4) (p / 16) data :: l).

(** Item table (6.2.2.4, 6.2.2.7, 6.2.2.8): type 0 = Main, 1 = Global,
    2 = Local.  No entry: reserved. *)
Definition hid_class (type tag : Z) : option icls :=
  match type, tag with
  | 0, 8 => Some Input          | 0, 9 => Some Output
  | 0, 11 => Some Feature       | 0, 10 => Some Collection
  | 0, 12 => Some EndCollection
  | 1, 0 => Some UsagePage      | 1, 1 => Some LogicalMinimum
  | 1, 2 => Some LogicalMaximum | 1, 3 => Some PhysicalMinimum
  | 1, 4 => Some PhysicalMaximum | 1, 5 => Some UnitExponent
  | 1, 6 => Some Unit           | 1, 7 => Some ReportSize
  | 1, 8 => Some ReportID       | 1, 9 => Some ReportCount
  | 1, 10 => Some Push          | 1, 11 => Some Pop
  | 2, 0 => Some Usage          | 2, 1 => Some UsageMinimum
  | 2, 2 => Some UsageMaximum   | 2, 3 => Some DesignatorIndex
  | 2, 4 => Some DesignatorMinimum | 2, 5 => Some DesignatorMaximum
  | 2, 7 => Some StringIndex    | 2, 8 => Some StringMinimum
  | 2, 9 => Some StringMaximum  | 2, 10 => Some Delimiter
  | _, _ => None
  end.

(** items whose data is signed (6.2.2.7) *)
Definition hid_signed (c : icls) : bool :=
  match c with
  | LogicalMinimum | LogicalMaximum | PhysicalMinimum | PhysicalMaximum
  | UnitExponent => true
  | _ => false
  end.

(** An item as a host sees it: its name, its number and whether its payload
    had four bytes (which makes a usage an extended one, 6.2.2.8). *)
Record witem := W { w_cls : icls; w_val : Z; w_ext : bool }.

Definition interp_raw (r : raw_item) : option witem :=
  match hid_class (r_type r) (r_tag r) with
  | None => None
  | Some c =>
      Some (W c (if hid_signed c then signed_le (r_data r)
                 else unsigned_le (r_data r))
              (Nat.eqb (length (r_data r)) 4))
  end.

(** [blob_means b l]: the bytes [b] are the items [l]. *)
Definition blob_means (b : list Z) (l : list witem) : Prop :=
  exists raws, short_items b raws /\ map interp_raw raws = map Some l.

(* ------------------------------------------------------------------ *)
(** * Items to fields (5.4, 6.2.2) *)

(** When a page-relative usage gets its page: at its declaration, or when
    the main item is reached. *)
Inductive binding := AtDecl | AtMain.

(** global item state table (6.2.2.7) *)
Record gtab := G {
  g_page : Z; g_lmin : Z; g_lmax : Z; g_pmin : Z; g_pmax : Z;
  g_uexp : Z; g_unit : Z; g_size : Z; g_rid : Z; g_count : Z
}.

Definition g_init : gtab := G 0 0 0 0 0 0 0 0 0 0.

Definition g_set (c : icls) (v : Z) (g : gtab) : gtab :=
  match g with
  | G pg lm lx pm px ue un sz ri ct =>
      match c with
      | UsagePage => G v lm lx pm px ue un sz ri ct
      | LogicalMinimum => G pg v lx pm px ue un sz ri ct
      | LogicalMaximum => G pg lm v pm px ue un sz ri ct
      | PhysicalMinimum => G pg lm lx v px ue un sz ri ct
      | PhysicalMaximum => G pg lm lx pm v ue un sz ri ct
      | UnitExponent => G pg lm lx pm px v un sz ri ct
      | Unit => G pg lm lx pm px ue v sz ri ct
      | ReportSize => G pg lm lx pm px ue un v ri ct
      | ReportID => G pg lm lx pm px ue un sz v ct
      | ReportCount => G pg lm lx pm px ue un sz ri v
      | _ => g
      end
  end.

(** A local reference: the page in force at the declaration, whether the
    number already includes its page, and the number.  Designator and string
    numbers are absolute. *)
Record lref := LR { lr_page : Z; lr_abs : bool; lr_val : Z }.

Definition resolve (m : binding) (page : Z) (r : lref) : Z :=
  if lr_abs r then lr_val r
  else match m with
       | AtDecl => lr_page r * 65536 + lr_val r
       | AtMain => page * 65536 + lr_val r
       end.

(** One local item list: single references and min/max pairs, in order *)
Inductive ldecl := LOne (r : lref) | LRange (lo hi : lref).

Definition upto (lo hi : Z) : list Z :=
  map (fun k => lo + Z.of_nat k) (seq 0 (Z.to_nat (hi - lo + 1))).

Definition resolve_decl (m : binding) (page : Z) (d : ldecl) : list Z :=
  match d with
  | LOne r => [resolve m page r]
  | LRange a b => upto (resolve m page a) (resolve m page b)
  end.

(** the declarations so far and an unpaired minimum or maximum *)
Record ltab := L { l_decls : list ldecl; l_min : option lref;
                   l_max : option lref }.

Definition l_empty : ltab := L [] None None.

Definition add_one (r : lref) (t : ltab) : ltab :=
  L (l_decls t ++ [LOne r]) (l_min t) (l_max t).
Definition add_min (r : lref) (t : ltab) : ltab :=
  match l_max t with
  | Some b => L (l_decls t ++ [LRange r b]) None None
  | None => L (l_decls t) (Some r) None
  end.
Definition add_max (r : lref) (t : ltab) : ltab :=
  match l_min t with
  | Some a => L (l_decls t ++ [LRange a r]) None None
  | None => L (l_decls t) None (Some r)
  end.

Definition values (m : binding) (page : Z) (t : ltab) : list Z :=
  flat_map (resolve_decl m page) (l_decls t).

(** local state: usages, designators, strings, and the delimiters with the
    number of usage declarations before each *)
Record locals := Locals {
  lo_us : ltab; lo_ds : ltab; lo_ss : ltab; lo_dl : list (nat * Z)
}.

Definition lo_init : locals := Locals l_empty l_empty l_empty [].

Definition lo_set (c : icls) (v : Z) (ext : bool) (page : Z) (l : locals)
  : locals :=
  let ru := LR page ext v in
  let ra := LR 0 true v in
  match l with
  | Locals us ds ss dl =>
      match c with
      | Usage => Locals (add_one ru us) ds ss dl
      | UsageMinimum => Locals (add_min ru us) ds ss dl
      | UsageMaximum => Locals (add_max ru us) ds ss dl
      | DesignatorIndex => Locals us (add_one ra ds) ss dl
      | DesignatorMinimum => Locals us (add_min ra ds) ss dl
      | DesignatorMaximum => Locals us (add_max ra ds) ss dl
      | StringIndex => Locals us ds (add_one ra ss) dl
      | StringMinimum => Locals us ds (add_min ra ss) dl
      | StringMaximum => Locals us ds (add_max ra ss) dl
      | Delimiter => Locals us ds ss (dl ++ [(length (l_decls us), v)])
      | _ => l
      end
  end.

(** What a host learns from one main item. *)

(** report kind, report id, flags, size, logical range, effective physical
    range, unit, unit exponent *)
Record attrs := Attrs {
  f_way : icls; f_rid : Z; f_flags : Z; f_size : Z;
  f_lmin : Z; f_lmax : Z; f_pmin : Z; f_pmax : Z; f_unit : Z; f_uexp : Z
}.

Inductive event :=
| EvColl (kind : Z) (us ds ss : list Z) (dl : list (nat * Z))
| EvEnd
| EvPad (way : icls) (rid flags size : Z)       (* constant bits *)
| EvVar (a : attrs) (u d s : option Z) (dl : list (nat * Z))
| EvArr (a : attrs) (us : list Z) (ds ss : list (option Z))
        (dl : list (nat * Z)).

Definition is_constant (flags : Z) : bool := Z.odd flags.
Definition is_variable (flags : Z) : bool := Z.odd (flags / 2).

(** n-th element, the last one being repeated (6.2.2.8) *)
Definition nth_last (l : list Z) (n : nat) : option Z :=
  match l with
  | [] => None
  | x :: _ => Some (nth n l (last l x))
  end.

(** when both physical extents are 0 they equal the logical ones (6.2.2.7) *)
Definition effective (pmin pmax lmin lmax : Z) : Z * Z :=
  if (pmin =? 0) && (pmax =? 0) then (lmin, lmax) else (pmin, pmax).

Definition mk_attrs (g : gtab) (c : icls) (flags : Z) : attrs :=
  let p := effective (g_pmin g) (g_pmax g) (g_lmin g) (g_lmax g) in
  Attrs c (g_rid g) flags (g_size g) (g_lmin g) (g_lmax g) (fst p) (snd p)
        (g_unit g) (g_uexp g).

(** the fields of a data main item, one per report element *)
Definition data_events (m : binding) (g : gtab) (l : locals) (c : icls)
           (flags : Z) : list event :=
  let n := Z.to_nat (g_count g) in
  let us := values m (g_page g) (lo_us l) in
  let ds := values m (g_page g) (lo_ds l) in
  let ss := values m (g_page g) (lo_ss l) in
  let a := mk_attrs g c flags in
  if is_constant flags then
    repeat (EvPad c (g_rid g) flags (g_size g)) n
  else if is_variable flags then
    map (fun k => EvVar a (nth_last us k) (nth_last ds k) (nth_last ss k)
                        (lo_dl l)) (seq 0 n)
  else
    let sel := Z.to_nat (g_lmax g - g_lmin g + 1) in
    repeat (EvArr a (firstn sel us) (map (nth_last ds) (seq 0 sel))
                  (map (nth_last ss) (seq 0 sel)) (lo_dl l)) n.

Definition full_obs (m : binding) (g : gtab) (l : locals) (c : icls) (v : Z)
  : list event :=
  match c with
  | Collection =>
      [EvColl v (values m (g_page g) (lo_us l)) (values m (g_page g) (lo_ds l))
              (values m (g_page g) (lo_ss l)) (lo_dl l)]
  | EndCollection => [EvEnd]
  | _ => data_events m g l c v
  end.

(** Interpreter state and step, for any observation of main items.  [Pop]
    with nothing pushed is ignored. *)
Record hstate := H { h_g : gtab; h_stack : list gtab; h_l : locals }.

Definition h_init : hstate := H g_init [] lo_init.

Inductive ikind3 := KMain | KGlobal | KLocal.
Definition hid_kind (c : icls) : ikind3 :=
  match c with
  | Input | Output | Feature | Collection | EndCollection => KMain
  | UsagePage | LogicalMinimum | LogicalMaximum | PhysicalMinimum
  | PhysicalMaximum | UnitExponent | Unit | ReportSize | ReportID
  | ReportCount | Push | Pop => KGlobal
  | _ => KLocal
  end.

Section Observation.
  Context {A : Type} (obs : gtab -> locals -> icls -> Z -> list A).

  Definition h_step (s : hstate) (w : witem) : hstate * list A :=
    let c := w_cls w in
    match hid_kind c with
    | KMain => (H (h_g s) (h_stack s) lo_init, obs (h_g s) (h_l s) c (w_val w))
    | KGlobal =>
        match c with
        | Push => (H (h_g s) (h_g s :: h_stack s) (h_l s), [])
        | Pop =>
            match h_stack s with
            | g :: r => (H g r (h_l s), [])
            | [] => (s, [])
            end
        | _ => (H (g_set c (w_val w) (h_g s)) (h_stack s) (h_l s), [])
        end
    | KLocal =>
        (H (h_g s) (h_stack s)
           (lo_set c (w_val w) (w_ext w) (g_page (h_g s)) (h_l s)), [])
    end.

  Fixpoint h_run (s : hstate) (l : list witem) : hstate * list A :=
    match l with
    | [] => (s, [])
    | w :: r =>
        let (s1, o1) := h_step s w in
        let (s2, o2) := h_run s1 r in
        (s2, o1 ++ o2)
    end.
End Observation.

(** the host's view of a sequence of items *)
Definition host_view (m : binding) (l : list witem) : list event :=
  snd (h_run (full_obs m) h_init l).

(** the host's view of a descriptor in bytes *)
Definition host_reads (m : binding) (b : list Z) (ev : list event) : Prop :=
  exists l, blob_means b l /\ ev = host_view m l.

(* ------------------------------------------------------------------ *)
(** * Layout *)

(** the sizes of the report elements of kind [way] and report [rid] *)
Definition event_bits (e : event) : option (icls * Z * Z) :=
  match e with
  | EvPad w r _ s => Some (w, r, s)
  | EvVar a _ _ _ _ => Some (f_way a, f_rid a, f_size a)
  | EvArr a _ _ _ _ => Some (f_way a, f_rid a, f_size a)
  | _ => None
  end.

Definition layout (l : list event) : list (icls * Z * Z) :=
  flat_map (fun e => match event_bits e with Some x => [x] | None => [] end) l.

Definition report_bits (way : icls) (rid : Z) (l : list event) : Z :=
  fold_right Z.add 0
    (map snd (filter (fun x => icls_eqb (fst (fst x)) way
                               && (snd (fst x) =? rid)) (layout l))).

(** * Padding-free view *)
Definition is_pad (e : event) : bool :=
  match e with EvPad _ _ _ _ => true | _ => false end.
Definition no_pads (l : list event) : list event :=
  filter (fun e => negb (is_pad e)) l.
