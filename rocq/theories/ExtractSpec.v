(* ExtractSpec.v -- what a decompiled tree owes to the stream it comes from;
   independent of the Extractor. *)
From Coq Require Import ZArith List Bool.
From Verif Require Import Py Usage Item Descriptor HidSpec StreamSpec OptSpec.
Import ListNotations.
Open Scope Z_scope.

(** the data items of a stream, each with the state a host has when it reads
    it *)
Definition data_states (l : list witem) : list mstate :=
  filter (fun e => data_tag (snd (fst e))) (main_states l).

(** collections are balanced and the last main item closes one *)
Definition closes (l : list icls) : Prop :=
  balanced l /\
  exists a b, l = a ++ EndCollection :: b /\ Forall (fun c => main_tag c = false) b.

(** the values of a tree in order, each with its report id *)
Definition numbered (ls : list leaf) : list (Z * value) :=
  flat_map (fun x => match x with LVal r v => [(r, v)] | _ => [] end) ls.

(** the bits of some values *)
Definition bits_of (vs : list (Z * value)) : Z :=
  fold_right Z.add 0 (map (fun x => v_size (snd x) * v_count (snd x)) vs).

Definition is_buffered (flags : Z) : bool := Z.odd (flags / 256).

(** [v] is padding for constant bits, one field, or a buffer of them all *)
Definition element_of (g : gtab) (f : Z) (v : value) : Prop :=
  match v_kind v with
  | KPadding => is_constant f = true
  | KValue => is_constant f = false /\ v_size v = g_size g /\ (v_count v = 1 \/ is_buffered f = true /\ v_count v = g_count g)
  | KAlign _ => False
  end.

(** the values [vs] take the place of the data item [e]: same report kind,
    same report id, same number of bits, the same elements *)
Definition stands_for (e : mstate) (vs : list (Z * value)) : Prop :=
  let '(g, _, c, f) := e in
  Forall (fun x => fst x = g_rid g /\ way_class (py_int (v_way (snd x))) = c /\ element_of g f (snd x)) vs /\
  bits_of vs = g_size g * g_count g.

(** the values of one report *)
Definition of_report (way : icls) (rid : Z) (vs : list (Z * value)) : list (Z * value) :=
  filter (fun x => icls_eqb (way_class (py_int (v_way (snd x)))) way && (fst x =? rid)) vs.

(** a tree without Reports *)
Fixpoint report_free (t : tree) : Prop :=
  match t with
  | TValue _ => True
  | TReport _ _ => False
  | TTop ms | TColl _ _ ms => (fix all ms := match ms with [] => True | m :: r => report_free m /\ all r end) ms
  end.

(** every value is in exactly one Report *)
Fixpoint all_reported (t : tree) : Prop :=
  match t with
  | TValue _ => False
  | TReport _ ms => Forall report_free ms
  | TTop ms | TColl _ _ ms => (fix all ms := match ms with [] => True | m :: r => all_reported m /\ all r end) ms
  end.

(* ------------------------------------------------------------------ *)
(** fields and collections *)

(** single references only, or one range *)
Definition simple_tab (t : ltab) : Prop :=
  Forall (fun d => match d with LOne _ => True | LRange _ _ => False end) (l_decls t) \/
  exists a b, l_decls t = [LRange a b] /\ l_min t = None /\ l_max t = None /\ lr_abs a = lr_abs b.

Definition at_most_one (l : list Z) : Prop := (length l <= 1)%nat.
Definition nonzero (l : list Z) : Prop := Forall (fun z => z <> 0) l.

(** A data item in the collections of kinds [open], innermost first, that
    Values can express one by one:
    - its local items are single references or one range, without delimiters
      and without string or designator 0;
    - when it is a single field with a usage per logical value, it is in a
      collection that is neither Logical nor a NamedArray;
    - when it is an array, it has at most one string and designator; with a
      usage per logical value and no flag, no unit and no physical range;
      otherwise at most one usage;
    - when it is a buffer of bytes, it has at most one usage, string and
      designator. *)
Definition plain_data (open : list Z) (e : mstate) : Prop :=
  let '(g, x, _, f) := e in
  let us := values AtMain (g_page g) (lo_us x) in
  let ds := values AtMain (g_page g) (lo_ds x) in
  let ss := values AtMain (g_page g) (lo_ss x) in
  let spans := Z.of_nat (length us) = g_lmax g - g_lmin g + 1 in
  is_constant f = false ->
  simple_tab (lo_us x) /\ simple_tab (lo_ds x) /\ simple_tab (lo_ss x) /\ lo_dl x = [] /\ nonzero ds /\ nonzero ss /\
  (g_count g = 1 -> spans -> exists k o, open = k :: o /\ k <> 2 /\ k <> 4) /\
  (if is_variable f
   then is_buffered f = true -> at_most_one us /\ at_most_one ds /\ at_most_one ss
   else at_most_one ds /\ at_most_one ss /\
        (f = 0 -> spans -> g_unit g = 0 /\ g_uexp g = 0 /\
           effective (g_pmin g) (g_pmax g) (g_lmin g) (g_lmax g) = (g_lmin g, g_lmax g)) /\
        (~ (f = 0 /\ spans) -> at_most_one us)).

Fixpoint plain_stream (open : list Z) (es : list mstate) : Prop :=
  match es with
  | [] => True
  | (g, x, c, f) :: r =>
      match c with
      | Collection => simple_tab (lo_us x) /\ plain_stream (f :: open) r
      | EndCollection => plain_stream (tl open) r
      | _ => plain_data open (g, x, c, f) /\ plain_stream open r
      end
  end.

(** the fields of some values: those the values declare; a Padding stands for
    any number of constant fields of the same report *)
Inductive fields_of : list (Z * value) -> list event -> Prop :=
| fi_nil : fields_of [] []
| fi_val r v vs ev : v_kind v = KValue -> fields_of vs ev -> fields_of ((r, v) :: vs) (value_events r v ++ ev)
| fi_pad r v vs ev f z n : v_kind v = KPadding -> v_size v = Z.of_nat n * z -> fields_of vs ev ->
    fields_of ((r, v) :: vs) (repeat (EvPad (way_class (py_int (v_way v))) r f z) n ++ ev).

Definition is_field (e : event) : bool := match e with EvColl _ _ _ _ _ | EvEnd => false | _ => true end.

(** [drawn ls ev]: the leaves are the collections, with kind and first usage,
    and the fields of [ev] *)
Inductive drawn : list leaf -> list event -> Prop :=
| dr_nil : drawn [] []
| dr_open k u us ds ss dl ls ev :
    option_map py_int u = hd_error us -> drawn ls ev -> drawn (LOpen k u :: ls) (EvColl (py_int k) us ds ss dl :: ev)
| dr_close ls ev : drawn ls ev -> drawn (LClose :: ls) (EvEnd :: ev)
| dr_val r v fs ls ev : fields_of [(r, v)] fs -> forallb is_field fs = true -> drawn ls ev -> drawn (LVal r v :: ls) (fs ++ ev).

(** removal of empty collections, one after the other *)
Inductive prunes : list leaf -> list leaf -> Prop :=
| pr_same l : prunes l l
| pr_one l a k u b : prunes l (a ++ LOpen k u :: LClose :: b) -> prunes l (a ++ b).

Definition no_empty (l : list leaf) : Prop := forall a k u b, l <> a ++ LOpen k u :: LClose :: b.

(* ------------------------------------------------------------------ *)
(** layout *)

(** the fields other than padding, each with its offset in its report *)
Fixpoint placed (before ev : list event) : list (event * Z) :=
  match ev with
  | [] => []
  | e :: r =>
      match event_bits e with
      | Some (w, rid, _) => if is_pad e then [] else [(e, report_bits w rid before)]
      | None => []
      end ++ placed (before ++ [e]) r
  end.

(** every field starts at a multiple of its size, or of 8 when larger *)
Definition naturally_aligned (ev : list event) : Prop :=
  Forall (fun x => match event_bits (fst x) with Some (_, _, n) => (Z.min 8 n | snd x) | None => True end) (placed [] ev).

(** report id 0 is not used after another one *)
Definition zeros_first (l : list Z) : Prop :=
  exists a b, l = a ++ b /\ Forall (eq 0) a /\ Forall (fun z => z <> 0) b.

Definition state_rid (e : mstate) : Z := let '(g, _, _, _) := e in g_rid g.

(** Buffers of bytes are not empty, and their bits after the first element
    are a multiple of 8 and of the size of every smaller field. *)
Definition buffers_fit (es : list mstate) : Prop :=
  forall g x c f, In (g, x, c, f) es -> is_constant f = false -> is_buffered f = true ->
  1 <= g_count g /\
  forall g' x' c' f', In (g', x', c', f') es -> is_constant f' = false -> 1 < g_size g' ->
    (Z.min 8 (g_size g') | g_size g * (g_count g - 1)).

(* ------------------------------------------------------------------ *)
(** ends of streams *)

(** the stream without Push and Pop *)
Definition stack_item (i : item) : bool := match ic i with Push | Pop => true | _ => false end.
Definition stackless (l : list item) : list item := filter (fun i => negb (stack_item i)) l.

(** [a] is the part of [l] up to the last EndCollection that leaves no
    collection open, or up to a later EndCollection *)
Definition covers (a l : list item) : Prop :=
  exists b, l = a ++ b /\ (exists a0 i, a = a0 ++ [i] /\ ic i = EndCollection) /\
  forall a' i b', l = a' ++ i :: b' -> ic i = EndCollection -> balanced (map ic (a' ++ [i])) -> (length a' < length a)%nat.
