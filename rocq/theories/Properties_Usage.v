(* Properties_Usage.v -- C14 and C16 to C22: units, usages, usage ranges, the
   usage tables and Value's constructor. *)
From Verif Require Import Py Usage Item HidSpec Parser Optimizer Descriptor UsageTable UsageModules
  UsageProofs TableProofs.
Local Open Scope Z_scope.
#[local] Opaque modules t_arcade default_db db_after.

(** C14: all exponents and the system can be read back from the nibbles. *)
Theorem C14 : forall s l m t k c i,
  0 <= s < 16 ->
  Forall (fun x => -8 <= x <= 7) [l; m; t; k; c; i] ->
  exists l' m' t' k' c' i',
    unit_length l = Ok l' /\ unit_mass m = Ok m' /\ unit_time t = Ok t' /\
    unit_temperature k = Ok k' /\ unit_current c = Ok c' /\ unit_luminousintensity i = Ok i' /\
    let u := Z.lor (Z.lor (Z.lor (Z.lor (Z.lor (Z.lor s l') m') t') k') c') i' in
    0 <= u < 2 ^ 28 /\ u mod 16 = s /\
    nibble 1 u = l /\ nibble 2 u = m /\ nibble 3 u = t /\
    nibble 4 u = k /\ nibble 5 u = c /\ nibble 6 u = i.
Proof. exact c14. Qed.
Print Assumptions C14.

Theorem C14_reject : forall x,
  ~ (-8 <= x <= 7) ->
  unit_length x = Err AssertionError /\ unit_mass x = Err AssertionError /\
  unit_time x = Err AssertionError /\ unit_temperature x = Err AssertionError /\
  unit_current x = Err AssertionError /\ unit_luminousintensity x = Err AssertionError.
Proof. exact c14_reject. Qed.
Print Assumptions C14_reject.

(** force: cm, g, s^-2 *)
Example C14_case :
  Forall (fun x => -8 <= x <= 7) [1; 1; -2; 0; 0; 0] /\
  unit_length 1 = Ok 0x10 /\ unit_mass 1 = Ok 0x100 /\ unit_time (-2) = Ok 0xe000 /\
  nibble 3 0xe111 = -2.
Proof. split; [repeat constructor; discriminate|]. repeat split. Qed.

(** C16: lookup and split are lossless for every registry. *)
Theorem C16 : forall db v,
  py_int (lookup db v) = py_int v /\
  py_int (fst (split (lookup db v))) = py_int v / 65536 /\
  py_int (snd (split (lookup db v))) = py_int v mod 65536.
Proof. exact c16. Qed.
Print Assumptions C16.

Theorem C16_inpage : forall db page no,
  0 <= no < 65536 -> py_int (inpage db page no) = no.
Proof. exact c16_inpage. Qed.
Print Assumptions C16_inpage.

Example C16_case :
  exists n, split (lookup (register empty_db "desktop.Mouse" 0x10002 []) (VInt 0x10002))
    = (VNamed "desktop" 1, n) /\ n = VNamed "Mouse" 2.
Proof. eexists. split; reflexivity. Qed.

(** C17: iteration, length, indexing and construction of usage ranges. *)
Theorem C17_iter : forall db r,
  map py_int (range_iter db r) = upto (py_int (r_min r)) (py_int (r_max r)).
Proof. exact range_iter_ints. Qed.
Print Assumptions C17_iter.

Theorem C17_len : forall db r,
  py_int (r_min r) <= py_int (r_max r) + 1 ->
  range_len r = Ok (Z.of_nat (length (range_iter db r))).
Proof. exact range_len_ok. Qed.
Print Assumptions C17_len.

Theorem C17_getitem : forall db r k x,
  nth_error (range_iter db r) k = Some x -> range_getitem db r (Z.of_nat k) = Ok x.
Proof. exact range_getitem_ok. Qed.
Print Assumptions C17_getitem.

Theorem C17_from_array : forall l,
  (exists r, from_array l = Ok r) <-> (2 <= length l)%nat /\ consecutive (map py_int l).
Proof. exact c17_from_array. Qed.
Print Assumptions C17_from_array.

Theorem C17_back : forall db l r,
  from_array l = Ok r -> map py_int (range_iter db r) = map py_int l.
Proof. exact c17_back. Qed.
Print Assumptions C17_back.

Example C17_case :
  from_array [VInt 5; VNamed "six" 6; VInt 7] = Ok (URange (VInt 5) (VInt 7)) /\
  range_len (URange (VInt 5) (VInt 7)) = Ok 3 /\
  upto 5 7 = [5; 6; 7] /\
  nth_error (range_iter empty_db (URange (VInt 5) (VInt 7))) 2 = Some (VUsage "0x7" 7 []).
Proof. repeat split. Qed.

(** C18 is false: any index is accepted, and -1 is the usage before the
    range. *)
Theorem C18_refuted :
  (exists db r i, range_len r = Ok 3 /\ 3 <= i /\ exists x, range_getitem db r i = Ok x) /\
  (exists db r x, range_len r = Ok 3 /\ range_getitem db r (-1) = Ok x /\
     py_int x <> py_int (last (range_iter db r) (VInt 0))).
Proof.
  split.
  - exists empty_db, (URange (VInt 0x10005) (VInt 0x10007)), 3. repeat split; [discriminate|].
    eexists. reflexivity.
  - exists empty_db, (URange (VInt 0x10005) (VInt 0x10007)), (VUsage "0x10004" 0x10004 []).
    repeat split. vm_compute. discriminate.
Qed.
Print Assumptions C18_refuted.

(** the part of C18 that holds: indices from 0 to len - 1 *)
Theorem C18_partial : forall db r n i,
  range_len r = Ok n -> 0 <= i < n ->
  exists x, range_getitem db r i = Ok x /\ nth_error (range_iter db r) (Z.to_nat i) = Some x
            /\ py_int x = py_int (r_min r) + i.
Proof. exact c18_partial. Qed.
Print Assumptions C18_partial.

(** C19: looking a constant's number up gives the constant, after any
    sequence of Button, Ordinal and arcade registrations. *)
Theorem C19 : forall h m ds d,
  Forall call_ok h -> In (m, ds) modules -> In d ds ->
  lookup (db_after h) (VInt (u_value d)) = usage_of d.
Proof. exact c19. Qed.
Print Assumptions C19.

Theorem C19_unique : forall m ds d m' ds' d',
  In (m, ds) modules -> In d ds -> In (m', ds') modules -> In d' ds' ->
  u_value d = u_value d' -> usage_of d = usage_of d'.
Proof. exact c19_unique. Qed.
Print Assumptions C19_unique.

Theorem C19_calls : forall h n,
  Forall call_ok h ->
  (In (CButton n) h -> lookup (db_after h) (VInt (0x90000 + n)) = usage_of (button_decl n)) /\
  (In (COrdinal n) h -> lookup (db_after h) (VInt (0xa0000 + n)) = usage_of (ordinal_decl n)).
Proof. exact c19_calls. Qed.
Print Assumptions C19_calls.

Theorem C19_arcade : forall h d,
  Forall call_ok h -> In CArcade h -> In d t_arcade ->
  lookup (db_after h) (VInt (u_value d)) = usage_of d.
Proof. exact c19_arcade. Qed.
Print Assumptions C19_arcade.

Example C19_case :
  Forall call_ok [CButton 5; CArcade; COrdinal 2] /\
  (exists ds d, In ("desktop"%string, ds) modules /\ In d ds /\ u_value d = 0x10002 /\
     u_name d = "desktop.Mouse"%string).
Proof.
  split; [repeat constructor; try discriminate|].
  exists (match find_module "desktop" with Some l => l | None => [] end).
  exists (match getattr "desktop" "Mouse" with Some d => d | None => button_decl 0 end).
  repeat split.
  - apply (nth_error_In modules 3). vm_compute. reflexivity.
  - apply (nth_error_In _ 1). vm_compute. reflexivity.
Qed.

(** C20 (partial): a constant's name denotes it exactly when it is not one
    of the four misnamed constants. *)
Theorem C20_partial : forall m ds d,
  In (m, ds) modules -> In d ds ->
  (exists d', eval_name (u_name d) = Some d' /\ usage_of d' = usage_of d)
  <-> ~ In (m, u_attr d) misnamed.
Proof. exact c20_partial. Qed.
Print Assumptions C20_partial.

Theorem C20_calls : forall n,
  0 <= n ->
  eval_name (u_name (button_decl n)) = Some (button_decl n) /\
  eval_name (u_name (ordinal_decl n)) = Some (ordinal_decl n).
Proof. exact c20_calls. Qed.
Print Assumptions C20_calls.

Example C20_case :
  eval_name "button.Button(17)" = Some (button_decl 17) /\
  (exists d, eval_name "desktop.Mouse" = Some d /\ u_value d = 0x10002).
Proof. split; [vm_compute; reflexivity|]. eexists. split; vm_compute; reflexivity. Qed.

(** C20 is false: str() of desktop.TabletPCSystem is not an attribute of the
    module. *)
Theorem C20_refuted : exists m ds d,
  In (m, ds) modules /\ In d ds /\
  ~ exists d', eval_name (u_name d) = Some d' /\ usage_of d' = usage_of d.
Proof. exact c20_refuted. Qed.
Print Assumptions C20_refuted.

(** C21 (partial): a constant is on its module's usage page, and that page
    has the module's entry in the name table, except for one constant. *)
Theorem C21_partial : forall m ds,
  In (m, ds) modules ->
  exists p n, In (m, (p, n)) hut_page /\ pageName p = Some n /\
    forall d, In d ds -> u_value d / 65536 = p <-> ~ In (m, u_attr d) misplaced.
Proof. exact c21. Qed.
Print Assumptions C21_partial.

(** C21 is false: one constant of desktop is on page 0x10. *)
Theorem C21_refuted : exists m ds d d',
  In (m, ds) modules /\ In d ds /\ In d' ds /\ u_value d / 65536 <> u_value d' / 65536.
Proof. exact c21_refuted. Qed.
Print Assumptions C21_refuted.

(** C22: Value's constructor. *)
Theorem C22_reject : forall k a,
  a_lmin a = None \/ a_lmax a = None -> no_array (a_named a) ->
  Z.even (py_int (a_flags a)) = true -> mk_value k a = Err ValueError.
Proof. exact c22_reject. Qed.
Print Assumptions C22_reject.

Theorem C22_accept : forall k a,
  (a_lmin a <> None /\ a_lmax a <> None \/ Z.even (py_int (a_flags a)) = false) ->
  no_array (a_named a) -> exists v, mk_value k a = Ok v.
Proof. exact c22_accept. Qed.
Print Assumptions C22_accept.

Theorem C22_common : forall k a v,
  mk_value k a = Ok v ->
  v_kind v = k /\ v_way v = a_way a /\ v_usage v = a_usage a /\ v_size v = a_size a /\
  v_lmin v = a_lmin a /\ v_named v = a_named a /\ v_unit v = a_unit a /\ v_uexp v = a_uexp a /\
  v_desig v = a_desig a /\ v_str v = a_str a /\ v_count v = a_count a /\
  (forall n, a_align a = Some n -> v_align v = n) /\
  (a_align a = None -> v_align v = if 8 <=? a_size a then 8 else a_size a).
Proof. exact c22_common. Qed.
Print Assumptions C22_common.

Theorem C22_physical : forall k a v,
  mk_value k a = Ok v ->
  (~ given (a_pmin a) /\ ~ given (a_pmax a) -> v_pmin v = a_lmin a /\ v_pmax v = a_lmax a) /\
  (given (a_pmin a) \/ given (a_pmax a) ->
   v_pmin v = Some (match a_pmin a with Some z => z | None => 0 end) /\
   v_pmax v = Some (match a_pmax a with Some z => z | None => 0 end)).
Proof. exact c22_physical. Qed.
Print Assumptions C22_physical.

Theorem C22_array : forall k a v x,
  mk_value k a = Ok v -> a_named a = Some x -> ~ no_array (a_named a) ->
  exists lo, v_lmin v = Some lo /\ v_lmax v = Some (lo + array_size x - 1) /\ 0 < array_size x /\
    (a_usage a = None \/ a_usage a = Some (VInt 0) -> py_int (v_flags v) = 0) /\
    (a_usage a <> None /\ a_usage a <> Some (VInt 0) -> py_int (v_flags v) = 2).
Proof. exact c22_array. Qed.
Print Assumptions C22_array.

Theorem C22_plain : forall k a v,
  mk_value k a = Ok v -> no_array (a_named a) -> v_lmax v = a_lmax a /\ v_flags v = a_flags a.
Proof. exact c22_plain. Qed.
Print Assumptions C22_plain.

Definition c22_args : vargs :=
  VArgs (VInt 8) None 4 (VInt 2) (Some 1) None None (Some 0)
        (Some (NRange (URange (VInt 0x70004) (VInt 0x70010)))) (VInt 0) 0 0 0 1 None.

Example C22_case :
  exists v, mk_value KValue c22_args = Ok v /\ v_lmax v = Some 13 /\ v_flags v = VInt 0
  /\ v_align v = 4 /\ v_pmin v = Some 1 /\ ~ no_array (a_named c22_args)
  /\ mk_value KValue (default_args (VInt 8) None 4) = Err ValueError
  /\ exists v, mk_value KPadding (VArgs (VInt 8) None 12 (VInt 3) None None None (Some 5)
                                        None (VInt 0) 0 0 0 1 None) = Ok v
      /\ v_pmin v = Some 0 /\ v_pmax v = Some 5 /\ v_align v = 8.
Proof.
  eexists. repeat split; try (vm_compute; discriminate). eexists. repeat split.
Qed.
