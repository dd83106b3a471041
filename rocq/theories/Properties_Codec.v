(* Properties_Codec.v -- C01 to C09 and C15: items, bytes, the binary parser
   and the converter. *)
From Verif Require Import Py Usage Item Parser HidSpec Spec ItemFacts CodecProofs.

(** C01: encode/decode round trip, for every class, every constructor
    argument and every registry of usage names on either side. *)
Theorem C01 : forall db db' c v i,
  mk_item db c v = Ok i -> in_32_bits c (ival i) ->
  exists b j, bytes i = Ok b /\ parse db' b = Ok j /\ item_eqb j i = true.
Proof. exact c01. Qed.
Print Assumptions C01.

Example C01_case :
  exists i, mk_item empty_db LogicalMinimum (Some (VInt (-40000))) = Ok i
  /\ in_32_bits LogicalMinimum (ival i) /\ bytes i = Ok [0x17; 0xc0; 0x63; 0xff; 0xff].
Proof. eexists. split; [reflexivity|]. split; [vm_compute; split; congruence|]. reflexivity. Qed.

(** [item_eqb] is equality of class and number. *)
Theorem C01_eq_means : forall i j,
  item_eqb i j = true <-> ic i = ic j /\ ival i = ival j.
Proof. exact item_eqb_spec. Qed.
Print Assumptions C01_eq_means.

(** C02: encoding succeeds exactly on the 32-bit range. *)
Theorem C02 : forall i,
  (exists b, bytes i = Ok b) <-> in_32_bits (ic i) (ival i).
Proof. exact c02. Qed.
Print Assumptions C02.

Example C02_case :
  bytes (Item ReportSize (VInt (2 ^ 32))) = Err StructError /\
  bytes (Item LogicalMinimum (VInt (- 2 ^ 31 - 1))) = Err StructError /\
  bytes (Item LogicalMinimum (VInt (- 2 ^ 31))) = Ok [0x17; 0; 0; 0; 0x80].
Proof. repeat split. Qed.

(** The code computes the logarithm in floating point: the result is the same
    for every function that is right about four thresholds. *)
Theorem C02_log_robust : forall f i,
  (forall m, 0 < m -> 0 <= f m) ->
  (forall m, 0 < m < 2 ^ 32 ->
    (f m < 7 <-> m < 2 ^ 7) /\ (f m < 8 <-> m < 2 ^ 8)
    /\ (f m < 15 <-> m < 2 ^ 15) /\ (f m < 16 <-> m < 2 ^ 16)) ->
  match bytes i, bytes_with f i with
  | Ok b, Ok b' => b = b'
  | Err _, Err _ => True
  | _, _ => False
  end.
Proof. exact c02_log. Qed.
Print Assumptions C02_log_robust.

(** the exact logarithm meets the hypotheses, and so does one that is off by
    one for large numbers *)
Example C02_log_case :
  let f := fun m => if m <? 2 ^ 20 then Z.log2 m else Z.log2 m + 1 in
  bytes_with f (Item ReportSize (VInt 65535)) = Ok [0x76; 0xff; 0xff].
Proof. reflexivity. Qed.

(** C03: the payload is the shortest of 1, 2, 4 bytes that denotes the value;
    it is empty exactly for EndCollection. *)
Theorem C03 : forall i b,
  constructed i -> bytes i = Ok b ->
  (length (tl b) = 0%nat <-> ic i = EndCollection)
  /\ payload_value (ic i) (tl b) = ival i
  /\ (length (tl b) = 0 \/ length (tl b) = 1 \/ length (tl b) = 2 \/ length (tl b) = 4)%nat
  /\ forall q, Forall is_byte q -> (1 <= length q < length (tl b))%nat ->
       (length q = 1 \/ length q = 2)%nat ->
       payload_value (ic i) q <> ival i.
Proof. exact c03. Qed.
Print Assumptions C03.

Example C03_case :
  constructed (Item LogicalMaximum (VInt 128)) /\
  bytes (Item LogicalMaximum (VInt 128)) = Ok [0x26; 0x80; 0] /\
  bytes (Item Usage (VUsage "0x80" 128 [])) = Ok [0x09; 0x80].
Proof. split; [exists empty_db, (Some (VInt 128)); reflexivity|]. split; reflexivity. Qed.

(** C04: the bytes of an item are one HID short item with its tag and value. *)
Theorem C04 : forall i b,
  bytes i = Ok b -> blob_means b [W (ic i) (ival i) (Nat.eqb (length b) 5)].
Proof. exact c04. Qed.
Print Assumptions C04.

Example C04_case :
  exists b, bytes (Item PhysicalMinimum (VInt (-2))) = Ok b /\ b = [0x35; 0xfe].
Proof. eexists. split; reflexivity. Qed.

(** C05: parsing a serialised stream gives the stream back, then closes. *)
Theorem C05 : forall db l b,
  Forall constructed l -> serialize l = Ok b ->
  exists l', blob_parse db b = Run l' (Ok tt)
             /\ Forall2 (fun i j => item_eqb i j = true) l' l.
Proof. exact c05. Qed.
Print Assumptions C05.

Example C05_case :
  exists l b, Forall constructed l /\ serialize l = Ok b
              /\ b = [0x0b; 0x30; 0; 1; 0; 0x15; 0x81; 0x81; 2; 0xc0].
Proof.
  exists [Item Usage (VUsage "0x10030" 0x10030 []); Item LogicalMinimum (VInt (-127));
          Item Input (VNamed "Variable" 2); Item EndCollection (VInt 0)].
  eexists. split; [|split; reflexivity].
  repeat constructor; [exists empty_db, (Some (VInt 0x10030)) | exists empty_db, (Some (VInt (-127)))
    | exists empty_db, (Some (VInt 2)) | exists empty_db, (Some (VInt 0))]; reflexivity.
Qed.

(** C06: the parser accepts exactly the sequences of known short items, and
    delivers their tags and values. *)
Theorem C06 : forall db b,
  Forall is_byte b ->
  (finished (blob_parse db b) = Ok tt <->
   exists ws, blob_means b ws /\ Forall number_allowed ws)
  /\ forall ws, blob_means b ws -> Forall number_allowed ws ->
       map (fun i => (ic i, ival i)) (appended (blob_parse db b)) = map w_what ws.
Proof. exact c06. Qed.
Print Assumptions C06.

Example C06_case :
  Forall is_byte [0x05; 0x01; 0x16; 0x01; 0x80; 0xc0]
  /\ blob_means [0x05; 0x01; 0x16; 0x01; 0x80; 0xc0]
       [W UsagePage 1 false; W LogicalMinimum (-32767) false; W EndCollection 0 false]
  /\ is_ok (finished (blob_parse empty_db [0xc1; 0x01])) = false.
Proof.
  split; [repeat constructor; discriminate|]. split; [|reflexivity].
  exists [Raw 1 0 [1]; Raw 1 1 [1; 0x80]; Raw 0 12 []]. split; [|reflexivity].
  apply (si_cons 0x05 [1] [0x16; 0x01; 0x80; 0xc0]); try (repeat constructor; discriminate).
  apply (si_cons 0x16 [1; 0x80] [0xc0]); try (repeat constructor; discriminate).
  apply (si_cons 0xc0 [] []); try (repeat constructor; discriminate).
Qed.

(** C07: known items followed by a truncated, unknown or refused one: the
    items are delivered, nothing else, and the output is not closed. *)
Theorem C07 : forall db good ws p t,
  blob_means good ws -> Forall number_allowed ws ->
  is_byte p -> Forall is_byte t ->
  (forall data rest, t = data ++ rest -> length data = size_of_code (p mod 4) ->
     ~ known_item (Raw ((p / 4) mod 4) (p / 16) data)) ->
  exists l e, blob_parse db (good ++ p :: t) = Run l (Err e)
              /\ map (fun i => (ic i, ival i)) l = map w_what ws.
Proof. exact c07. Qed.
Print Assumptions C07.

(** every byte string is covered by C06 or C07 *)
Theorem C07_exhaustive : forall b,
  Forall is_byte b ->
  (exists ws, blob_means b ws /\ Forall number_allowed ws) \/
  exists good ws p t, b = good ++ p :: t /\ blob_means good ws /\ Forall number_allowed ws
    /\ is_byte p /\ Forall is_byte t
    /\ forall data rest, t = data ++ rest -> length data = size_of_code (p mod 4) ->
         ~ known_item (Raw ((p / 4) mod 4) (p / 16) data).
Proof. exact c07_exhaustive. Qed.
Print Assumptions C07_exhaustive.

(** a truncated item after EndCollection *)
Example C07_case :
  (forall data rest, [0x01] = data ++ rest -> length data = size_of_code (0x16 mod 4) ->
     ~ known_item (Raw ((0x16 / 4) mod 4) (0x16 / 16) data))
  /\ appended (blob_parse empty_db [0xc0; 0x16; 0x01]) = [Item EndCollection (VInt 0)].
Proof.
  split; [|reflexivity]. intros data rest E L. exfalso.
  apply (f_equal (@length Z)) in E. rewrite app_length, L in E. simpl in E. discriminate.
Qed.

(** C08: converting is idempotent and keeps the items. *)
Theorem C08 : forall db b out,
  Forall is_byte b -> convert db b = Ok out ->
  blob_parse db out = blob_parse db b /\ convert db out = Ok out.
Proof. exact c08. Qed.
Print Assumptions C08.

(** whatever parses converts *)
Theorem C08_total : forall db b,
  Forall is_byte b ->
  (exists out, convert db b = Ok out) <-> finished (blob_parse db b) = Ok tt.
Proof. exact c08_total. Qed.
Print Assumptions C08_total.

Example C08_case :
  convert empty_db [0x06; 1; 0; 0x80; 0xc1; 0] = Ok [0x05; 1; 0x81; 0; 0xc0].
Proof. reflexivity. Qed.

(** C09 (partial): the converter keeps a host's view when no usage below 2^16
    is written in the four-byte form. *)
Theorem C09_partial : forall m db b ws out,
  blob_means b ws -> Forall long_form_needed ws -> convert db b = Ok out ->
  host_reads m out (host_view m ws).
Proof. exact c09_partial. Qed.
Print Assumptions C09_partial.

(** C09, exactly: the converter keeps everything but the form of usages below
    2^16. *)
Theorem C09_always : forall m db b ws out,
  blob_means b ws -> convert db b = Ok out -> host_reads m out (host_view m (map shortest ws)).
Proof. exact c09_always. Qed.
Print Assumptions C09_always.

Lemma C09_input :
  blob_means [0x05; 1; 0x0b; 6; 0; 1; 0; 0xa1; 1; 0xc0]
    [W UsagePage 1 false; W Usage 0x10006 true; W Collection 1 false; W EndCollection 0 false].
Proof.
  exists [Raw 1 0 [1]; Raw 2 0 [6; 0; 1; 0]; Raw 0 10 [1]; Raw 0 12 []]. split; [|reflexivity].
  apply (si_cons 0x05 [1] [0x0b; 6; 0; 1; 0; 0xa1; 1; 0xc0]); try (repeat constructor; discriminate).
  apply (si_cons 0x0b [6; 0; 1; 0] [0xa1; 1; 0xc0]); try (repeat constructor; discriminate).
  apply (si_cons 0xa1 [1] [0xc0]); try (repeat constructor; discriminate).
  apply (si_cons 0xc0 [] []); try (repeat constructor; discriminate).
Qed.

Example C09_case :
  Forall long_form_needed
    [W UsagePage 1 false; W Usage 0x10006 true; W Collection 1 false; W EndCollection 0 false]
  /\ is_ok (convert empty_db [0x05; 1; 0x0b; 6; 0; 1; 0; 0xa1; 1; 0xc0]) = true.
Proof.
  split; [|reflexivity].
  repeat constructor; unfold long_form_needed; simpl; intros; try discriminate.
Qed.

(** C09 is false in general: a four-byte usage 0x00000006 while page 1 is in
    force becomes the short form, which denotes 0x00010006. *)
Theorem C09_refuted : exists m b ws out ws',
  blob_means b ws /\ convert empty_db b = Ok out /\ blob_means out ws'
  /\ host_view m ws <> host_view m ws'.
Proof.
  exists AtDecl, [0x05; 1; 0x0b; 6; 0; 0; 0; 0xa1; 1; 0xc0],
    [W UsagePage 1 false; W Usage 6 true; W Collection 1 false; W EndCollection 0 false],
    [0x05; 1; 0x09; 6; 0xa1; 1; 0xc0],
    [W UsagePage 1 false; W Usage 6 false; W Collection 1 false; W EndCollection 0 false].
  split; [|split; [reflexivity|split; [|vm_compute; discriminate]]].
  - exists [Raw 1 0 [1]; Raw 2 0 [6; 0; 0; 0]; Raw 0 10 [1]; Raw 0 12 []]. split; [|reflexivity].
    apply (si_cons 0x05 [1] [0x0b; 6; 0; 0; 0; 0xa1; 1; 0xc0]); try (repeat constructor; discriminate).
    apply (si_cons 0x0b [6; 0; 0; 0] [0xa1; 1; 0xc0]); try (repeat constructor; discriminate).
    apply (si_cons 0xa1 [1] [0xc0]); try (repeat constructor; discriminate).
    apply (si_cons 0xc0 [] []); try (repeat constructor; discriminate).
  - exists [Raw 1 0 [1]; Raw 2 0 [6]; Raw 0 10 [1]; Raw 0 12 []]. split; [|reflexivity].
    apply (si_cons 0x05 [1] [0x09; 6; 0xa1; 1; 0xc0]); try (repeat constructor; discriminate).
    apply (si_cons 0x09 [6] [0xa1; 1; 0xc0]); try (repeat constructor; discriminate).
    apply (si_cons 0xa1 [1] [0xc0]); try (repeat constructor; discriminate).
    apply (si_cons 0xc0 [] []); try (repeat constructor; discriminate).
Qed.
Print Assumptions C09_refuted.

Example C09_always_case : map shortest [W UsagePage 1 false; W Usage 6 true; W Usage 0x20006 true; W Collection 1 true; W EndCollection 0 false] =
    [W UsagePage 1 false; W Usage 6 false; W Usage 0x20006 true; W Collection 1 true; W EndCollection 0 false]
  /\ convert empty_db [0x05; 1; 0x0b; 6; 0; 0; 0; 0x0b; 6; 0; 2; 0; 0xa3; 1; 0; 0; 0; 0xc0] = Ok [0x05; 1; 0x09; 6; 0x0b; 6; 0; 2; 0; 0xa1; 1; 0xc0].
Proof. split; reflexivity. Qed.

(** C15 (partial): constructors keep the number they are given, except
    Collection given a negative int. *)
Theorem C15_partial : forall db c v i,
  (forall z, c = Collection -> v = VInt z -> 0 <= z) ->
  mk_item db c (Some v) = Ok i -> ic i = c /\ ival i = py_int v.
Proof. exact c15_keep. Qed.
Print Assumptions C15_partial.

(** which numbers are rejected *)
Theorem C15_reject_partial : forall db c v,
  (forall z, c = Collection -> v = VInt z -> 0 <= z) ->
  (exists i, mk_item db c (Some v) = Ok i) <->
  (hid_signed c = true \/ 0 <= py_int v) /\ (no_number c -> py_int v = 0).
Proof. exact c15_reject. Qed.
Print Assumptions C15_reject_partial.

(** None means 0 where it is accepted *)
Theorem C15_none : forall db c i,
  mk_item db c None = Ok i -> ic i = c /\ ival i = 0.
Proof. exact c15_none. Qed.
Print Assumptions C15_none.

Example C15_case :
  mk_item empty_db Unit (Some (VInt 0x11)) = Ok (Item Unit (VNamed "Centimeter" 0x11))
  /\ mk_item empty_db Input (Some (VInt 0x806)) = Ok (Item Input (VNamed "Variable|Relative" 0x806))
  /\ mk_item empty_db ReportSize (Some (VInt (-1))) = Err AssertionError.
Proof. repeat split. Qed.

(** Collection(-1) is accepted, with another number *)
Theorem C15_refuted : exists z i,
  mk_item empty_db Collection (Some (VInt z)) = Ok i /\ ival i <> z /\ z < 0.
Proof. exists (-1), (Item Collection (VNamed "UsageModifier" 6)). repeat split. discriminate. Qed.
Print Assumptions C15_refuted.
