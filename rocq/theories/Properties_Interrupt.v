(* Properties_Interrupt.v -- C85: what a run that ends with an exception has
   written. *)
From Verif Require Import Py Usage Item Parser Optimizer Descriptor HidSpec Spec TextFormats ItemFacts ParserFacts
  CodecProofs StreamSpec StreamTree TextProofs Interrupt InterruptSpec InterruptProofs InterruptOpen Properties_Stream.
Local Open Scope list_scope.
Local Open Scope Z_scope.

(** The runs followed item by item end as the model of the other theorems
    says; so they add the interrupted ones. *)
Theorem C85_agrees : forall db opt t b,
  finished (compile_run db opt t) = Ok tt /\ serialize (appended (compile_run db opt t)) = Ok b <->
  compile db opt t = Ok b.
Proof. exact compile_agree. Qed.
Print Assumptions C85_agrees.

(** Whole items only, whatever happens. *)
Theorem C85_whole : forall db opt t,
  exists w ws, serialize (appended (compile_run db opt t)) = Ok w /\ blob_means w ws.
Proof. exact c85_whole. Qed.
Print Assumptions C85_whole.

(** Without optimiser, everything declared before the member that fails is
    already there. *)
Theorem C85_members : forall db a b w,
  compile db false (TTop a) = Ok w ->
  exists w', serialize (appended (compile_run db false (TTop (a ++ b)))) = Ok (w ++ w').
Proof. exact c85_members. Qed.
Print Assumptions C85_members.

(** With one collection around everything, an interrupted output either
    declares nothing or leaves that collection open: it is never a complete
    descriptor.  (Complete ones are balanced: C23.) *)
Theorem C85_open : forall db opt t x w ws,
  enclosed t -> finished (compile_run db opt t) = Err x ->
  serialize (appended (compile_run db opt t)) = Ok w -> blob_means w ws ->
  nothing_declared ws \/ exists d, nest 0 (map w_cls ws) = Some (S d).
Proof. exact c85_open. Qed.
Print Assumptions C85_open.

(** The text formats hold the same bytes. *)
Theorem C85_formats : forall db opt t w,
  serialize (appended (compile_run db opt t)) = Ok w ->
  (exists x, format_hex (appended (compile_run db opt t)) = Ok x /\ hex_blob x = w) /\
  (Forall (fun i => no_nl (str (item_str i))) (appended (compile_run db opt t)) ->
   exists m lines, code_run 0 (appended (compile_run db opt t)) = Ok (m, lines) /\ code_blob_of (concat lines) = Ok w).
Proof. intros db opt t w S. split; [apply c10; exact S|intros N; apply c11; auto]. Qed.
Print Assumptions C85_formats.

(** The converter writes exactly the items of the longest beginning of its
    input that consists of known items, and then fails if there is more. *)
Theorem C85_converter : forall db b, Forall is_byte b ->
  exists good rest ws w ws',
    b = good ++ rest /\ blob_means good ws /\ Forall number_allowed ws /\
    serialize (appended (convert_run db false b)) = Ok w /\ blob_means w ws' /\ map w_what ws' = map w_what ws /\
    (rest = [] /\ finished (convert_run db false b) = Ok tt \/
     exists p t e, rest = p :: t /\ finished (convert_run db false b) = Err e /\
       forall data more, t = data ++ more -> length data = size_of_code (p mod 4) ->
         ~ known_item (Raw ((p / 4) mod 4) (p / 16) data)).
Proof. exact c85_converter. Qed.
Print Assumptions C85_converter.

(** With -O it writes the beginning of what that part alone would give. *)
Theorem C85_converter_optimised : forall db good ws p t full,
  blob_means good ws -> Forall number_allowed ws -> is_byte p -> Forall is_byte t ->
  (forall data rest, t = data ++ rest -> length data = size_of_code (p mod 4) ->
     ~ known_item (Raw ((p / 4) mod 4) (p / 16) data)) ->
  finished (convert_run db true good) = Ok tt -> serialize (appended (convert_run db true good)) = Ok full ->
  exists w e, finished (convert_run db true (good ++ p :: t)) = Err e /\
    serialize (appended (convert_run db true (good ++ p :: t))) = Ok w /\ exists more, full = w ++ more.
Proof. exact c85_converter_optimised. Qed.
Print Assumptions C85_converter_optimised.

(** a designator that does not fit into 32 bits; a negative number of fields *)
Definition too_large := mk_value KValue (VArgs input (Some (VInt 0x90002)) 4 (VInt 2) (Some 0) (Some 15) None None None
   (VInt 0) 0 0x100000000 0 1 None).
Definition negative := mk_value KValue (VArgs input (Some (VInt 0x90002)) 4 (VInt 2) (Some 0) (Some 15) None None None
   (VInt 0) 0 0 0 (-1) None).
Definition device (v : result value) := TTop [TColl (VInt 1) (Some (VInt 0x10002)) [tv small; tv v]].

Example C85_case :
  enclosed (device too_large) /\ enclosed (device negative) /\
  finished (compile_run empty_db false (device too_large)) = Err StructError /\
  finished (compile_run empty_db false (device negative)) = Err AssertionError /\
  (exists w, serialize (appended (compile_run empty_db false (device too_large))) = Ok w /\ (length w > 30)%nat) /\
  serialize (appended (compile_run empty_db true (device too_large))) = Ok [5; 1; 9; 2; 161; 1; 21; 0; 37; 15; 117; 4; 149; 2] /\
  serialize (appended (compile_run empty_db true (device negative))) = Ok [] /\
  (exists e, compile empty_db true (device negative) = Err e).
Proof.
  split; [repeat constructor|]. split; [repeat constructor|]. split; [vm_compute; reflexivity|]. split; [vm_compute; reflexivity|].
  split; [eexists; split; [vm_compute; reflexivity|cbn; lia]|]. split; [vm_compute; reflexivity|]. split; [vm_compute; reflexivity|].
  eexists. vm_compute. reflexivity.
Qed.

(** Report Count 1, Report Size 8, and after some main items a reserved tag *)
Example C85_converter_case :
  let good := [0x95; 1; 0x75; 8; 0x81; 2; 0xc0; 0xc0; 0xc0; 0xc0; 0xc0] in
  finished (convert_run empty_db false (good ++ [0xc4])) = Err KeyError /\
  serialize (appended (convert_run empty_db false (good ++ [0xc4]))) = Ok good /\
  finished (convert_run empty_db true good) = Ok tt /\
  serialize (appended (convert_run empty_db true good)) = Ok ([0x75; 8; 0x95; 1; 0x81; 2; 0xc0] ++ [0xc0; 0xc0; 0xc0; 0xc0]) /\
  finished (convert_run empty_db true (good ++ [0xc4])) = Err KeyError /\
  serialize (appended (convert_run empty_db true (good ++ [0xc4]))) = Ok [0x75; 8; 0x95; 1; 0x81; 2; 0xc0].
Proof. vm_compute. repeat split. Qed.
