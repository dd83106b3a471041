(* Properties_Whole.v -- C96: scripts are printed whole. *)
From Verif Require Import Py Usage Item Parser Optimizer Descriptor Extractor TextFormats UsageModules Dumper HidSpec Spec StreamSpec OptSpec
  ItemFacts OptFacts PassFacts StreamTree Properties_Stream Properties_Extract Properties_Twice WholeProofs.
Local Open Scope list_scope.
Local Open Scope Z_scope.

(** Every tree of constructed values is printed, with any registry and at any
    indentation: an output file never holds half a script. *)
Theorem C96_total db n t : well_formed t -> exists s, dump db n t = Ok s.
Proof. exact (printed t db n). Qed.
Print Assumptions C96_total.

(** The decompiler prints a script, or fails with the exception of the parser
    or of the Extractor before anything of the script is written. *)
Theorem C96_blob db blob : Forall (fun x => 0 <= x < 256) blob ->
  match decompile db blob with
  | Err e => decompile_text db blob = Err e
  | Ok _ => exists s, decompile_text db blob = Ok s
  end.
Proof. exact (printed_blob db blob). Qed.
Print Assumptions C96_blob.

(** What is printed for anything but a single value is a script one can run. *)
Theorem C96_script t db s : match t with TValue _ => False | _ => True end -> dump db 0 t = Ok s ->
  exists b, s = str "from hrdc.usage import *
from hrdc.descriptor import *

descriptor = " ++ b ++ str "
if __name__ == ""__main__"":
    compile_main(descriptor)
".
Proof. exact (framed t db s). Qed.
Print Assumptions C96_script.

(** tree95 has every kind of node; a blob that stops inside an item *)
Example C96_case : well_formed tree95 /\ (exists s, dump empty_db 3 tree95 = Ok s) /\ (exists s, dump default_db 0 tree95 = Ok s) /\
  decompile default_db (blob95 ++ [0x26; 0]) <> decompile default_db blob95 /\
  (exists e, decompile_text default_db (blob95 ++ [0x26; 0]) = Err e).
Proof.
  assert (W : well_formed tree95).
  { destruct C95_case as [F [_ [D _]]]. exact (proj1 (TwiceProofs.decompiled default_db blob95 tree95 F D)). }
  split; [exact W|]. split; [exact (C96_total empty_db 3 tree95 W)|]. split; [exact (C96_total default_db 0 tree95 W)|].
  split; [vm_compute; discriminate|]. eexists. vm_compute. reflexivity.
Qed.
