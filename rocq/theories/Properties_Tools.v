(* Properties_Tools.v -- C59 to C62: the command line tools *)
From Coq Require Import ZArith List Bool Lia String Ascii.
From Verif Require Import Py Usage Item Parser Optimizer Descriptor TextFormats Tools UsageModules HidSpec Spec TextNames ToolSpec ToolProofs.
Import ListNotations.
Local Open Scope list_scope.
Local Open Scope Z_scope.

(** text files of ASCII characters with universal newlines *)
Fixpoint newlines (t : text) : text :=
  match t with
  | [] => []
  | c :: r =>
      if Ascii.eqb c "013" then nl :: match r with d :: r' => if Ascii.eqb d nl then newlines r' else newlines r | [] => [] end
      else c :: newlines r
  end.
Definition posix : locale :=
  Locale (fun b => if forallb (fun z => (0 <=? z) && (z <? 128)) b then Ok (newlines (map (fun z => ascii_of_nat (Z.to_nat z)) b)) else Err ValueError)
         (fun t => if forallb (fun c => code c <? 128) t then Ok (map code t) else Err ValueError).

Lemma posix_faithful : faithful posix.
Proof.
  intros t F. cbn [posix l_write l_read].
  assert (A : Forall (fun c => 0 <= code c < 128 /\ Ascii.eqb c "013" = false) t).
  { eapply Forall_impl; [|exact F]. intros c [P | ->]; [|change (0 <= 10 < 128 /\ false = false); split; [lia|reflexivity]].
    unfold plain_char in P. unfold code. split; [lia|]. destruct (Ascii.eqb c "013") eqn:E; [|reflexivity].
    apply Ascii.eqb_eq in E. subst c. vm_compute in P. destruct P as [P _]. exfalso. apply P. reflexivity. }
  exists (map code t). rewrite !(proj2 (forallb_forall _ _)).
  - split; [reflexivity|]. f_equal. rewrite map_map. clear F. induction A as [|c t [H1 H2] A IH]; [reflexivity|].
    cbn [map newlines]. replace (ascii_of_nat (Z.to_nat (code c))) with c by (unfold code; rewrite Nat2Z.id, ascii_nat_embedding; reflexivity).
    rewrite H2, IH. reflexivity.
  - intros z I. apply in_map_iff in I. destruct I as [c [<- I]]. rewrite Forall_forall in A. destruct (A c I) as [H _]. lia.
  - intros c I. rewrite Forall_forall in A. destruct (A c I) as [H _]. lia.
Qed.

(** C59: writing hex or C code loses nothing: for every input format, with and
    without -O, the text is produced exactly when the binary output is, and
    the converter and the decompiler make the same of both, whatever their
    own options. *)
Theorem C59 loc db fin src fout dst opt content :
  faithful loc -> plain_registry db -> text_format fout ->
  (forall y, converter_tool loc db fin src fout dst opt content = Ok y ->
     exists b, converter_tool loc db fin src "binary" Standard opt content = Ok b /\ reads_like loc fout y b) /\
  (forall b, converter_tool loc db fin src "binary" Standard opt content = Ok b ->
     exists y, converter_tool loc db fin src fout dst opt content = Ok y).
Proof. exact (c59 loc db fin src fout dst opt content). Qed.
Print Assumptions C59.

(** there are no other formats: any other name, also one in capitals, is
    refused by every tool before it does anything *)
Theorem C59_formats loc db name :
  ~ In name ["binary"; "hex"; "code"]%string ->
  (forall src fout dst opt content, converter_tool loc db name src fout dst opt content = Err KeyError) /\
  (forall fin src dst opt content, converter_tool loc db fin src name dst opt content = Err KeyError) /\
  (forall dst opt t, compiler_tool loc db name dst opt t = Err KeyError) /\
  (forall src content, decompiler_tool loc db name src content = Err KeyError).
Proof. exact (c59_formats loc db name). Qed.
Print Assumptions C59_formats.

Example C59_formats_case : ~ In "Hex"%string ["binary"; "hex"; "code"]%string /\
  compiler_tool posix default_db "Hex" Standard true (TTop []) = Err KeyError /\
  compiler_tool posix default_db "hex" Standard true (TTop []) = Ok [].
Proof. split; [cbn; intuition discriminate|]. split; vm_compute; reflexivity. Qed.

(** the package's registry is plain, after any calls *)
Theorem C59_registry h : plain_registry (db_after h).
Proof. exact (plain_after h). Qed.
Print Assumptions C59_registry.

Example C59_case :
  faithful posix /\ plain_registry default_db /\
  converter_tool posix default_db "hex" Standard "code" Named false (map code (str "05 01 09 02 a1 01 c0"))
  = Ok (map code (str "     0x05, 0x01,                    // UsagePage (GenericDesktop)" ++ [nl] ++
                  str "     0x09, 0x02,                    // Usage (Mouse)" ++ [nl] ++
                  str "     0xa1, 0x01,                    // Collection (Application)" ++ [nl] ++
                  str "     0xc0,                          // EndCollection" ++ [nl])).
Proof.
  split; [exact posix_faithful|]. split; [exact (plain_after [])|]. vm_compute. reflexivity.
Qed.

(** The condition on names is needed: with universal newlines a carriage
    return ends the comment, the rest of the name is read as bytes. *)
Definition cr_db : udb := fun z => if z =? 0x10002 then Some (String "013" "0xc0,", []) else None.
Example C59_cr :
  let blob := [0x0b; 2; 0; 1; 0] in exists y,
    converter_tool posix cr_db "binary" Standard "binary" Standard false blob = Ok blob /\
    converter_tool posix cr_db "binary" Standard "code" Named false blob = Ok y /\
    converter_tool posix cr_db "code" Named "binary" Standard false y = Err ValueError.
Proof. cbv zeta. eexists. split; [vm_compute; reflexivity|]. split; [vm_compute; reflexivity|]. vm_compute. reflexivity. Qed.

(** C60: the same for the compiler. *)
Theorem C60 loc db fout dst opt t :
  faithful loc -> plain_registry db -> plain_tree t -> text_format fout ->
  (forall y, compiler_tool loc db fout dst opt t = Ok y -> exists b, compile db opt t = Ok b /\ reads_like loc fout y b) /\
  (forall b, compile db opt t = Ok b -> exists y, compiler_tool loc db fout dst opt t = Ok y).
Proof. exact (c60 loc db fout dst opt t). Qed.
Print Assumptions C60.

Definition way_in : pval := VNamed "Input" 8.
Definition axis (n : string) (z : Z) : tree :=
  TValue (Value KValue way_in (Some (VUsage n z [DV])) 8 (VNamed "Variable|Relative" 6) (Some (-127)) (Some 127) (Some (-127)) (Some 127)
                None (VInt 0) 0 0 0 1 8).
Definition tree60 : tree :=
  TColl (VNamed "Application" 1) (Some (VUsage "desktop.Mouse" 0x10002 [CA])) [axis "desktop.X" 0x10030; axis "desktop.Y" 0x10031].

Lemma plain_by s : cleanb s = true -> plain_name s.
Proof.
  intros H. pose proof (cleanb_ok printable printable_self s H) as C. eapply Forall_impl; [|exact C]. intros c. apply printable_plain.
Qed.

Lemma tree60_plain : plain_tree tree60.
Proof.
  constructor; [apply plain_by; reflexivity..|].
  repeat (constructor; [constructor; first [exact I | apply plain_by; reflexivity]|]). constructor.
Qed.

Definition text60 : text := str
"     0x05, 0x01,                    // UsagePage (desktop)
     0x09, 0x02,                    // Usage (Mouse)
     0xa1, 0x01,                    // Collection (Application)
     0x15, 0x81,                    //     LogicalMinimum (-127)
     0x25, 0x7f,                    //     LogicalMaximum (127)
     0x75, 0x08,                    //     ReportSize (8)
     0x95, 0x02,                    //     ReportCount (2)
     0x09, 0x30,                    //     Usage (X)
     0x09, 0x31,                    //     Usage (Y)
     0x81, 0x06,                    //     Input (Variable|Relative)
     0xc0,                          // EndCollection
".

Example C60_case :
  plain_tree tree60 /\
  compile default_db true tree60 = Ok [5; 1; 9; 2; 0xa1; 1; 0x15; 0x81; 0x25; 0x7f; 0x75; 8; 0x95; 2; 9; 0x30; 9; 0x31; 0x81; 6; 0xc0] /\
  compiler_tool posix default_db "code" Named true tree60 = Ok (map code text60).
Proof. split; [exact tree60_plain|]. split; vm_compute; reflexivity. Qed.

(** C61: the test helper passes exactly when the expected text holds the bytes
    the compiler writes, and so on the compiler's own C code. *)
Theorem C61 db t expected : descriptor_expected db t expected = Ok tt <->
  exists b, code_blob_of expected = Ok b /\ compile db true t = Ok b.
Proof. exact (c61 db t expected). Qed.
Print Assumptions C61.

Theorem C61_output loc db dst t y :
  faithful loc -> plain_registry db -> plain_tree t -> compiler_tool loc db "code" dst true t = Ok y ->
  exists u, l_read loc y = Ok u /\ descriptor_expected db t u = Ok tt.
Proof. exact (c61_output loc db dst t y). Qed.
Print Assumptions C61_output.

Example C61_case :
  descriptor_expected default_db tree60 text60 = Ok tt /\
  descriptor_expected default_db tree60 (skipn 59 text60) = Err AssertionError.
Proof. split; vm_compute; reflexivity. Qed.

(** C62: the tools do the same with named files as with standard input and
    output.  Proved for the text formats. *)
Theorem C62_partial loc db fin src src' fout dst dst' opt content :
  text_format fin -> text_format fout ->
  converter_tool loc db fin src fout dst opt content = converter_tool loc db fin src' fout dst' opt content /\
  decompiler_tool loc db fin src content = decompiler_tool loc db fin src' content /\
  forall t, compiler_tool loc db fout dst opt t = compiler_tool loc db fout dst' opt t.
Proof. exact (c62_text loc db fin src src' fout dst dst' opt content). Qed.
Print Assumptions C62_partial.

(** What is missing: the binary format never works with a named file.  No
    content but the empty text is read from one, and whenever standard output
    would get any byte, a named file gets a TypeError. *)
Theorem C62_binary loc db :
  (forall fout dst opt content, (forall t, l_read loc content = Ok t -> t <> []) ->
     (exists e, converter_tool loc db "binary" Named fout dst opt content = Err e) /\
     (exists e, decompiler_tool loc db "binary" Named content = Err e)) /\
  (forall fin src opt content b, b <> [] ->
     converter_tool loc db fin src "binary" Standard opt content = Ok b ->
     converter_tool loc db fin src "binary" Named opt content = Err TypeError) /\
  (forall opt t b, b <> [] -> compiler_tool loc db "binary" Standard opt t = Ok b ->
     compiler_tool loc db "binary" Named opt t = Err TypeError).
Proof. exact (c62_binary loc db). Qed.
Print Assumptions C62_binary.

Theorem C62_refuted : exists loc db content,
  faithful loc /\
  (exists b, converter_tool loc db "binary" Standard "binary" Standard false content = Ok b /\
     converter_tool loc db "binary" Named "binary" Standard false content <> Ok b /\
     converter_tool loc db "binary" Standard "binary" Named false content <> Ok b).
Proof.
  exists posix, default_db, [5; 1; 0x19; 1]. split; [exact posix_faithful|]. exists [5; 1; 0x19; 1].
  split; [vm_compute; reflexivity|]. split; vm_compute; discriminate.
Qed.
Print Assumptions C62_refuted.

Example C62_case :
  text_format "hex" /\
  converter_tool posix default_db "hex" Named "hex" Standard false (map code (str "05 01 c0")) = Ok (map code (str "05 01" ++ [nl] ++ str "c0" ++ [nl])) /\
  converter_tool posix default_db "binary" Standard "binary" Standard false [5; 1; 0x19; 1] = Ok [5; 1; 0x19; 1] /\
  converter_tool posix default_db "binary" Named "binary" Standard false [5; 1; 0x19; 1] = Err TypeError /\
  converter_tool posix default_db "binary" Standard "binary" Named false [5; 1; 0x19; 1] = Err TypeError.
Proof. split; [left; reflexivity|]. do 3 (split; [vm_compute; reflexivity|]). vm_compute. reflexivity. Qed.
