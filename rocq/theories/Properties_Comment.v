(* Properties_Comment.v -- C73: the comments in C output *)
From Coq Require Import ZArith List Bool String Ascii Lia.
From Verif Require Import Py Usage Item Parser TextFormats UsageTable UsageModules HidSpec Spec ParserFacts TextProofs
  CommentSpec CommentProofs CommentTable.
Import ListNotations.
Local Open Scope list_scope.
Local Open Scope Z_scope.

(** C73 (partial): in C output for bytes without Pop, each line's comment has
    the item's name, its number by name, and for a short usage the name in the
    usage page in force. *)
Theorem C73_partial : forall db b ws,
  blob_means b ws -> finished (blob_parse db b) = Ok tt -> (forall w, In w ws -> w_cls w <> Pop) ->
  exists lines, format_code (appended (blob_parse db b)) = Ok (concat lines) /\ List.length lines = List.length ws /\
    forall k w, nth_error ws k = Some w ->
      exists p, ~ In slash p /\
        nth_error lines k = Some (p ++ str "// "
          ++ repeat " "%char (Z.to_nat (4 * open_around (firstn k ws) w))
          ++ str (comment db (page_in_force (firstn k ws)) w) ++ [nl]).
Proof. exact c73_partial. Qed.
Print Assumptions C73_partial.

(** C73, exactly: with Pop, short usages are named in the last page declared. *)
Theorem C73_always : forall db b ws,
  blob_means b ws -> finished (blob_parse db b) = Ok tt ->
  exists lines, format_code (appended (blob_parse db b)) = Ok (concat lines) /\ List.length lines = List.length ws /\
    forall k w, nth_error ws k = Some w ->
      exists p, ~ In slash p /\
        nth_error lines k = Some (p ++ str "// "
          ++ repeat " "%char (Z.to_nat (4 * open_around (firstn k ws) w))
          ++ str (comment db (last_page 0 (firstn k ws)) w) ++ [nl]).
Proof. exact c73. Qed.
Print Assumptions C73_always.

Definition items73 : list witem :=
  [W UsagePage 1 false; W Push 0 false; W UsagePage 2 false; W Pop 0 false; W Usage 2 false; W Collection 1 false;
   W Unit 0xf011 false; W Input 0x22 false; W EndCollection 0 false].
Definition blob73 : list Z :=
  [0x05; 1; 0xa5; 0; 0x05; 2; 0xb5; 0; 0x09; 2; 0xa1; 1; 0x66; 0x11; 0xf0; 0x81; 0x22; 0xc0].

Lemma blob73_means : blob_means blob73 items73.
Proof.
  exact (serialize_means [Item UsagePage (VInt 1); Item Push (VInt 0); Item UsagePage (VInt 2); Item Pop (VInt 0); Item Usage (VInt 2);
    Item Collection (VInt 1); Item Unit (VInt 0xf011); Item Input (VInt 0x22); Item EndCollection (VInt 0)] blob73 eq_refl).
Qed.

(** C73 is false after a Pop: usage 2 of page 1, a mouse, is called by the name
    of usage 2 of page 2. *)
Theorem C73_refuted : exists b ws k w t line,
  blob_means b ws /\ finished (blob_parse default_db b) = Ok tt /\ nth_error ws k = Some w /\
  comment default_db (page_in_force (firstn k ws)) w = "Usage (Mouse)"%string /\
  format_code (appended (blob_parse default_db b)) = Ok t /\
  nth_error (split_on is_nl t) k = Some (line ++ str "// Usage (AutomobileSimulationDevice)").
Proof.
  exists blob73, items73, 4%nat, (W Usage 2 false).
  eexists. exists (str "     0x09, 0x02,                    ").
  split; [exact blob73_means|]. split; [vm_compute; reflexivity|]. split; [reflexivity|]. split; [vm_compute; reflexivity|].
  split; [vm_compute; reflexivity|]. vm_compute. reflexivity.
Qed.
Print Assumptions C73_refuted.

Example C73_case :
  map (fun w => comment default_db 1 w) items73 =
    ["UsagePage (GenericDesktop)"; "Push (0)"; "UsagePage (Simulation)"; "Pop (0)"; "Usage (Mouse)"; "Collection (Application)";
     "Unit (Velocity)"; "Input (Variable|NoPreferred)"; "EndCollection"]%string
  /\ comment default_db 9 (W UsageMaximum 3 false) = "UsageMaximum (Button(3))"%string
  /\ comment default_db 9 (W Usage 0x10006 true) = "Usage (desktop.Keyboard)"%string
  /\ comment default_db 9 (W Usage 0x12345678 true) = "Usage (0x12345678)"%string
  /\ comment default_db 0x77 (W Usage 300 false) = "Usage (300)"%string.
Proof. vm_compute. repeat split; reflexivity. Qed.

(** C73, second part (partial): from the comment one can tell the item and its
    number, if only the nine named bits of a data item are used. *)
Theorem C73_apart_partial : forall page w1 w2,
  0 <= page -> nine_bits w1 -> nine_bits w2 -> in_32_bits (w_cls w1) (w_val w1) -> in_32_bits (w_cls w2) (w_val w2) ->
  comment default_db page w1 = comment default_db page w2 -> w_what w1 = w_what w2.
Proof. exact c73_all_apart. Qed.
Print Assumptions C73_apart_partial.

Theorem C73_apart_refuted : exists page w1 w2,
  0 <= page /\ in_32_bits (w_cls w1) (w_val w1) /\ in_32_bits (w_cls w2) (w_val w2) /\
  comment default_db page w1 = comment default_db page w2 /\ w_what w1 <> w_what w2.
Proof.
  exists 1, (W Output 0x200 false), (W Output 0 false).
  split; [lia|]. split; [vm_compute; intuition discriminate|]. split; [vm_compute; intuition discriminate|].
  split; [vm_compute; reflexivity|discriminate].
Qed.
Print Assumptions C73_apart_refuted.

Example C73_apart_case :
  comment default_db 1 (W Output 0x102 false) = "Output (Variable|BufferedBytes)"%string /\ nine_bits (W Output 0x102 false).
Proof. split; [vm_compute; reflexivity|]. intros _. vm_compute. intuition discriminate. Qed.
