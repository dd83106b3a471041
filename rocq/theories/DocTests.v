(* DocTests.v -- the worked examples of /repo/README.rst and
   /repo/doc/usage.rst replayed on the model.  These are checks of the model's
   fidelity, not theorems about it. *)
From Coq Require Import String Ascii List ZArith.
From Verif Require Import Py Usage Item Parser Optimizer Descriptor TextFormats
     Extractor Dumper UsageTable UsageModules ModelTests.
Import ListNotations.
Open Scope string_scope.

Definition shown (r : result text) : result string :=
  match r with Ok t => Ok (string_of_list_ascii t) | Err e => Err e end.

(* doc/usage.rst:221-274, "python3 mouse.py -N -o code", verbatim *)
Example doc_unoptimized :
  shown (let* l := stream_items default_db mouse in format_code l) =
  Ok "     0x0b, 0x02, 0x00, 0x01, 0x00,  // Usage (desktop.Mouse)
     0xa1, 0x01,                    // Collection (Application)
     0x0b, 0x30, 0x00, 0x01, 0x00,  //     Usage (desktop.X)
     0x35, 0x00,                    //     PhysicalMinimum (0)
     0x45, 0x00,                    //     PhysicalMaximum (0)
     0x15, 0x81,                    //     LogicalMinimum (-127)
     0x25, 0x7f,                    //     LogicalMaximum (127)
     0x65, 0x00,                    //     Unit (0)
     0x55, 0x00,                    //     UnitExponent (0)
     0x95, 0x01,                    //     ReportCount (1)
     0x75, 0x08,                    //     ReportSize (8)
     0x81, 0x06,                    //     Input (Variable|Relative)
     0x0b, 0x31, 0x00, 0x01, 0x00,  //     Usage (desktop.Y)
     0x35, 0x00,                    //     PhysicalMinimum (0)
     0x45, 0x00,                    //     PhysicalMaximum (0)
     0x15, 0x81,                    //     LogicalMinimum (-127)
     0x25, 0x7f,                    //     LogicalMaximum (127)
     0x65, 0x00,                    //     Unit (0)
     0x55, 0x00,                    //     UnitExponent (0)
     0x95, 0x01,                    //     ReportCount (1)
     0x75, 0x08,                    //     ReportSize (8)
     0x81, 0x06,                    //     Input (Variable|Relative)
     0x0b, 0x01, 0x00, 0x09, 0x00,  //     Usage (button.Button(1))
     0x35, 0x00,                    //     PhysicalMinimum (0)
     0x45, 0x00,                    //     PhysicalMaximum (0)
     0x15, 0x00,                    //     LogicalMinimum (0)
     0x25, 0x01,                    //     LogicalMaximum (1)
     0x65, 0x00,                    //     Unit (0)
     0x55, 0x00,                    //     UnitExponent (0)
     0x95, 0x01,                    //     ReportCount (1)
     0x75, 0x01,                    //     ReportSize (1)
     0x81, 0x02,                    //     Input (Variable)
     0x0b, 0x02, 0x00, 0x09, 0x00,  //     Usage (button.Button(2))
     0x35, 0x00,                    //     PhysicalMinimum (0)
     0x45, 0x00,                    //     PhysicalMaximum (0)
     0x15, 0x00,                    //     LogicalMinimum (0)
     0x25, 0x01,                    //     LogicalMaximum (1)
     0x65, 0x00,                    //     Unit (0)
     0x55, 0x00,                    //     UnitExponent (0)
     0x95, 0x01,                    //     ReportCount (1)
     0x75, 0x01,                    //     ReportSize (1)
     0x81, 0x02,                    //     Input (Variable)
     0x0b, 0x03, 0x00, 0x09, 0x00,  //     Usage (button.Button(3))
     0x35, 0x00,                    //     PhysicalMinimum (0)
     0x45, 0x00,                    //     PhysicalMaximum (0)
     0x15, 0x00,                    //     LogicalMinimum (0)
     0x25, 0x01,                    //     LogicalMaximum (1)
     0x65, 0x00,                    //     Unit (0)
     0x55, 0x00,                    //     UnitExponent (0)
     0x95, 0x01,                    //     ReportCount (1)
     0x75, 0x01,                    //     ReportSize (1)
     0x81, 0x02,                    //     Input (Variable)
     0xc0,                          // EndCollection
".
Proof. vm_compute. reflexivity. Qed.

(* README.rst:66-84, the code the compiler is there to write, verbatim up to
   the left margin *)
Example doc_optimized :
  shown (let* l := stream_items default_db mouse in
         format_code (optimize default_db l)) =
  Ok "     0x05, 0x01,                    // UsagePage (desktop)
     0x09, 0x02,                    // Usage (Mouse)
     0xa1, 0x01,                    // Collection (Application)
     0x15, 0x81,                    //     LogicalMinimum (-127)
     0x25, 0x7f,                    //     LogicalMaximum (127)
     0x75, 0x08,                    //     ReportSize (8)
     0x95, 0x02,                    //     ReportCount (2)
     0x09, 0x30,                    //     Usage (X)
     0x09, 0x31,                    //     Usage (Y)
     0x81, 0x06,                    //     Input (Variable|Relative)
     0x15, 0x00,                    //     LogicalMinimum (0)
     0x25, 0x01,                    //     LogicalMaximum (1)
     0x75, 0x01,                    //     ReportSize (1)
     0x95, 0x03,                    //     ReportCount (3)
     0x05, 0x09,                    //     UsagePage (button)
     0x19, 0x01,                    //     UsageMinimum (Button(1))
     0x29, 0x03,                    //     UsageMaximum (Button(3))
     0x81, 0x02,                    //     Input (Variable)
     0xc0,                          // EndCollection
".
Proof. vm_compute. reflexivity. Qed.

(* doc/usage.rst:71-72, the file mouse.hex *)
Definition mouse_hex : text := str
"05 01 09 02 a1 01 15 81 25 7f 75 08 95 02 09 30 09 31 81 06 15 00 25
01 75 01 95 03 05 09 19 01 29 03 81 02 c0
".

(* The optimised bytes are those of mouse.hex. *)
Example doc_bytes :
  (let* l := stream_items default_db mouse in
   let* b := format_code (optimize default_db l) in
   Ok (map bytes (appended (parse_code default_db b)))) =
  Ok (map bytes (appended (parse_hex default_db mouse_hex))).
Proof. vm_compute. reflexivity. Qed.

(* doc/usage.rst:84-102, "python3 -m hrdc.converter -i hex -o code mouse.hex".
   The documentation prints UsagePage (desktop) and UsagePage (button): it
   shows what the compiler writes.  The converter takes the name of a page from
   the table pageName of usage/usage.py:25-43 (stream/parser/base.py:39-41),
   so those two comments read GenericDesktop and Button; the bytes and every
   other comment are as documented. *)
Example doc_converter :
  shown (format_code (appended (parse_hex default_db mouse_hex))) =
  Ok "     0x05, 0x01,                    // UsagePage (GenericDesktop)
     0x09, 0x02,                    // Usage (Mouse)
     0xa1, 0x01,                    // Collection (Application)
     0x15, 0x81,                    //     LogicalMinimum (-127)
     0x25, 0x7f,                    //     LogicalMaximum (127)
     0x75, 0x08,                    //     ReportSize (8)
     0x95, 0x02,                    //     ReportCount (2)
     0x09, 0x30,                    //     Usage (X)
     0x09, 0x31,                    //     Usage (Y)
     0x81, 0x06,                    //     Input (Variable|Relative)
     0x15, 0x00,                    //     LogicalMinimum (0)
     0x25, 0x01,                    //     LogicalMaximum (1)
     0x75, 0x01,                    //     ReportSize (1)
     0x95, 0x03,                    //     ReportCount (3)
     0x05, 0x09,                    //     UsagePage (Button)
     0x19, 0x01,                    //     UsageMinimum (Button(1))
     0x29, 0x03,                    //     UsageMaximum (Button(3))
     0x81, 0x02,                    //     Input (Variable)
     0xc0,                          // EndCollection
".
Proof. vm_compute. reflexivity. Qed.

(* doc/usage.rst:110-120: an item is written back in its shortest form. *)
Example doc_shortest :
  shown (format_code (appended (parse_code default_db (str
"   0x26, 0x01, 0x00,                  // LogicalMaximum (1)
")))) =
  Ok "     0x25, 0x01,                    // LogicalMaximum (1)
".
Proof. vm_compute. reflexivity. Qed.

(* doc/usage.rst:153, "python3 -m hrdc.descriptor.extractor -i hex
   mouse.hex mouse.py".  The documentation does not print the result; it is the
   script of doc/usage.rst:180-192 inside TopLevel and Report. *)
Example doc_decompiled :
  shown (let* s := x_run default_db xst_init
                         (appended (parse_hex default_db mouse_hex)) in
         match x_root s with
         | Some t => dump default_db 0 t
         | None => Err AttributeError
         end) =
  Ok "from hrdc.usage import *
from hrdc.descriptor import *

descriptor = TopLevel(
    Report(0,
        Collection(Collection.Application, desktop.Mouse,
            Value(Value.Input, desktop.X, 8, flags = Value.Variable|Value.Relative, logicalMin = -127, logicalMax = 127),
            Value(Value.Input, desktop.Y, 8, flags = Value.Variable|Value.Relative, logicalMin = -127, logicalMax = 127),
            Value(Value.Input, button.Button(1), 1, logicalMin = 0, logicalMax = 1),
            Value(Value.Input, button.Button(2), 1, logicalMin = 0, logicalMax = 1),
            Value(Value.Input, button.Button(3), 1, logicalMin = 0, logicalMax = 1),
        ),
    ),
)

if __name__ == ""__main__"":
    compile_main(descriptor)
".
Proof. vm_compute. reflexivity. Qed.

(* doc/optimizations.rst:33-43, between Collection and EndCollection *)
Definition three_buttons : list item :=
  appended (parse_code default_db (str
"  0xa1, 0x02,
  0x15, 0x00,                    //     LogicalMinimum (0)
  0x25, 0x01,                    //     LogicalMaximum (1)
  0x75, 0x01,                    //     ReportSize (1)
  0x95, 0x01,                    //     ReportCount (1)
  0x05, 0x09,                    //     UsagePage (button)
  0x09, 0x01,                    //     Usage (Button(1))
  0x81, 0x02,                    //     Input (Variable)
  0x09, 0x02,                    //     Usage (Button(2))
  0x81, 0x02,                    //     Input (Variable)
  0x09, 0x03,                    //     Usage (Button(3))
  0x81, 0x02,                    //     Input (Variable)
  0xc0,
")).

(* doc/optimizations.rst:45-58, Main merging: the items of the documentation;
   ReportCount is written just before Input (main_merge.py:74-76). *)
Example doc_main_merge :
  shown (format_code (run_pass main_merge three_buttons)) =
  Ok "     0xa1, 0x02,                    // Collection (Logical)
     0x15, 0x00,                    //     LogicalMinimum (0)
     0x25, 0x01,                    //     LogicalMaximum (1)
     0x75, 0x01,                    //     ReportSize (1)
     0x05, 0x09,                    //     UsagePage (Button)
     0x09, 0x01,                    //     Usage (Button(1))
     0x09, 0x02,                    //     Usage (Button(2))
     0x09, 0x03,                    //     Usage (Button(3))
     0x95, 0x03,                    //     ReportCount (3)
     0x81, 0x02,                    //     Input (Variable)
     0xc0,                          // EndCollection
".
Proof. vm_compute. reflexivity. Qed.

(* doc/optimizations.rst:81-106, Range merging of the above *)
Example doc_range_merge :
  shown (format_code (run_pass (usage_merge default_db)
                               (run_pass main_merge three_buttons))) =
  Ok "     0xa1, 0x02,                    // Collection (Logical)
     0x15, 0x00,                    //     LogicalMinimum (0)
     0x25, 0x01,                    //     LogicalMaximum (1)
     0x75, 0x01,                    //     ReportSize (1)
     0x05, 0x09,                    //     UsagePage (Button)
     0x95, 0x03,                    //     ReportCount (3)
     0x19, 0x01,                    //     UsageMinimum (Button(1))
     0x29, 0x03,                    //     UsageMaximum (Button(3))
     0x81, 0x02,                    //     Input (Variable)
     0xc0,                          // EndCollection
".
Proof. vm_compute. reflexivity. Qed.

(* doc/descriptor.rst:211-217 and 224-227 *)
Example doc_usage :
  string_of_list_ascii (show (get "desktop" "X")) = "desktop.X" /\
  py_int (get "desktop" "X") = 0x10030%Z /\
  string_of_list_ascii (show (lookup default_db (VInt 0x10031))) = "desktop.Y".
Proof. vm_compute. repeat split. Qed.

(* doc/descriptor.rst:244-249 *)
Definition doc_keys : urange :=
  URange (get "keyboard" "NoEvent") (get "keyboard" "KeypadHexadecimal").
Example doc_usage_range :
  shown (let* v := range_getitem default_db doc_keys 0 in Ok (show v)) =
    Ok "keyboard.NoEvent" /\
  shown (let* v := range_getitem default_db doc_keys 32 in Ok (show v)) =
    Ok "keyboard.ThreeAndNumber".
Proof. vm_compute. repeat split. Qed.

(* doc/descriptor.rst:259-264; Unit.SILinear is 1 (stream/item.py:264) *)
Example doc_unit :
  (let* l := unit_length 1 in Ok (Z.lor 1 l)) = Ok 0x11%Z /\
  show (usual_unit (VInt 0x11)) = str "Centimeter".
Proof. vm_compute. repeat split. Qed.
