(* ModelTests.v -- the unit tests of /repo/tests replayed on the model.
   These are checks of the model's fidelity, not theorems about it. *)
From Verif Require Import Py Usage Item Parser Optimizer Descriptor TextFormats
     UsageTable UsageModules.

Definition db := default_db.
Definition get_value (r : result value) : tree :=
  match r with Ok v => TValue v | Err _ => TTop [] end.
Definition Way_Input := VNamed "Input" 8.
Definition Way_Output := VNamed "Output" 9.

Definition val (way : pval) (u : option pval) (size : Z) (flags : Z)
           (lmin lmax : option Z) (na : option narr) (count : Z) : tree :=
  get_value (mk_value KValue
    (VArgs way u size (VInt flags) lmin lmax None None na (VInt 0) 0 0 0 count
           None)).

Definition application := VNamed "Application" 1.
Definition u (m a : string) : option pval := Some (get m a).

(* descriptor_expected -- hrdc/descriptor/test.py:1-9 *)
Definition descriptor_expected (t : tree) (s : string) : result unit :=
  let* l := stream_items db t in expect (str s) (optimize db l).

(* tests/test_basic.py:7-33 *)
Definition battery : tree :=
  TColl application (u "consumer" "ConsumerControl")
    [TColl (VNamed "Logical" 2) (u "desktop" "Keyboard")
      [val Way_Input (u "device" "BatteryStrength") 8 2 (Some 0) (Some 100) None 1]].

(* tests/test_basic.py:35-62 *)
Definition bit (way : pval) (m a : string) : tree :=
  val way (u m a) 1 2 (Some 0) (Some 1) None 1.
Definition keyboard : tree :=
  TColl application (u "desktop" "Keyboard")
    (map (bit Way_Input "keyboard")
         ["LeftControl"; "LeftShift"; "LeftAlt"; "LeftGui"; "RightControl";
          "RightShift"; "RightAlt"; "RightGui"]%string
     ++ [val Way_Input None 8 2 (Some 0) None
             (Some (NRange (URange (get "keyboard" "NoEvent")
                                   (get "keyboard" "KeypadHexadecimal")))) 6]
     ++ map (bit Way_Output "led") ["NumLock"; "CapsLock"; "ScrollLock"]%string).

(* tests/test_basic.py:93-109, tests/issue_6/description.py:6-19 *)
Definition mouse : tree :=
  TColl application (u "desktop" "Mouse")
    [val Way_Input (u "desktop" "X") 8 6 (Some (-127)) (Some 127) None 1;
     val Way_Input (u "desktop" "Y") 8 6 (Some (-127)) (Some 127) None 1;
     bit Way_Input "button" "Button(1)"; bit Way_Input "button" "Button(2)";
     bit Way_Input "button" "Button(3)"].

(* tests/issue_7/test.py:6-14 *)
Definition issue_7 : tree :=
  TColl application (u "sensors" "Environmental")
    [TColl (VNamed "Physical" 0) (u "sensors" "Environmental")
      [TReport 1
        [val Way_Input (u "sensors" "EnvironmentalHumidity") 16 2 (Some 0)
             (Some 1400) None 1;
         val Way_Input (u "sensors" "EnvironmentalTemperature") 8 2 (Some 0)
             (Some 100) None 2;
         val Way_Input (u "sensors" "EnvironmentalAtmosphericPressure") 8 2
             (Some 0) (Some 100) None 1]]].

Example test_battery : descriptor_expected battery "
     0x05, 0x0c,                    // UsagePage (consumer)
     0x09, 0x01,                    // Usage (ConsumerControl)
     0xa1, 0x01,                    // Collection (Application)
     0x05, 0x01,                    //     UsagePage (desktop)
     0x09, 0x06,                    //     Usage (Keyboard)
     0xa1, 0x02,                    //     Collection (Logical)
     0x15, 0x00,                    //         LogicalMinimum (0)
     0x25, 0x64,                    //         LogicalMaximum (100)
     0x75, 0x08,                    //         ReportSize (8)
     0x95, 0x01,                    //         ReportCount (1)
     0x05, 0x06,                    //         UsagePage (device)
     0x09, 0x20,                    //         Usage (BatteryStrength)
     0x81, 0x02,                    //         Input (Variable)
     0xc0,                          //     EndCollection
     0xc0,                          // EndCollection
" = Ok tt.
Proof. vm_compute. reflexivity. Qed.

Example test_keyboard : descriptor_expected keyboard "
     0x05, 0x01,                    // UsagePage (desktop)
     0x09, 0x06,                    // Usage (Keyboard)
     0xa1, 0x01,                    // Collection (Application)
     0x15, 0x00,                    //     LogicalMinimum (0)
     0x25, 0x01,                    //     LogicalMaximum (1)
     0x75, 0x01,                    //     ReportSize (1)
     0x95, 0x08,                    //     ReportCount (8)
     0x05, 0x07,                    //     UsagePage (keyboard)
     0x19, 0xe0,                    //     UsageMinimum (LeftControl)
     0x29, 0xe7,                    //     UsageMaximum (RightGui)
     0x81, 0x02,                    //     Input (Variable)
     0x26, 0xdd, 0x00,              //     LogicalMaximum (221)
     0x75, 0x08,                    //     ReportSize (8)
     0x95, 0x06,                    //     ReportCount (6)
     0x19, 0x00,                    //     UsageMinimum (NoEvent)
     0x29, 0xdd,                    //     UsageMaximum (KeypadHexadecimal)
     0x81, 0x00,                    //     Input
     0x25, 0x01,                    //     LogicalMaximum (1)
     0x75, 0x01,                    //     ReportSize (1)
     0x95, 0x03,                    //     ReportCount (3)
     0x05, 0x08,                    //     UsagePage (led)
     0x19, 0x01,                    //     UsageMinimum (NumLock)
     0x29, 0x03,                    //     UsageMaximum (ScrollLock)
     0x91, 0x02,                    //     Output (Variable)
     0xc0,                          // EndCollection
" = Ok tt.
Proof. vm_compute. reflexivity. Qed.

Example test_mouse : descriptor_expected mouse "        
     0x05, 0x01,                    // UsagePage (desktop)
     0x09, 0x02,                    // Usage (Mouse)
     0xa1, 0x01,                    // Collection (Application)
     0x15, 0x81,                    //     LogicalMinimum (-127)
     0x25, 0x7f,                    //     LogicalMaximum (127)
     0x75, 0x08,                    //     ReportSize (8)
     0x95, 0x02,                    //     ReportCount (2)
     0x09, 0x30,                    //     Usage (X)
     0x09, 0x31,                    //     Usage (Y)
     0x81, 0x06,                    //     Input (Variable|Relative)
     0x15, 0x00,                    //     LogicalMinimum (0)
     0x25, 0x01,                    //     LogicalMaximum (1)
     0x75, 0x01,                    //     ReportSize (1)
     0x95, 0x03,                    //     ReportCount (3)
     0x05, 0x09,                    //     UsagePage (button)
     0x19, 0x01,                    //     UsageMinimum (Button(1))
     0x29, 0x03,                    //     UsageMaximum (Button(3))
     0x81, 0x02,                    //     Input (Variable)
     0xc0,                          // EndCollection
" = Ok tt.
Proof. vm_compute. reflexivity. Qed.

Example test_issue_7 : descriptor_expected issue_7 "
     0x05, 0x20,                    // UsagePage (sensors)
     0x09, 0x30,                    // Usage (Environmental)
     0xa1, 0x01,                    // Collection (Application)
     0x09, 0x30,                    //     Usage (Environmental)
     0xa1, 0x00,                    //     Collection (Physical)
     0x85, 0x01,                    //         ReportID (1)
     0x15, 0x00,                    //         LogicalMinimum (0)
     0x26, 0x78, 0x05,              //         LogicalMaximum (1400)
     0x75, 0x10,                    //         ReportSize (16)
     0x95, 0x01,                    //         ReportCount (1)
     0x09, 0x32,                    //         Usage (EnvironmentalHumidity)
     0x81, 0x02,                    //         Input (Variable)
     0x25, 0x64,                    //         LogicalMaximum (100)
     0x75, 0x08,                    //         ReportSize (8)
     0x95, 0x02,                    //         ReportCount (2)
     0x09, 0x33,                    //         Usage (EnvironmentalTemperature)
     0x81, 0x02,                    //         Input (Variable)
     0x95, 0x01,                    //         ReportCount (1)
     0x09, 0x31,                    //         Usage (EnvironmentalAtmosphericPressure)
     0x81, 0x02,                    //         Input (Variable)
     0xc0,                          //     EndCollection
     0xc0,                          // EndCollection
" = Ok tt.
Proof. vm_compute. reflexivity. Qed.

(* tests/test_item.py *)
Definition item_bytes (c : icls) (v : Z) : result (list Z) :=
  let* i := mk_item db c (Some (VInt v)) in bytes i.
Definition flag_bytes (c : icls) : result (list Z) :=
  let* i := mk_item db c (Some (VNamed "Variable" 2)) in bytes i.

Example test_item :
  item_bytes Usage (6) = Ok [9; 6] /\
  item_bytes Usage (255) = Ok [9; 255] /\
  item_bytes Usage (65535) = Ok [10; 255; 255] /\
  item_bytes Usage (32768) = Ok [10; 0; 128] /\
  item_bytes LogicalMinimum (0) = Ok [21; 0] /\
  item_bytes LogicalMinimum (6) = Ok [21; 6] /\
  item_bytes LogicalMinimum (-5) = Ok [21; 251] /\
  item_bytes LogicalMinimum (65535) = Ok [23; 255; 255; 0; 0] /\
  item_bytes LogicalMinimum (-32768) = Ok [22; 0; 128] /\
  item_bytes LogicalMinimum (32767) = Ok [22; 255; 127] /\
  item_bytes LogicalMinimum (32768) = Ok [23; 0; 128; 0; 0] /\
  item_bytes EndCollection (0) = Ok [192] /\
  flag_bytes Input = Ok [129; 2] /\
  flag_bytes Output = Ok [145; 2] /\
  flag_bytes Feature = Ok [177; 2].
Proof. vm_compute. repeat split. Qed.
