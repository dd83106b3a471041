(* UsageTable.v -- generated by tools/gen_usage.py from the text of
   hrdc/usage/*.py; do not edit.  One list per module, in import order
   (hrdc/usage/__init__.py:3-21); arcade.py is not imported by default
   and is kept apart. *)
From Verif Require Import Py Usage.
Open Scope string_scope.
Local Open Scope Z_scope.

(** Attr = Usage("name", value, kinds) *)
Record udecl := UDecl { u_attr : string; u_name : string; u_value : Z;
                        u_kinds : list utype }.

(* hrdc/usage/pid.py:3-107 *)
Definition t_pid : list udecl := [
  UDecl "PhysicalInterfaceDevice" "pid.PhysicalInterfaceDevice" 0xf0001 [CA];
  UDecl "Normal" "pid.Normal" 0xf0020 [DV];
  UDecl "SetEffectReport" "pid.SetEffectReport" 0xf0021 [CL];
  UDecl "EffectBlockIndex" "pid.EffectBlockIndex" 0xf0022 [DV];
  UDecl "ParameterBlockOffset" "pid.ParameterBlockOffset" 0xf0023 [DV];
  UDecl "ROMFlag" "pid.ROMFlag" 0xf0024 [DF];
  UDecl "EffectType" "pid.EffectType" 0xf0025 [NAry];
  UDecl "ETConstantForce" "pid.ETConstantForce" 0xf0026 [Sel];
  UDecl "ETRamp" "pid.ETRamp" 0xf0027 [Sel];
  UDecl "ETCustomForceData" "pid.ETCustomForceData" 0xf0028 [Sel];
  UDecl "ETSquare" "pid.ETSquare" 0xf0030 [Sel];
  UDecl "ETSine" "pid.ETSine" 0xf0031 [Sel];
  UDecl "ETTriangle" "pid.ETTriangle" 0xf0032 [Sel];
  UDecl "ETSawtoothUp" "pid.ETSawtoothUp" 0xf0033 [Sel];
  UDecl "ETSawtoothDown" "pid.ETSawtoothDown" 0xf0034 [Sel];
  UDecl "ETSpring" "pid.ETSpring" 0xf0040 [Sel];
  UDecl "ETDamper" "pid.ETDamper" 0xf0041 [Sel];
  UDecl "ETInertia" "pid.ETInertia" 0xf0042 [Sel];
  UDecl "ETFriction" "pid.ETFriction" 0xf0043 [Sel];
  UDecl "Duration" "pid.Duration" 0xf0050 [DV];
  UDecl "SamplePeriod" "pid.SamplePeriod" 0xf0051 [DV];
  UDecl "Gain" "pid.Gain" 0xf0052 [DV];
  UDecl "TriggerButton" "pid.TriggerButton" 0xf0053 [DV];
  UDecl "TriggerRepeatInterval" "pid.TriggerRepeatInterval" 0xf0054 [DV];
  UDecl "AxesEnable" "pid.AxesEnable" 0xf0055 [US];
  UDecl "DirectionEnable" "pid.DirectionEnable" 0xf0056 [DF];
  UDecl "Direction" "pid.Direction" 0xf0057 [CL];
  UDecl "TypeSpecificBlockOffset" "pid.TypeSpecificBlockOffset" 0xf0058 [CL];
  UDecl "BlockType" "pid.BlockType" 0xf0059 [NAry];
  UDecl "SetEnvelopeReport" "pid.SetEnvelopeReport" 0xf005a [CL];
  UDecl "AttackLevel" "pid.AttackLevel" 0xf005b [DV];
  UDecl "AttackTime" "pid.AttackTime" 0xf005c [DV];
  UDecl "FadeLevel" "pid.FadeLevel" 0xf005d [DV];
  UDecl "FadeTime" "pid.FadeTime" 0xf005e [DV];
  UDecl "SetConditionReport" "pid.SetConditionReport" 0xf005f [CL];
  UDecl "CPOffset" "pid.CPOffset" 0xf0060 [DV];
  UDecl "PositiveCoefficient" "pid.PositiveCoefficient" 0xf0061 [DV];
  UDecl "NegativeCoefficient" "pid.NegativeCoefficient" 0xf0062 [DV];
  UDecl "PositiveSaturation" "pid.PositiveSaturation" 0xf0063 [DV];
  UDecl "NegativeSaturation" "pid.NegativeSaturation" 0xf0064 [DV];
  UDecl "DeadBand" "pid.DeadBand" 0xf0065 [DV];
  UDecl "DownloadForceSample" "pid.DownloadForceSample" 0xf0066 [CL];
  UDecl "IsochCustomForceEnable" "pid.IsochCustomForceEnable" 0xf0067 [CL];
  UDecl "CustomForceDataReport" "pid.CustomForceDataReport" 0xf0068 [CL];
  UDecl "CustomForceData" "pid.CustomForceData" 0xf0069 [DV];
  UDecl "CustomForceVendorDefinedData" "pid.CustomForceVendorDefinedData" 0xf006a [DV];
  UDecl "SetCustomForceReport" "pid.SetCustomForceReport" 0xf006b [CL];
  UDecl "CustomForceDataOffset" "pid.CustomForceDataOffset" 0xf006c [DV];
  UDecl "SampleCount" "pid.SampleCount" 0xf006d [DV];
  UDecl "SetPeriodicReport" "pid.SetPeriodicReport" 0xf006e [CL];
  UDecl "Offset" "pid.Offset" 0xf006f [DV];
  UDecl "Magnitude" "pid.Magnitude" 0xf0070 [DV];
  UDecl "Phase" "pid.Phase" 0xf0071 [DV];
  UDecl "Period" "pid.Period" 0xf0072 [DV];
  UDecl "SetConstantForceReport" "pid.SetConstantForceReport" 0xf0073 [CL];
  UDecl "SetRampForceReport" "pid.SetRampForceReport" 0xf0074 [CL];
  UDecl "RampStart" "pid.RampStart" 0xf0075 [DV];
  UDecl "RampEnd" "pid.RampEnd" 0xf0076 [DV];
  UDecl "EffectOperationReport" "pid.EffectOperationReport" 0xf0077 [CL];
  UDecl "EffectOperation" "pid.EffectOperation" 0xf0078 [NAry];
  UDecl "OpEffectStart" "pid.OpEffectStart" 0xf0079 [Sel];
  UDecl "OpEffectStartSolo" "pid.OpEffectStartSolo" 0xf007a [Sel];
  UDecl "OpEffectStop" "pid.OpEffectStop" 0xf007b [Sel];
  UDecl "LoopCount" "pid.LoopCount" 0xf007c [DV];
  UDecl "DeviceGainReport" "pid.DeviceGainReport" 0xf007d [CL];
  UDecl "DeviceGain" "pid.DeviceGain" 0xf007e [DV];
  UDecl "PoolReport" "pid.PoolReport" 0xf007f [CL];
  UDecl "RAMPoolSize" "pid.RAMPoolSize" 0xf0080 [DV];
  UDecl "ROMPoolSize" "pid.ROMPoolSize" 0xf0081 [SV];
  UDecl "ROMEffectBlockCount" "pid.ROMEffectBlockCount" 0xf0082 [SV];
  UDecl "SimultaneousEffectsMax" "pid.SimultaneousEffectsMax" 0xf0083 [SV];
  UDecl "PoolAlignment" "pid.PoolAlignment" 0xf0084 [SV];
  UDecl "PoolMoveReport" "pid.PoolMoveReport" 0xf0085 [CL];
  UDecl "MoveSource" "pid.MoveSource" 0xf0086 [DV];
  UDecl "MoveDestination" "pid.MoveDestination" 0xf0087 [DV];
  UDecl "MoveLength" "pid.MoveLength" 0xf0088 [DV];
  UDecl "BlockLoadReport" "pid.BlockLoadReport" 0xf0089 [CL];
  UDecl "BlockLoadStatus" "pid.BlockLoadStatus" 0xf008b [NAry];
  UDecl "BlockLoadSuccess" "pid.BlockLoadSuccess" 0xf008c [Sel];
  UDecl "BlockLoadFull" "pid.BlockLoadFull" 0xf008d [Sel];
  UDecl "BlockLoadError" "pid.BlockLoadError" 0xf008e [Sel];
  UDecl "BlockHandle" "pid.BlockHandle" 0xf008f [DV];
  UDecl "BlockFreeReport" "pid.BlockFreeReport" 0xf0090 [CL];
  UDecl "TypeSpecificBlockHandle" "pid.TypeSpecificBlockHandle" 0xf0091 [DV];
  UDecl "StateReport" "pid.StateReport" 0xf0092 [CL];
  UDecl "EffectPlaying" "pid.EffectPlaying" 0xf0094 [DF];
  UDecl "DeviceControlReport" "pid.DeviceControlReport" 0xf0095 [CL];
  UDecl "DeviceControl" "pid.DeviceControl" 0xf0096 [NAry];
  UDecl "DCEnableActuators" "pid.DCEnableActuators" 0xf0097 [Sel];
  UDecl "DCDisableActuators" "pid.DCDisableActuators" 0xf0098 [Sel];
  UDecl "DCStopAllEffects" "pid.DCStopAllEffects" 0xf0099 [Sel];
  UDecl "DCDeviceReset" "pid.DCDeviceReset" 0xf009a [Sel];
  UDecl "DCDevicePause" "pid.DCDevicePause" 0xf009b [Sel];
  UDecl "DCDeviceContinue" "pid.DCDeviceContinue" 0xf009c [Sel];
  UDecl "DevicePaused" "pid.DevicePaused" 0xf009f [DF];
  UDecl "ActuatorsEnabled" "pid.ActuatorsEnabled" 0xf00a0 [DF];
  UDecl "SafetySwitch" "pid.SafetySwitch" 0xf00a4 [DF];
  UDecl "ActuatorOverrideSwitch" "pid.ActuatorOverrideSwitch" 0xf00a5 [DF];
  UDecl "ActuatorPower" "pid.ActuatorPower" 0xf00a6 [OOC];
  UDecl "StartDelay" "pid.StartDelay" 0xf00a7 [DV];
  UDecl "ParameterBlockSize" "pid.ParameterBlockSize" 0xf00a8 [CL];
  UDecl "DeviceManagedPool" "pid.DeviceManagedPool" 0xf00a9 [SF];
  UDecl "SharedParameterBlocks" "pid.SharedParameterBlocks" 0xf00aa [SF];
  UDecl "CreateNewEffectReport" "pid.CreateNewEffectReport" 0xf00ab [CL];
  UDecl "RAMPoolAvailable" "pid.RAMPoolAvailable" 0xf00ac [DV]
].

(* hrdc/usage/keyboard.py:3-221 *)
Definition t_keyboard : list udecl := [
  UDecl "NoEvent" "keyboard.NoEvent" 0x70000 [Sel];
  UDecl "Rollover" "keyboard.Rollover" 0x70001 [Sel];
  UDecl "Postfail" "keyboard.Postfail" 0x70002 [Sel];
  UDecl "Undefined" "keyboard.Undefined" 0x70003 [Sel];
  UDecl "A" "keyboard.A" 0x70004 [Sel];
  UDecl "B" "keyboard.B" 0x70005 [Sel];
  UDecl "C" "keyboard.C" 0x70006 [Sel];
  UDecl "D" "keyboard.D" 0x70007 [Sel];
  UDecl "E" "keyboard.E" 0x70008 [Sel];
  UDecl "F" "keyboard.F" 0x70009 [Sel];
  UDecl "G" "keyboard.G" 0x7000a [Sel];
  UDecl "H" "keyboard.H" 0x7000b [Sel];
  UDecl "I" "keyboard.I" 0x7000c [Sel];
  UDecl "J" "keyboard.J" 0x7000d [Sel];
  UDecl "K" "keyboard.K" 0x7000e [Sel];
  UDecl "L" "keyboard.L" 0x7000f [Sel];
  UDecl "M" "keyboard.M" 0x70010 [Sel];
  UDecl "N" "keyboard.N" 0x70011 [Sel];
  UDecl "O" "keyboard.O" 0x70012 [Sel];
  UDecl "P" "keyboard.P" 0x70013 [Sel];
  UDecl "Q" "keyboard.Q" 0x70014 [Sel];
  UDecl "R" "keyboard.R" 0x70015 [Sel];
  UDecl "S" "keyboard.S" 0x70016 [Sel];
  UDecl "T" "keyboard.T" 0x70017 [Sel];
  UDecl "U" "keyboard.U" 0x70018 [Sel];
  UDecl "V" "keyboard.V" 0x70019 [Sel];
  UDecl "W" "keyboard.W" 0x7001a [Sel];
  UDecl "X" "keyboard.X" 0x7001b [Sel];
  UDecl "Y" "keyboard.Y" 0x7001c [Sel];
  UDecl "Z" "keyboard.Z" 0x7001d [Sel];
  UDecl "OneAndExclam" "keyboard.OneAndExclam" 0x7001e [Sel];
  UDecl "TwoAndAt" "keyboard.TwoAndAt" 0x7001f [Sel];
  UDecl "ThreeAndNumber" "keyboard.ThreeAndNumber" 0x70020 [Sel];
  UDecl "FourAndDollar" "keyboard.FourAndDollar" 0x70021 [Sel];
  UDecl "FiveAndPercent" "keyboard.FiveAndPercent" 0x70022 [Sel];
  UDecl "SixAndCaret" "keyboard.SixAndCaret" 0x70023 [Sel];
  UDecl "SevenAndAmp" "keyboard.SevenAndAmp" 0x70024 [Sel];
  UDecl "EightAndStar" "keyboard.EightAndStar" 0x70025 [Sel];
  UDecl "NineAndLeftParen" "keyboard.NineAndLeftParen" 0x70026 [Sel];
  UDecl "ZeroAndRightParen" "keyboard.ZeroAndRightParen" 0x70027 [Sel];
  UDecl "ReturnEnter" "keyboard.ReturnEnter" 0x70028 [Sel];
  UDecl "Escape" "keyboard.Escape" 0x70029 [Sel];
  UDecl "DeleteBackspace" "keyboard.DeleteBackspace" 0x7002a [Sel];
  UDecl "Tab" "keyboard.Tab" 0x7002b [Sel];
  UDecl "Spacebar" "keyboard.Spacebar" 0x7002c [Sel];
  UDecl "MinusAndUnderscore" "keyboard.MinusAndUnderscore" 0x7002d [Sel];
  UDecl "EqualAndPlus" "keyboard.EqualAndPlus" 0x7002e [Sel];
  UDecl "LeftBoxAndLeftCurly" "keyboard.LeftBoxAndLeftCurly" 0x7002f [Sel];
  UDecl "RightBoxAndRightCurly" "keyboard.RightBoxAndRightCurly" 0x70030 [Sel];
  UDecl "BackslashAndPipe" "keyboard.BackslashAndPipe" 0x70031 [Sel];
  UDecl "NonUsNumberAndTilde" "keyboard.NonUsNumberAndTilde" 0x70032 [Sel];
  UDecl "SemicolonAndColon" "keyboard.SemicolonAndColon" 0x70033 [Sel];
  UDecl "QuotAndDoubleQuot" "keyboard.QuotAndDoubleQuot" 0x70034 [Sel];
  UDecl "GraveAccentAndTilde" "keyboard.GraveAccentAndTilde" 0x70035 [Sel];
  UDecl "CommaAndLt" "keyboard.CommaAndLt" 0x70036 [Sel];
  UDecl "PeriodAndGt" "keyboard.PeriodAndGt" 0x70037 [Sel];
  UDecl "SlashAndQuestion" "keyboard.SlashAndQuestion" 0x70038 [Sel];
  UDecl "CapsLock" "keyboard.CapsLock" 0x70039 [Sel];
  UDecl "F1" "keyboard.F1" 0x7003a [Sel];
  UDecl "F2" "keyboard.F2" 0x7003b [Sel];
  UDecl "F3" "keyboard.F3" 0x7003c [Sel];
  UDecl "F4" "keyboard.F4" 0x7003d [Sel];
  UDecl "F5" "keyboard.F5" 0x7003e [Sel];
  UDecl "F6" "keyboard.F6" 0x7003f [Sel];
  UDecl "F7" "keyboard.F7" 0x70040 [Sel];
  UDecl "F8" "keyboard.F8" 0x70041 [Sel];
  UDecl "F9" "keyboard.F9" 0x70042 [Sel];
  UDecl "F10" "keyboard.F10" 0x70043 [Sel];
  UDecl "F11" "keyboard.F11" 0x70044 [Sel];
  UDecl "F12" "keyboard.F12" 0x70045 [Sel];
  UDecl "PrintScreen" "keyboard.PrintScreen" 0x70046 [Sel];
  UDecl "ScrollLock" "keyboard.ScrollLock" 0x70047 [Sel];
  UDecl "Pause" "keyboard.Pause" 0x70048 [Sel];
  UDecl "Insert" "keyboard.Insert" 0x70049 [Sel];
  UDecl "Home" "keyboard.Home" 0x7004a [Sel];
  UDecl "Pageup" "keyboard.Pageup" 0x7004b [Sel];
  UDecl "DeleteForward" "keyboard.DeleteForward" 0x7004c [Sel];
  UDecl "End" "keyboard.End" 0x7004d [Sel];
  UDecl "Pagedown" "keyboard.Pagedown" 0x7004e [Sel];
  UDecl "Rightarrow" "keyboard.Rightarrow" 0x7004f [Sel];
  UDecl "Leftarrow" "keyboard.Leftarrow" 0x70050 [Sel];
  UDecl "Downarrow" "keyboard.Downarrow" 0x70051 [Sel];
  UDecl "Uparrow" "keyboard.Uparrow" 0x70052 [Sel];
  UDecl "KeypadNumLockAndClear" "keyboard.KeypadNumLockAndClear" 0x70053 [Sel];
  UDecl "KeypadSlash" "keyboard.KeypadSlash" 0x70054 [Sel];
  UDecl "KeypadStar" "keyboard.KeypadStar" 0x70055 [Sel];
  UDecl "KeypadMinus" "keyboard.KeypadMinus" 0x70056 [Sel];
  UDecl "KeypadPlus" "keyboard.KeypadPlus" 0x70057 [Sel];
  UDecl "KeypadEnter" "keyboard.KeypadEnter" 0x70058 [Sel];
  UDecl "Keypad1AndEnd" "keyboard.Keypad1AndEnd" 0x70059 [Sel];
  UDecl "Keypad2AndDownArrow" "keyboard.Keypad2AndDownArrow" 0x7005a [Sel];
  UDecl "Keypad3AndPagedn" "keyboard.Keypad3AndPagedn" 0x7005b [Sel];
  UDecl "Keypad4AndLeftArrow" "keyboard.Keypad4AndLeftArrow" 0x7005c [Sel];
  UDecl "Keypad5" "keyboard.Keypad5" 0x7005d [Sel];
  UDecl "Keypad6AndRightArrow" "keyboard.Keypad6AndRightArrow" 0x7005e [Sel];
  UDecl "Keypad7AndHome" "keyboard.Keypad7AndHome" 0x7005f [Sel];
  UDecl "Keypad8AndUpArrow" "keyboard.Keypad8AndUpArrow" 0x70060 [Sel];
  UDecl "Keypad9AndPageup" "keyboard.Keypad9AndPageup" 0x70061 [Sel];
  UDecl "Keypad0AndInsert" "keyboard.Keypad0AndInsert" 0x70062 [Sel];
  UDecl "KeypadPointAndDelete" "keyboard.KeypadPointAndDelete" 0x70063 [Sel];
  UDecl "NonUsBackslashAndPipe" "keyboard.NonUsBackslashAndPipe" 0x70064 [Sel];
  UDecl "Application" "keyboard.Application" 0x70065 [Sel];
  UDecl "Power" "keyboard.Power" 0x70066 [Sel];
  UDecl "KeypadEqual" "keyboard.KeypadEqual" 0x70067 [Sel];
  UDecl "F13" "keyboard.F13" 0x70068 [Sel];
  UDecl "F14" "keyboard.F14" 0x70069 [Sel];
  UDecl "F15" "keyboard.F15" 0x7006a [Sel];
  UDecl "F16" "keyboard.F16" 0x7006b [Sel];
  UDecl "F17" "keyboard.F17" 0x7006c [Sel];
  UDecl "F18" "keyboard.F18" 0x7006d [Sel];
  UDecl "F19" "keyboard.F19" 0x7006e [Sel];
  UDecl "F20" "keyboard.F20" 0x7006f [Sel];
  UDecl "F21" "keyboard.F21" 0x70070 [Sel];
  UDecl "F22" "keyboard.F22" 0x70071 [Sel];
  UDecl "F23" "keyboard.F23" 0x70072 [Sel];
  UDecl "F24" "keyboard.F24" 0x70073 [Sel];
  UDecl "Execute" "keyboard.Execute" 0x70074 [Sel];
  UDecl "Help" "keyboard.Help" 0x70075 [Sel];
  UDecl "Menu" "keyboard.Menu" 0x70076 [Sel];
  UDecl "Select" "keyboard.Select" 0x70077 [Sel];
  UDecl "Stop" "keyboard.Stop" 0x70078 [Sel];
  UDecl "Again" "keyboard.Again" 0x70079 [Sel];
  UDecl "Undo" "keyboard.Undo" 0x7007a [Sel];
  UDecl "Cut" "keyboard.Cut" 0x7007b [Sel];
  UDecl "Copy" "keyboard.Copy" 0x7007c [Sel];
  UDecl "Paste" "keyboard.Paste" 0x7007d [Sel];
  UDecl "Find" "keyboard.Find" 0x7007e [Sel];
  UDecl "Mute" "keyboard.Mute" 0x7007f [Sel];
  UDecl "VolumeUp" "keyboard.VolumeUp" 0x70080 [Sel];
  UDecl "VolumeDown" "keyboard.VolumeDown" 0x70081 [Sel];
  UDecl "LockingCapsLock" "keyboard.LockingCapsLock" 0x70082 [Sel];
  UDecl "LockingNumLock" "keyboard.LockingNumLock" 0x70083 [Sel];
  UDecl "LockingScrollLock" "keyboard.LockingScrollLock" 0x70084 [Sel];
  UDecl "KeypadComma" "keyboard.KeypadComma" 0x70085 [Sel];
  UDecl "KeypadEqualAs400" "keyboard.KeypadEqualAs400" 0x70086 [Sel];
  UDecl "International1" "keyboard.International1" 0x70087 [Sel];
  UDecl "International2" "keyboard.International2" 0x70088 [Sel];
  UDecl "International3" "keyboard.International3" 0x70089 [Sel];
  UDecl "International4" "keyboard.International4" 0x7008a [Sel];
  UDecl "International5" "keyboard.International5" 0x7008b [Sel];
  UDecl "International6" "keyboard.International6" 0x7008c [Sel];
  UDecl "International7" "keyboard.International7" 0x7008d [Sel];
  UDecl "International8" "keyboard.International8" 0x7008e [Sel];
  UDecl "International9" "keyboard.International9" 0x7008f [Sel];
  UDecl "Lang1" "keyboard.Lang1" 0x70090 [Sel];
  UDecl "Lang2" "keyboard.Lang2" 0x70091 [Sel];
  UDecl "Lang3" "keyboard.Lang3" 0x70092 [Sel];
  UDecl "Lang4" "keyboard.Lang4" 0x70093 [Sel];
  UDecl "Lang5" "keyboard.Lang5" 0x70094 [Sel];
  UDecl "Lang6" "keyboard.Lang6" 0x70095 [Sel];
  UDecl "Lang7" "keyboard.Lang7" 0x70096 [Sel];
  UDecl "Lang8" "keyboard.Lang8" 0x70097 [Sel];
  UDecl "Lang9" "keyboard.Lang9" 0x70098 [Sel];
  UDecl "AlternateErase" "keyboard.AlternateErase" 0x70099 [Sel];
  UDecl "SysreqAttn" "keyboard.SysreqAttn" 0x7009a [Sel];
  UDecl "Cancel" "keyboard.Cancel" 0x7009b [Sel];
  UDecl "Clear" "keyboard.Clear" 0x7009c [Sel];
  UDecl "Prior" "keyboard.Prior" 0x7009d [Sel];
  UDecl "Return" "keyboard.Return" 0x7009e [Sel];
  UDecl "Separator" "keyboard.Separator" 0x7009f [Sel];
  UDecl "Out" "keyboard.Out" 0x700a0 [Sel];
  UDecl "Oper" "keyboard.Oper" 0x700a1 [Sel];
  UDecl "ClearAgain" "keyboard.ClearAgain" 0x700a2 [Sel];
  UDecl "CrselProps" "keyboard.CrselProps" 0x700a3 [Sel];
  UDecl "Exsel" "keyboard.Exsel" 0x700a4 [Sel];
  UDecl "Keypad00" "keyboard.Keypad00" 0x700b0 [Sel];
  UDecl "Keypad000" "keyboard.Keypad000" 0x700b1 [Sel];
  UDecl "ThousandsSeparator" "keyboard.ThousandsSeparator" 0x700b2 [Sel];
  UDecl "DecimalSeparator" "keyboard.DecimalSeparator" 0x700b3 [Sel];
  UDecl "CurrencyUnit" "keyboard.CurrencyUnit" 0x700b4 [Sel];
  UDecl "CurrencySubMinusUnit" "keyboard.CurrencySubMinusUnit" 0x700b5 [Sel];
  UDecl "KeypadLeftParen" "keyboard.KeypadLeftParen" 0x700b6 [Sel];
  UDecl "KeypadRightParen" "keyboard.KeypadRightParen" 0x700b7 [Sel];
  UDecl "KeypadLeftCurly" "keyboard.KeypadLeftCurly" 0x700b8 [Sel];
  UDecl "KeypadRightCurly" "keyboard.KeypadRightCurly" 0x700b9 [Sel];
  UDecl "KeypadTab" "keyboard.KeypadTab" 0x700ba [Sel];
  UDecl "KeypadBackspace" "keyboard.KeypadBackspace" 0x700bb [Sel];
  UDecl "KeypadA" "keyboard.KeypadA" 0x700bc [Sel];
  UDecl "KeypadB" "keyboard.KeypadB" 0x700bd [Sel];
  UDecl "KeypadC" "keyboard.KeypadC" 0x700be [Sel];
  UDecl "KeypadD" "keyboard.KeypadD" 0x700bf [Sel];
  UDecl "KeypadE" "keyboard.KeypadE" 0x700c0 [Sel];
  UDecl "KeypadF" "keyboard.KeypadF" 0x700c1 [Sel];
  UDecl "KeypadXor" "keyboard.KeypadXor" 0x700c2 [Sel];
  UDecl "KeypadCaret" "keyboard.KeypadCaret" 0x700c3 [Sel];
  UDecl "KeypadPercent" "keyboard.KeypadPercent" 0x700c4 [Sel];
  UDecl "KeypadLt" "keyboard.KeypadLt" 0x700c5 [Sel];
  UDecl "KeypadGt" "keyboard.KeypadGt" 0x700c6 [Sel];
  UDecl "KeypadAmp" "keyboard.KeypadAmp" 0x700c7 [Sel];
  UDecl "KeypadAmpAmp" "keyboard.KeypadAmpAmp" 0x700c8 [Sel];
  UDecl "KeypadPipe" "keyboard.KeypadPipe" 0x700c9 [Sel];
  UDecl "KeypadPipePipe" "keyboard.KeypadPipePipe" 0x700ca [Sel];
  UDecl "KeypadColon" "keyboard.KeypadColon" 0x700cb [Sel];
  UDecl "KeypadNumber" "keyboard.KeypadNumber" 0x700cc [Sel];
  UDecl "KeypadSpace" "keyboard.KeypadSpace" 0x700cd [Sel];
  UDecl "KeypadAt" "keyboard.KeypadAt" 0x700ce [Sel];
  UDecl "KeypadExclam" "keyboard.KeypadExclam" 0x700cf [Sel];
  UDecl "KeypadMemoryStore" "keyboard.KeypadMemoryStore" 0x700d0 [Sel];
  UDecl "KeypadMemoryRecall" "keyboard.KeypadMemoryRecall" 0x700d1 [Sel];
  UDecl "KeypadMemoryClear" "keyboard.KeypadMemoryClear" 0x700d2 [Sel];
  UDecl "KeypadMemoryAdd" "keyboard.KeypadMemoryAdd" 0x700d3 [Sel];
  UDecl "KeypadMemorySubtract" "keyboard.KeypadMemorySubtract" 0x700d4 [Sel];
  UDecl "KeypadMemoryMultiply" "keyboard.KeypadMemoryMultiply" 0x700d5 [Sel];
  UDecl "KeypadMemoryDivide" "keyboard.KeypadMemoryDivide" 0x700d6 [Sel];
  UDecl "KeypadPlusMinus" "keyboard.KeypadPlusMinus" 0x700d7 [Sel];
  UDecl "KeypadClear" "keyboard.KeypadClear" 0x700d8 [Sel];
  UDecl "KeypadClearEntry" "keyboard.KeypadClearEntry" 0x700d9 [Sel];
  UDecl "KeypadBinary" "keyboard.KeypadBinary" 0x700da [Sel];
  UDecl "KeypadOctal" "keyboard.KeypadOctal" 0x700db [Sel];
  UDecl "KeypadDecimal" "keyboard.KeypadDecimal" 0x700dc [Sel];
  UDecl "KeypadHexadecimal" "keyboard.KeypadHexadecimal" 0x700dd [Sel];
  UDecl "LeftControl" "keyboard.LeftControl" 0x700e0 [DV];
  UDecl "LeftShift" "keyboard.LeftShift" 0x700e1 [DV];
  UDecl "LeftAlt" "keyboard.LeftAlt" 0x700e2 [DV];
  UDecl "LeftGui" "keyboard.LeftGui" 0x700e3 [DV];
  UDecl "RightControl" "keyboard.RightControl" 0x700e4 [DV];
  UDecl "RightShift" "keyboard.RightShift" 0x700e5 [DV];
  UDecl "RightAlt" "keyboard.RightAlt" 0x700e6 [DV];
  UDecl "RightGui" "keyboard.RightGui" 0x700e7 [DV]
].

(* hrdc/usage/desktop.py:3-88 *)
Definition t_desktop : list udecl := [
  UDecl "Pointer" "desktop.Pointer" 0x10001 [CP];
  UDecl "Mouse" "desktop.Mouse" 0x10002 [CA];
  UDecl "Joystick" "desktop.Joystick" 0x10004 [CA];
  UDecl "Gamepad" "desktop.Gamepad" 0x10005 [CA];
  UDecl "Keyboard" "desktop.Keyboard" 0x10006 [CA];
  UDecl "Keypad" "desktop.Keypad" 0x10007 [CA];
  UDecl "MultiAxisCtrl" "desktop.MultiAxisCtrl" 0x10008 [CA];
  UDecl "TabletPCSystem" "desktop.TabletPcSystem" 0x10009 [CA];
  UDecl "PortableDeviceControl" "desktop.PortableDeviceControl" 0x1000d [CA];
  UDecl "X" "desktop.X" 0x10030 [DV];
  UDecl "Y" "desktop.Y" 0x10031 [DV];
  UDecl "Z" "desktop.Z" 0x10032 [DV];
  UDecl "Rx" "desktop.Rx" 0x10033 [DV];
  UDecl "Ry" "desktop.Ry" 0x10034 [DV];
  UDecl "Rz" "desktop.Rz" 0x10035 [DV];
  UDecl "Slider" "desktop.Slider" 0x10036 [DV];
  UDecl "Dial" "desktop.Dial" 0x10037 [DV];
  UDecl "Wheel" "desktop.Wheel" 0x10038 [DV];
  UDecl "HatSwitch" "desktop.HatSwitch" 0x10039 [DV];
  UDecl "CountedBuffer" "desktop.CountedBuffer" 0x1003a [CL];
  UDecl "ByteCount" "desktop.ByteCount" 0x1003b [DV];
  UDecl "MotionWakeup" "desktop.MotionWakeup" 0x1003c [OSC];
  UDecl "Start" "desktop.start" 0x1003d [OOC];
  UDecl "Select" "desktop.select" 0x1003e [OOC];
  UDecl "Vx" "desktop.Vx" 0x10040 [DV];
  UDecl "Vy" "desktop.Vy" 0x10041 [DV];
  UDecl "Vz" "desktop.Vz" 0x10042 [DV];
  UDecl "Vbrx" "desktop.Vbrx" 0x10043 [DV];
  UDecl "Vbry" "desktop.Vbry" 0x10044 [DV];
  UDecl "Vbrz" "desktop.Vbrz" 0x10045 [DV];
  UDecl "Vno" "desktop.Vno" 0x10046 [DV];
  UDecl "FeatureNotification" "desktop.FeatureNotification" 0x10047 [DV];
  UDecl "ResolutionMultiplier" "desktop.ResolutionMultiplier" 0x10048 [DV];
  UDecl "SysControl" "desktop.SysControl" 0x10080 [CA];
  UDecl "SysPowerDown" "desktop.SysPowerDown" 0x10081 [OSC];
  UDecl "SysSleep" "desktop.SysSleep" 0x10082 [OSC];
  UDecl "SysWakeUp" "desktop.SysWakeUp" 0x10083 [OSC];
  UDecl "SysContextMenu" "desktop.SysContextMenu" 0x10084 [OSC];
  UDecl "SysMainMenu" "desktop.SysMainMenu" 0x10085 [OSC];
  UDecl "SysAppMenu" "desktop.SysAppMenu" 0x10086 [OSC];
  UDecl "SysMenuHelp" "desktop.SysMenuHelp" 0x10087 [OSC];
  UDecl "SysMenuExit" "desktop.SysMenuExit" 0x10088 [OSC];
  UDecl "SysMenuSelect" "desktop.SysMenuSelect" 0x10089 [OSC];
  UDecl "SysMenuRight" "desktop.SysMenuRight" 0x1008a [RTC];
  UDecl "SysMenuLeft" "desktop.SysMenuLeft" 0x1008b [RTC];
  UDecl "SysMenuUp" "desktop.SysMenuUp" 0x1008c [RTC];
  UDecl "SysMenuDown" "desktop.SysMenuDown" 0x1008d [RTC];
  UDecl "SysColdRestart" "desktop.SysColdRestart" 0x1008e [OSC];
  UDecl "SysWarmRestart" "desktop.SysWarmRestart" 0x1008f [OSC];
  UDecl "DPadUp" "desktop.DPadUp" 0x10090 [OOC];
  UDecl "DPadDown" "desktop.DPadDown" 0x10091 [OOC];
  UDecl "DPadRight" "desktop.DPadRight" 0x10092 [OOC];
  UDecl "DPadLeft" "desktop.DPadLeft" 0x10093 [OOC];
  UDecl "SysDock" "desktop.SysDock" 0x100a0 [OSC];
  UDecl "SysUndock" "desktop.SysUndock" 0x100a1 [OSC];
  UDecl "SysSetup" "desktop.SysSetup" 0x100a2 [OSC];
  UDecl "SysBreak" "desktop.SysBreak" 0x100a3 [OSC];
  UDecl "SysDbgrBreak" "desktop.SysDbgrBreak" 0x100a4 [OSC];
  UDecl "AppBreak" "desktop.AppBreak" 0x100a5 [OSC];
  UDecl "AppDbgrBreak" "desktop.AppDbgrBreak" 0x100a6 [OSC];
  UDecl "SysSpeakerMute" "desktop.SysSpeakerMute" 0x100a7 [OSC];
  UDecl "SysHibernate" "desktop.SysHibernate" 0x100a8 [OSC];
  UDecl "SysDsplInvert" "desktop.SysDsplInvert" 0x100b0 [OSC];
  UDecl "SysDsplInternal" "desktop.SysDsplInternal" 0x100b1 [OSC];
  UDecl "SysDsplExternal" "desktop.SysDsplExternal" 0x100b2 [OSC];
  UDecl "SysDsplBoth" "desktop.SysDsplBoth" 0x100b3 [OSC];
  UDecl "SysDsplDual" "desktop.SysDsplDual" 0x100b4 [OSC];
  UDecl "SysDsplToggleIntExt" "desktop.SysDsplToggleIntExt" 0x100b5 [OSC];
  UDecl "SysDsplSwap12" "desktop.SysDsplSwap12" 0x100b6 [OSC];
  UDecl "SysDsplLcdAutoscale" "desktop.SysDsplLcdAutoscale" 0x100b7 [OSC];
  UDecl "WirelessRadioControls" "desktop.WirelessRadioControls" 0x1000c [CA];
  UDecl "WirelessRadioButton" "desktop.WirelessRadioButton" 0x100c6 [OOC];
  UDecl "WirelessRadioLed" "desktop.WirelessRadioLed" 0x100c7 [OOC];
  UDecl "WirelessRadioSliderSwitch" "desktop.WirelessRadioSliderSwitch" 0x100c8 [OOC];
  UDecl "SystemDisplayRotationLockButton" "desktop.SystemDisplayRotationLockButton" 0x1000c9 [OOC];
  UDecl "SystemDisplayRotationLockSliderSwitch" "desktop.SystemDisplayRotationLockSliderSwitch" 0x100ca [OOC];
  UDecl "ControlEnable" "desktop.ControlEnable" 0x100cb [DF]
].

(* hrdc/usage/telephony.py:3-66 *)
Definition t_telephony : list udecl := [
  UDecl "Phone" "telephony.Phone" 0x0b0001 [CA];
  UDecl "AnsweringMachine" "telephony.AnsweringMachine" 0x0b0002 [CA];
  UDecl "MessageControls" "telephony.MessageControls" 0x0b0003 [CL];
  UDecl "Handset" "telephony.Handset" 0x0b0004 [CL];
  UDecl "Headset" "telephony.Headset" 0x0b0005 [CL];
  UDecl "TelephonyKeyPad" "telephony.TelephonyKeyPad" 0x0b0006 [NAry];
  UDecl "ProgrammableButton" "telephony.ProgrammableButton" 0x0b0007 [NAry];
  UDecl "HookSwitch" "telephony.HookSwitch" 0x0b0020 [OOC];
  UDecl "Flash" "telephony.Flash" 0x0b0021 [MC];
  UDecl "Feature" "telephony.Feature" 0x0b0022 [OSC];
  UDecl "Hold" "telephony.Hold" 0x0b0023 [OOC];
  UDecl "Redial" "telephony.Redial" 0x0b0024 [OSC];
  UDecl "Transfer" "telephony.Transfer" 0x0b0025 [OSC];
  UDecl "Drop" "telephony.Drop" 0x0b0026 [OSC];
  UDecl "Park" "telephony.Park" 0x0b0027 [OOC];
  UDecl "ForwardCalls" "telephony.ForwardCalls" 0x0b0028 [OOC];
  UDecl "AlternateFunction" "telephony.AlternateFunction" 0x0b0029 [MC];
  UDecl "Line" "telephony.Line" 0x0b002a [OSC];
  UDecl "SpeakerPhone" "telephony.SpeakerPhone" 0x0b002b [OOC];
  UDecl "Conference" "telephony.Conference" 0x0b002c [OOC];
  UDecl "RingEnable" "telephony.RingEnable" 0x0b002d [OOC];
  UDecl "RingSelect" "telephony.RingSelect" 0x0b002e [OSC];
  UDecl "PhoneMute" "telephony.PhoneMute" 0x0b002f [OOC];
  UDecl "CallerID" "telephony.CallerID" 0x0b0030 [MC];
  UDecl "SpeedDial" "telephony.SpeedDial" 0x0b0050 [OSC];
  UDecl "StoreNumber" "telephony.StoreNumber" 0x0b0051 [OSC];
  UDecl "RecallNumber" "telephony.RecallNumber" 0x0b0052 [OSC];
  UDecl "PhoneDirectory" "telephony.PhoneDirectory" 0x0b0053 [OOC];
  UDecl "VoiceMail" "telephony.VoiceMail" 0x0b0070 [OOC];
  UDecl "ScreenCalls" "telephony.ScreenCalls" 0x0b0071 [OOC];
  UDecl "DoNotDisturb" "telephony.DoNotDisturb" 0x0b0072 [OOC];
  UDecl "Message" "telephony.Message" 0x0b0073 [OSC];
  UDecl "AnswerOnOff" "telephony.AnswerOnOff" 0x0b0074 [OOC];
  UDecl "InsideDialTone" "telephony.InsideDialTone" 0x0b0090 [MC];
  UDecl "OutsideDialTone" "telephony.OutsideDialTone" 0x0b0091 [MC];
  UDecl "InsideRingTone" "telephony.InsideRingTone" 0x0b0092 [MC];
  UDecl "OutsideRingTone" "telephony.OutsideRingTone" 0x0b0093 [MC];
  UDecl "PriorityRingTone" "telephony.PriorityRingTone" 0x0b0094 [MC];
  UDecl "InsideRingback" "telephony.InsideRingback" 0x0b0095 [MC];
  UDecl "PriorityRingback" "telephony.PriorityRingback" 0x0b0096 [MC];
  UDecl "LineBusyTone" "telephony.LineBusyTone" 0x0b0097 [MC];
  UDecl "ReorderTone" "telephony.ReorderTone" 0x0b0098 [MC];
  UDecl "CallWaitingTone" "telephony.CallWaitingTone" 0x0b0099 [MC];
  UDecl "ConfirmationTone1" "telephony.ConfirmationTone1" 0x0b009a [MC];
  UDecl "ConfirmationTone2" "telephony.ConfirmationTone2" 0x0b009b [MC];
  UDecl "TonesOff" "telephony.TonesOff" 0x0b009c [OOC];
  UDecl "OutsideRingback" "telephony.OutsideRingback" 0x0b009d [MC];
  UDecl "Ringer" "telephony.Ringer" 0x0b009e [OOC];
  UDecl "PhoneKey0" "telephony.PhoneKey0" 0x0b00b0 [Sel];
  UDecl "PhoneKey1" "telephony.PhoneKey1" 0x0b00b1 [Sel];
  UDecl "PhoneKey2" "telephony.PhoneKey2" 0x0b00b2 [Sel];
  UDecl "PhoneKey3" "telephony.PhoneKey3" 0x0b00b3 [Sel];
  UDecl "PhoneKey4" "telephony.PhoneKey4" 0x0b00b4 [Sel];
  UDecl "PhoneKey5" "telephony.PhoneKey5" 0x0b00b5 [Sel];
  UDecl "PhoneKey6" "telephony.PhoneKey6" 0x0b00b6 [Sel];
  UDecl "PhoneKey7" "telephony.PhoneKey7" 0x0b00b7 [Sel];
  UDecl "PhoneKey8" "telephony.PhoneKey8" 0x0b00b8 [Sel];
  UDecl "PhoneKey9" "telephony.PhoneKey9" 0x0b00b9 [Sel];
  UDecl "PhoneKeyStar" "telephony.PhoneKeyStar" 0x0b00ba [Sel];
  UDecl "PhoneKeyPound" "telephony.PhoneKeyPound" 0x0b00bb [Sel];
  UDecl "PhoneKeyA" "telephony.PhoneKeyA" 0x0b00bc [Sel];
  UDecl "PhoneKeyB" "telephony.PhoneKeyB" 0x0b00bd [Sel];
  UDecl "PhoneKeyC" "telephony.PhoneKeyC" 0x0b00be [Sel];
  UDecl "PhoneKeyD" "telephony.PhoneKeyD" 0x0b00bf [Sel]
].

(* hrdc/usage/consumer.py:3-411 *)
Definition t_consumer : list udecl := [
  UDecl "ConsumerControl" "consumer.ConsumerControl" 0xc0001 [CA];
  UDecl "NumericKeyPad" "consumer.NumericKeyPad" 0xc0002 [NAry];
  UDecl "ProgrammableButtons" "consumer.ProgrammableButtons" 0xc0003 [NAry];
  UDecl "Microphone" "consumer.Microphone" 0xc0004 [CA];
  UDecl "Headphone" "consumer.Headphone" 0xc0005 [CA];
  UDecl "GraphicEqualizer" "consumer.GraphicEqualizer" 0xc0006 [CA];
  UDecl "Plus10" "consumer.Plus10" 0xc0020 [OSC];
  UDecl "Plus100" "consumer.Plus100" 0xc0021 [OSC];
  UDecl "AmPm" "consumer.AmPm" 0xc0022 [OSC];
  UDecl "Power" "consumer.Power" 0xc0030 [OOC];
  UDecl "Reset" "consumer.Reset" 0xc0031 [OSC];
  UDecl "Sleep" "consumer.Sleep" 0xc0032 [OSC];
  UDecl "SleepAfter" "consumer.SleepAfter" 0xc0033 [OSC];
  UDecl "SleepMode" "consumer.SleepMode" 0xc0034 [RTC];
  UDecl "Illumination" "consumer.Illumination" 0xc0035 [OOC];
  UDecl "FunctionButtons" "consumer.FunctionButtons" 0xc0036 [NAry];
  UDecl "Menu" "consumer.Menu" 0xc0040 [OOC];
  UDecl "MenuPick" "consumer.MenuPick" 0xc0041 [OSC];
  UDecl "MenuUp" "consumer.MenuUp" 0xc0042 [OSC];
  UDecl "MenuDown" "consumer.MenuDown" 0xc0043 [OSC];
  UDecl "MenuLeft" "consumer.MenuLeft" 0xc0044 [OSC];
  UDecl "MenuRight" "consumer.MenuRight" 0xc0045 [OSC];
  UDecl "MenuEscape" "consumer.MenuEscape" 0xc0046 [OSC];
  UDecl "MenuValueIncrease" "consumer.MenuValueIncrease" 0xc0047 [OSC];
  UDecl "MenuValueDecrease" "consumer.MenuValueDecrease" 0xc0048 [OSC];
  UDecl "DataOnScreen" "consumer.DataOnScreen" 0xc0060 [OOC];
  UDecl "ClosedCaption" "consumer.ClosedCaption" 0xc0061 [OOC];
  UDecl "ClosedCaptionSelect" "consumer.ClosedCaptionSelect" 0xc0062 [OSC];
  UDecl "VcrTv" "consumer.VcrTv" 0xc0063 [OOC];
  UDecl "BroadcastMode" "consumer.BroadcastMode" 0xc0064 [OSC];
  UDecl "Snapshot" "consumer.Snapshot" 0xc0065 [OSC];
  UDecl "Still" "consumer.Still" 0xc0066 [OSC];
  UDecl "PipToggle" "consumer.PipToggle" 0xc0067 [OSC];
  UDecl "PipSwap" "consumer.PipSwap" 0xc0068 [OSC];
  UDecl "Red" "consumer.Red" 0xc0069 [MC];
  UDecl "Green" "consumer.Green" 0xc006a [MC];
  UDecl "Blue" "consumer.Blue" 0xc006b [MC];
  UDecl "Yellow" "consumer.Yellow" 0xc006c [MC];
  UDecl "Aspect" "consumer.Aspect" 0xc006d [OSC];
  UDecl "ThreeDMode" "consumer.ThreeDMode" 0xc006e [OSC];
  UDecl "DisplayBrightnessIncrement" "consumer.DisplayBrightnessIncrement" 0xc006f [RTC];
  UDecl "DisplayBrightnessDecrement" "consumer.DisplayBrightnessDecrement" 0xc0070 [RTC];
  UDecl "DisplayBrightness" "consumer.DisplayBrightness" 0xc0071 [LC];
  UDecl "DisplayBacklightToggle" "consumer.DisplayBacklightToggle" 0xc0072 [OOC];
  UDecl "DisplaySetBrightnesstoMinimum" "consumer.DisplaySetBrightnesstoMinimum" 0xc0073 [OSC];
  UDecl "DisplaySetBrightnesstoMaximum" "consumer.DisplaySetBrightnesstoMaximum" 0xc0074 [OSC];
  UDecl "DisplaySetAutoBrightness" "consumer.DisplaySetAutoBrightness" 0xc0075 [OOC];
  UDecl "Selection" "consumer.Selection" 0xc0080 [NAry];
  UDecl "AssignSelection" "consumer.AssignSelection" 0xc0081 [OSC];
  UDecl "ModeStep" "consumer.ModeStep" 0xc0082 [OSC];
  UDecl "RecallLast" "consumer.RecallLast" 0xc0083 [OSC];
  UDecl "EnterChannel" "consumer.EnterChannel" 0xc0084 [OSC];
  UDecl "OrderMovie" "consumer.OrderMovie" 0xc0085 [OSC];
  UDecl "Channel" "consumer.Channel" 0xc0086 [LC];
  UDecl "MediaSelection" "consumer.MediaSelection" 0xc0087 [NAry];
  UDecl "MediaSelectComputer" "consumer.MediaSelectComputer" 0xc0088 [Sel];
  UDecl "MediaSelectTv" "consumer.MediaSelectTv" 0xc0089 [Sel];
  UDecl "MediaSelectWww" "consumer.MediaSelectWww" 0xc008a [Sel];
  UDecl "MediaSelectDvd" "consumer.MediaSelectDvd" 0xc008b [Sel];
  UDecl "MediaSelectTelephone" "consumer.MediaSelectTelephone" 0xc008c [Sel];
  UDecl "MediaSelectProgramGuide" "consumer.MediaSelectProgramGuide" 0xc008d [Sel];
  UDecl "MediaSelectVideoPhone" "consumer.MediaSelectVideoPhone" 0xc008e [Sel];
  UDecl "MediaSelectGames" "consumer.MediaSelectGames" 0xc008f [Sel];
  UDecl "MediaSelectMessages" "consumer.MediaSelectMessages" 0xc0090 [Sel];
  UDecl "MediaSelectCd" "consumer.MediaSelectCd" 0xc0091 [Sel];
  UDecl "MediaSelectVcr" "consumer.MediaSelectVcr" 0xc0092 [Sel];
  UDecl "MediaSelectTuner" "consumer.MediaSelectTuner" 0xc0093 [Sel];
  UDecl "Quit" "consumer.Quit" 0xc0094 [OSC];
  UDecl "Help" "consumer.Help" 0xc0095 [OOC];
  UDecl "MediaSelectTape" "consumer.MediaSelectTape" 0xc0096 [Sel];
  UDecl "MediaSelectCable" "consumer.MediaSelectCable" 0xc0097 [Sel];
  UDecl "MediaSelectSatellite" "consumer.MediaSelectSatellite" 0xc0098 [Sel];
  UDecl "MediaSelectSecurity" "consumer.MediaSelectSecurity" 0xc0099 [Sel];
  UDecl "MediaSelectHome" "consumer.MediaSelectHome" 0xc009a [Sel];
  UDecl "MediaSelectCall" "consumer.MediaSelectCall" 0xc009b [Sel];
  UDecl "ChannelIncrement" "consumer.ChannelIncrement" 0xc009c [OSC];
  UDecl "ChannelDecrement" "consumer.ChannelDecrement" 0xc009d [OSC];
  UDecl "MediaSelectSap" "consumer.MediaSelectSap" 0xc009e [Sel];
  UDecl "VcrPlus" "consumer.VcrPlus" 0xc00a0 [OSC];
  UDecl "Once" "consumer.Once" 0xc00a1 [OSC];
  UDecl "Daily" "consumer.Daily" 0xc00a2 [OSC];
  UDecl "Weekly" "consumer.Weekly" 0xc00a3 [OSC];
  UDecl "Monthly" "consumer.Monthly" 0xc00a4 [OSC];
  UDecl "Play" "consumer.Play" 0xc00b0 [OOC];
  UDecl "Pause" "consumer.Pause" 0xc00b1 [OOC];
  UDecl "Record" "consumer.Record" 0xc00b2 [OOC];
  UDecl "FastForward" "consumer.FastForward" 0xc00b3 [OOC];
  UDecl "Rewind" "consumer.Rewind" 0xc00b4 [OOC];
  UDecl "ScanNextTrack" "consumer.ScanNextTrack" 0xc00b5 [OSC];
  UDecl "ScanPreviousTrack" "consumer.ScanPreviousTrack" 0xc00b6 [OSC];
  UDecl "Stop" "consumer.Stop" 0xc00b7 [OSC];
  UDecl "Eject" "consumer.Eject" 0xc00b8 [OSC];
  UDecl "RandomPlay" "consumer.RandomPlay" 0xc00b9 [OOC];
  UDecl "SelectDisc" "consumer.SelectDisc" 0xc00ba [NAry];
  UDecl "EnterDisc" "consumer.EnterDisc" 0xc00bb [MC];
  UDecl "Repeat" "consumer.Repeat" 0xc00bc [OSC];
  UDecl "Tracking" "consumer.Tracking" 0xc00bd [LC];
  UDecl "TrackNormal" "consumer.TrackNormal" 0xc00be [OSC];
  UDecl "SlowTracking" "consumer.SlowTracking" 0xc00bf [LC];
  UDecl "FrameForward" "consumer.FrameForward" 0xc00c0 [RTC];
  UDecl "FrameBack" "consumer.FrameBack" 0xc00c1 [RTC];
  UDecl "Mark" "consumer.Mark" 0xc00c2 [OSC];
  UDecl "ClearMark" "consumer.ClearMark" 0xc00c3 [OSC];
  UDecl "RepeatFromMark" "consumer.RepeatFromMark" 0xc00c4 [OOC];
  UDecl "ReturnToMark" "consumer.ReturnToMark" 0xc00c5 [OSC];
  UDecl "SearchMarkForward" "consumer.SearchMarkForward" 0xc00c6 [OSC];
  UDecl "SearchMarkBackwards" "consumer.SearchMarkBackwards" 0xc00c7 [OSC];
  UDecl "CounterReset" "consumer.CounterReset" 0xc00c8 [OSC];
  UDecl "ShowCounter" "consumer.ShowCounter" 0xc00c9 [OSC];
  UDecl "TrackingIncrement" "consumer.TrackingIncrement" 0xc00ca [RTC];
  UDecl "TrackingDecrement" "consumer.TrackingDecrement" 0xc00cb [RTC];
  UDecl "StopEject" "consumer.StopEject" 0xc00cc [OSC];
  UDecl "PlayPause" "consumer.PlayPause" 0xc00cd [OSC];
  UDecl "PlaySkip" "consumer.PlaySkip" 0xc00ce [OSC];
  UDecl "VoiceCommand" "consumer.VoiceCommand" 0xc00cf [OSC];
  UDecl "Volume" "consumer.Volume" 0xc00e0 [LC];
  UDecl "Balance" "consumer.Balance" 0xc00e1 [LC];
  UDecl "Mute" "consumer.Mute" 0xc00e2 [OOC];
  UDecl "Bass" "consumer.Bass" 0xc00e3 [LC];
  UDecl "Treble" "consumer.Treble" 0xc00e4 [LC];
  UDecl "BassBoost" "consumer.BassBoost" 0xc00e5 [OOC];
  UDecl "SurroundMode" "consumer.SurroundMode" 0xc00e6 [OSC];
  UDecl "Loudness" "consumer.Loudness" 0xc00e7 [OOC];
  UDecl "Mpx" "consumer.Mpx" 0xc00e8 [OOC];
  UDecl "VolumeIncrement" "consumer.VolumeIncrement" 0xc00e9 [RTC];
  UDecl "VolumeDecrement" "consumer.VolumeDecrement" 0xc00ea [RTC];
  UDecl "SpeedSelect" "consumer.SpeedSelect" 0xc00f0 [OSC];
  UDecl "PlaybackSpeed" "consumer.PlaybackSpeed" 0xc00f1 [NAry];
  UDecl "StandardPlay" "consumer.StandardPlay" 0xc00f2 [Sel];
  UDecl "LongPlay" "consumer.LongPlay" 0xc00f3 [Sel];
  UDecl "ExtendedPlay" "consumer.ExtendedPlay" 0xc00f4 [Sel];
  UDecl "Slow" "consumer.Slow" 0xc00f5 [OSC];
  UDecl "FanEnable" "consumer.FanEnable" 0xc0100 [OOC];
  UDecl "FanSpeed" "consumer.FanSpeed" 0xc0101 [LC];
  UDecl "LightEnable" "consumer.LightEnable" 0xc0102 [OOC];
  UDecl "LightIlluminationLevel" "consumer.LightIlluminationLevel" 0xc0103 [LC];
  UDecl "ClimateControlEnable" "consumer.ClimateControlEnable" 0xc0104 [OOC];
  UDecl "RoomTemperature" "consumer.RoomTemperature" 0xc0105 [LC];
  UDecl "SecurityEnable" "consumer.SecurityEnable" 0xc0106 [OOC];
  UDecl "FireAlarm" "consumer.FireAlarm" 0xc0107 [OSC];
  UDecl "PoliceAlarm" "consumer.PoliceAlarm" 0xc0108 [OSC];
  UDecl "Proximity" "consumer.Proximity" 0xc0109 [LC];
  UDecl "Motion" "consumer.Motion" 0xc010a [OSC];
  UDecl "DuressAlarm" "consumer.DuressAlarm" 0xc010b [OSC];
  UDecl "HoldupAlarm" "consumer.HoldupAlarm" 0xc010c [OSC];
  UDecl "MedicalAlarm" "consumer.MedicalAlarm" 0xc010d [OSC];
  UDecl "BalanceRight" "consumer.BalanceRight" 0xc0150 [RTC];
  UDecl "BalanceLeft" "consumer.BalanceLeft" 0xc0151 [RTC];
  UDecl "BassIncrement" "consumer.BassIncrement" 0xc0152 [RTC];
  UDecl "BassDecrement" "consumer.BassDecrement" 0xc0153 [RTC];
  UDecl "TrebleIncrement" "consumer.TrebleIncrement" 0xc0154 [RTC];
  UDecl "TrebleDecrement" "consumer.TrebleDecrement" 0xc0155 [RTC];
  UDecl "SpeakerSystem" "consumer.SpeakerSystem" 0xc0160 [CL];
  UDecl "ChannelLeft" "consumer.ChannelLeft" 0xc0161 [CL];
  UDecl "ChannelRight" "consumer.ChannelRight" 0xc0162 [CL];
  UDecl "ChannelCenter" "consumer.ChannelCenter" 0xc0163 [CL];
  UDecl "ChannelFront" "consumer.ChannelFront" 0xc0164 [CL];
  UDecl "ChannelCenterFront" "consumer.ChannelCenterFront" 0xc0165 [CL];
  UDecl "ChannelSide" "consumer.ChannelSide" 0xc0166 [CL];
  UDecl "ChannelSurround" "consumer.ChannelSurround" 0xc0167 [CL];
  UDecl "ChannelLowFrequencyEnhancement" "consumer.ChannelLowFrequencyEnhancement" 0xc0168 [CL];
  UDecl "ChannelTop" "consumer.ChannelTop" 0xc0169 [CL];
  UDecl "ChannelUnknown" "consumer.ChannelUnknown" 0xc016a [CL];
  UDecl "SubChannel" "consumer.SubChannel" 0xc0170 [LC];
  UDecl "SubChannelIncrement" "consumer.SubChannelIncrement" 0xc0171 [OSC];
  UDecl "SubChannelDecrement" "consumer.SubChannelDecrement" 0xc0172 [OSC];
  UDecl "AlternateAudioIncrement" "consumer.AlternateAudioIncrement" 0xc0173 [OSC];
  UDecl "AlternateAudioDecrement" "consumer.AlternateAudioDecrement" 0xc0174 [OSC];
  UDecl "ApplicationLaunchButtons" "consumer.ApplicationLaunchButtons" 0xc0180 [NAry];
  UDecl "AlLaunchButtonConfigurationTool" "consumer.AlLaunchButtonConfigurationTool" 0xc0181 [Sel];
  UDecl "AlProgrammableButtonConfiguration" "consumer.AlProgrammableButtonConfiguration" 0xc0182 [Sel];
  UDecl "AlConsumerControlConfiguration" "consumer.AlConsumerControlConfiguration" 0xc0183 [Sel];
  UDecl "AlWordProcessor" "consumer.AlWordProcessor" 0xc0184 [Sel];
  UDecl "AlTextEditor" "consumer.AlTextEditor" 0xc0185 [Sel];
  UDecl "AlSpreadsheet" "consumer.AlSpreadsheet" 0xc0186 [Sel];
  UDecl "AlGraphicsEditor" "consumer.AlGraphicsEditor" 0xc0187 [Sel];
  UDecl "AlPresentationApp" "consumer.AlPresentationApp" 0xc0188 [Sel];
  UDecl "AlDatabaseApp" "consumer.AlDatabaseApp" 0xc0189 [Sel];
  UDecl "AlEmailReader" "consumer.AlEmailReader" 0xc018a [Sel];
  UDecl "AlNewsreader" "consumer.AlNewsreader" 0xc018b [Sel];
  UDecl "AlVoicemail" "consumer.AlVoicemail" 0xc018c [Sel];
  UDecl "AlContactsAddressBook" "consumer.AlContactsAddressBook" 0xc018d [Sel];
  UDecl "AlCalendarSchedule" "consumer.AlCalendarSchedule" 0xc018e [Sel];
  UDecl "AlTaskProjectManager" "consumer.AlTaskProjectManager" 0xc018f [Sel];
  UDecl "AlLogJournalTimecard" "consumer.AlLogJournalTimecard" 0xc0190 [Sel];
  UDecl "AlCheckbookFinance" "consumer.AlCheckbookFinance" 0xc0191 [Sel];
  UDecl "AlCalculator" "consumer.AlCalculator" 0xc0192 [Sel];
  UDecl "AlAVCapturePlayback" "consumer.AlAVCapturePlayback" 0xc0193 [Sel];
  UDecl "AlLocalMachineBrowser" "consumer.AlLocalMachineBrowser" 0xc0194 [Sel];
  UDecl "AlLanWanBrowser" "consumer.AlLanWanBrowser" 0xc0195 [Sel];
  UDecl "AlInternetBrowser" "consumer.AlInternetBrowser" 0xc0196 [Sel];
  UDecl "AlRemoteNetworkingIspConnect" "consumer.AlRemoteNetworkingIspConnect" 0xc0197 [Sel];
  UDecl "AlNetworkConference" "consumer.AlNetworkConference" 0xc0198 [Sel];
  UDecl "AlNetworkChat" "consumer.AlNetworkChat" 0xc0199 [Sel];
  UDecl "AlTelephonyDialer" "consumer.AlTelephonyDialer" 0xc019a [Sel];
  UDecl "AlLogon" "consumer.AlLogon" 0xc019b [Sel];
  UDecl "AlLogoff" "consumer.AlLogoff" 0xc019c [Sel];
  UDecl "AlLogonLogoff" "consumer.AlLogonLogoff" 0xc019d [Sel];
  UDecl "AlTerminalLockScreensaver" "consumer.AlTerminalLockScreensaver" 0xc019e [Sel];
  UDecl "AlControlPanel" "consumer.AlControlPanel" 0xc019f [Sel];
  UDecl "AlCommandLineProcessorRun" "consumer.AlCommandLineProcessorRun" 0xc01a0 [Sel];
  UDecl "AlProcessTaskManager" "consumer.AlProcessTaskManager" 0xc01a1 [Sel];
  UDecl "AlSelectTaskApplication" "consumer.AlSelectTaskApplication" 0xc01a2 [Sel];
  UDecl "AlNextTaskApplication" "consumer.AlNextTaskApplication" 0xc01a3 [Sel];
  UDecl "AlPreviousTaskApplication" "consumer.AlPreviousTaskApplication" 0xc01a4 [Sel];
  UDecl "AlPreemptiveHaltTaskApplication" "consumer.AlPreemptiveHaltTaskApplication" 0xc01a5 [Sel];
  UDecl "AlIntegratedHelpCenter" "consumer.AlIntegratedHelpCenter" 0xc01a6 [Sel];
  UDecl "AlDocuments" "consumer.AlDocuments" 0xc01a7 [Sel];
  UDecl "AlThesaurus" "consumer.AlThesaurus" 0xc01a8 [Sel];
  UDecl "AlDictionary" "consumer.AlDictionary" 0xc01a9 [Sel];
  UDecl "AlDesktop" "consumer.AlDesktop" 0xc01aa [Sel];
  UDecl "AlSpellCheck" "consumer.AlSpellCheck" 0xc01ab [Sel];
  UDecl "AlGrammarCheck" "consumer.AlGrammarCheck" 0xc01ac [Sel];
  UDecl "AlWirelessStatus" "consumer.AlWirelessStatus" 0xc01ad [Sel];
  UDecl "AlKeyboardLayout" "consumer.AlKeyboardLayout" 0xc01ae [Sel];
  UDecl "AlVirusProtection" "consumer.AlVirusProtection" 0xc01af [Sel];
  UDecl "AlEncryption" "consumer.AlEncryption" 0xc01b0 [Sel];
  UDecl "AlScreenSaver" "consumer.AlScreenSaver" 0xc01b1 [Sel];
  UDecl "AlAlarms" "consumer.AlAlarms" 0xc01b2 [Sel];
  UDecl "AlClock" "consumer.AlClock" 0xc01b3 [Sel];
  UDecl "AlFileBrowser" "consumer.AlFileBrowser" 0xc01b4 [Sel];
  UDecl "AlPowerStatus" "consumer.AlPowerStatus" 0xc01b5 [Sel];
  UDecl "AlImageBrowser" "consumer.AlImageBrowser" 0xc01b6 [Sel];
  UDecl "AlAudioBrowser" "consumer.AlAudioBrowser" 0xc01b7 [Sel];
  UDecl "AlMovieBrowser" "consumer.AlMovieBrowser" 0xc01b8 [Sel];
  UDecl "AlDigitalRightsManager" "consumer.AlDigitalRightsManager" 0xc01b9 [Sel];
  UDecl "AlDigitalWallet" "consumer.AlDigitalWallet" 0xc01ba [Sel];
  UDecl "AlInstantMessaging" "consumer.AlInstantMessaging" 0xc01bc [Sel];
  UDecl "AlOemFeaturesTipsTutorialBrowser" "consumer.AlOemFeaturesTipsTutorialBrowser" 0xc01bd [Sel];
  UDecl "AlOemHelp" "consumer.AlOemHelp" 0xc01be [Sel];
  UDecl "AlOnlineCommunity" "consumer.AlOnlineCommunity" 0xc01bf [Sel];
  UDecl "AlEntertainmentContentBrowser" "consumer.AlEntertainmentContentBrowser" 0xc01c0 [Sel];
  UDecl "AlOnlineShoppingBrowser" "consumer.AlOnlineShoppingBrowser" 0xc01c1 [Sel];
  UDecl "AlSmartcardInformationHelp" "consumer.AlSmartcardInformationHelp" 0xc01c2 [Sel];
  UDecl "AlMarketMonitorFinanceBrowser" "consumer.AlMarketMonitorFinanceBrowser" 0xc01c3 [Sel];
  UDecl "AlCustomizedCorporateNewsBrowser" "consumer.AlCustomizedCorporateNewsBrowser" 0xc01c4 [Sel];
  UDecl "AlOnlineActivityBrowser" "consumer.AlOnlineActivityBrowser" 0xc01c5 [Sel];
  UDecl "AlResearchSearchBrowser" "consumer.AlResearchSearchBrowser" 0xc01c6 [Sel];
  UDecl "AlAudioPlayer" "consumer.AlAudioPlayer" 0xc01c7 [Sel];
  UDecl "GenericGuiApplicationControls" "consumer.GenericGuiApplicationControls" 0xc0200 [NAry];
  UDecl "AcNew" "consumer.AcNew" 0xc0201 [Sel];
  UDecl "AcOpen" "consumer.AcOpen" 0xc0202 [Sel];
  UDecl "AcClose" "consumer.AcClose" 0xc0203 [Sel];
  UDecl "AcExit" "consumer.AcExit" 0xc0204 [Sel];
  UDecl "AcMaximize" "consumer.AcMaximize" 0xc0205 [Sel];
  UDecl "AcMinimize" "consumer.AcMinimize" 0xc0206 [Sel];
  UDecl "AcSave" "consumer.AcSave" 0xc0207 [Sel];
  UDecl "AcPrint" "consumer.AcPrint" 0xc0208 [Sel];
  UDecl "AcProperties" "consumer.AcProperties" 0xc0209 [Sel];
  UDecl "AcUndo" "consumer.AcUndo" 0xc021a [Sel];
  UDecl "AcCopy" "consumer.AcCopy" 0xc021b [Sel];
  UDecl "AcCut" "consumer.AcCut" 0xc021c [Sel];
  UDecl "AcPaste" "consumer.AcPaste" 0xc021d [Sel];
  UDecl "AcSelectAll" "consumer.AcSelectAll" 0xc021e [Sel];
  UDecl "AcFind" "consumer.AcFind" 0xc021f [Sel];
  UDecl "AcFindAndReplace" "consumer.AcFindAndReplace" 0xc0220 [Sel];
  UDecl "AcSearch" "consumer.AcSearch" 0xc0221 [Sel];
  UDecl "AcGoTo" "consumer.AcGoTo" 0xc0222 [Sel];
  UDecl "AcHome" "consumer.AcHome" 0xc0223 [Sel];
  UDecl "AcBack" "consumer.AcBack" 0xc0224 [Sel];
  UDecl "AcForward" "consumer.AcForward" 0xc0225 [Sel];
  UDecl "AcStop" "consumer.AcStop" 0xc0226 [Sel];
  UDecl "AcRefresh" "consumer.AcRefresh" 0xc0227 [Sel];
  UDecl "AcPreviousLink" "consumer.AcPreviousLink" 0xc0228 [Sel];
  UDecl "AcNextLink" "consumer.AcNextLink" 0xc0229 [Sel];
  UDecl "AcBookmarks" "consumer.AcBookmarks" 0xc022a [Sel];
  UDecl "AcHistory" "consumer.AcHistory" 0xc022b [Sel];
  UDecl "AcSubscriptions" "consumer.AcSubscriptions" 0xc022c [Sel];
  UDecl "AcZoomIn" "consumer.AcZoomIn" 0xc022d [Sel];
  UDecl "AcZoomOut" "consumer.AcZoomOut" 0xc022e [Sel];
  UDecl "AcZoom" "consumer.AcZoom" 0xc022f [LC];
  UDecl "AcFullScreenView" "consumer.AcFullScreenView" 0xc0230 [Sel];
  UDecl "AcNormalView" "consumer.AcNormalView" 0xc0231 [Sel];
  UDecl "AcViewToggle" "consumer.AcViewToggle" 0xc0232 [Sel];
  UDecl "AcScrollUp" "consumer.AcScrollUp" 0xc0233 [Sel];
  UDecl "AcScrollDown" "consumer.AcScrollDown" 0xc0234 [Sel];
  UDecl "AcScroll" "consumer.AcScroll" 0xc0235 [LC];
  UDecl "AcPanLeft" "consumer.AcPanLeft" 0xc0236 [Sel];
  UDecl "AcPanRight" "consumer.AcPanRight" 0xc0237 [Sel];
  UDecl "AcPan" "consumer.AcPan" 0xc0238 [LC];
  UDecl "AcNewWindow" "consumer.AcNewWindow" 0xc0239 [Sel];
  UDecl "AcTileHorizontally" "consumer.AcTileHorizontally" 0xc023a [Sel];
  UDecl "AcTileVertically" "consumer.AcTileVertically" 0xc023b [Sel];
  UDecl "AcFormat" "consumer.AcFormat" 0xc023c [Sel];
  UDecl "AcEdit" "consumer.AcEdit" 0xc023d [Sel];
  UDecl "AcBold" "consumer.AcBold" 0xc023e [Sel];
  UDecl "AcItalics" "consumer.AcItalics" 0xc023f [Sel];
  UDecl "AcUnderline" "consumer.AcUnderline" 0xc0240 [Sel];
  UDecl "AcStrikethrough" "consumer.AcStrikethrough" 0xc0241 [Sel];
  UDecl "AcSubscript" "consumer.AcSubscript" 0xc0242 [Sel];
  UDecl "AcSuperscript" "consumer.AcSuperscript" 0xc0243 [Sel];
  UDecl "AcAllCaps" "consumer.AcAllCaps" 0xc0244 [Sel];
  UDecl "AcRotate" "consumer.AcRotate" 0xc0245 [Sel];
  UDecl "AcResize" "consumer.AcResize" 0xc0246 [Sel];
  UDecl "AcFlipHorizontal" "consumer.AcFlipHorizontal" 0xc0247 [Sel];
  UDecl "AcFlipVertical" "consumer.AcFlipVertical" 0xc0248 [Sel];
  UDecl "AcMirrorHorizontal" "consumer.AcMirrorHorizontal" 0xc0249 [Sel];
  UDecl "AcMirrorVertical" "consumer.AcMirrorVertical" 0xc024a [Sel];
  UDecl "AcFontSelect" "consumer.AcFontSelect" 0xc024b [Sel];
  UDecl "AcFontColor" "consumer.AcFontColor" 0xc024c [Sel];
  UDecl "AcFontSize" "consumer.AcFontSize" 0xc024d [Sel];
  UDecl "AcJustifyLeft" "consumer.AcJustifyLeft" 0xc024e [Sel];
  UDecl "AcJustifyCenterH" "consumer.AcJustifyCenterH" 0xc024f [Sel];
  UDecl "AcJustifyRight" "consumer.AcJustifyRight" 0xc0250 [Sel];
  UDecl "AcJustifyBlockH" "consumer.AcJustifyBlockH" 0xc0251 [Sel];
  UDecl "AcJustifyTop" "consumer.AcJustifyTop" 0xc0252 [Sel];
  UDecl "AcJustifyCenterV" "consumer.AcJustifyCenterV" 0xc0253 [Sel];
  UDecl "AcJustifyBottom" "consumer.AcJustifyBottom" 0xc0254 [Sel];
  UDecl "AcJustifyBlockV" "consumer.AcJustifyBlockV" 0xc0255 [Sel];
  UDecl "AcIndentDecrease" "consumer.AcIndentDecrease" 0xc0256 [Sel];
  UDecl "AcIndentIncrease" "consumer.AcIndentIncrease" 0xc0257 [Sel];
  UDecl "AcNumberedList" "consumer.AcNumberedList" 0xc0258 [Sel];
  UDecl "AcRestartNumbering" "consumer.AcRestartNumbering" 0xc0259 [Sel];
  UDecl "AcBulletedList" "consumer.AcBulletedList" 0xc025a [Sel];
  UDecl "AcPromote" "consumer.AcPromote" 0xc025b [Sel];
  UDecl "AcDemote" "consumer.AcDemote" 0xc025c [Sel];
  UDecl "AcYes" "consumer.AcYes" 0xc025d [Sel];
  UDecl "AcNo" "consumer.AcNo" 0xc025e [Sel];
  UDecl "AcCancel" "consumer.AcCancel" 0xc025f [Sel];
  UDecl "AcCatalog" "consumer.AcCatalog" 0xc0260 [Sel];
  UDecl "AcBuyCheckout" "consumer.AcBuyCheckout" 0xc0261 [Sel];
  UDecl "AcAddToCart" "consumer.AcAddToCart" 0xc0262 [Sel];
  UDecl "AcExpand" "consumer.AcExpand" 0xc0263 [Sel];
  UDecl "AcExpandAll" "consumer.AcExpandAll" 0xc0264 [Sel];
  UDecl "AcCollapse" "consumer.AcCollapse" 0xc0265 [Sel];
  UDecl "AcCollapseAll" "consumer.AcCollapseAll" 0xc0266 [Sel];
  UDecl "AcPrintPreview" "consumer.AcPrintPreview" 0xc0267 [Sel];
  UDecl "AcPasteSpecial" "consumer.AcPasteSpecial" 0xc0268 [Sel];
  UDecl "AcInsertMode" "consumer.AcInsertMode" 0xc0269 [Sel];
  UDecl "AcDelete" "consumer.AcDelete" 0xc026a [Sel];
  UDecl "AcLock" "consumer.AcLock" 0xc026b [Sel];
  UDecl "AcUnlock" "consumer.AcUnlock" 0xc026c [Sel];
  UDecl "AcProtect" "consumer.AcProtect" 0xc026d [Sel];
  UDecl "AcUnprotect" "consumer.AcUnprotect" 0xc026e [Sel];
  UDecl "AcAttachComment" "consumer.AcAttachComment" 0xc026f [Sel];
  UDecl "AcDeleteComment" "consumer.AcDeleteComment" 0xc0270 [Sel];
  UDecl "AcViewComment" "consumer.AcViewComment" 0xc0271 [Sel];
  UDecl "AcSelectWord" "consumer.AcSelectWord" 0xc0272 [Sel];
  UDecl "AcSelectSentence" "consumer.AcSelectSentence" 0xc0273 [Sel];
  UDecl "AcSelectParagraph" "consumer.AcSelectParagraph" 0xc0274 [Sel];
  UDecl "AcSelectColumn" "consumer.AcSelectColumn" 0xc0275 [Sel];
  UDecl "AcSelectRow" "consumer.AcSelectRow" 0xc0276 [Sel];
  UDecl "AcSelectTable" "consumer.AcSelectTable" 0xc0277 [Sel];
  UDecl "AcSelectObject" "consumer.AcSelectObject" 0xc0278 [Sel];
  UDecl "AcRedoRepeat" "consumer.AcRedoRepeat" 0xc0279 [Sel];
  UDecl "AcSort" "consumer.AcSort" 0xc027a [Sel];
  UDecl "AcSortAscending" "consumer.AcSortAscending" 0xc027b [Sel];
  UDecl "AcSortDescending" "consumer.AcSortDescending" 0xc027c [Sel];
  UDecl "AcFilter" "consumer.AcFilter" 0xc027d [Sel];
  UDecl "AcSetClock" "consumer.AcSetClock" 0xc027e [Sel];
  UDecl "AcViewClock" "consumer.AcViewClock" 0xc027f [Sel];
  UDecl "AcSelectTimeZone" "consumer.AcSelectTimeZone" 0xc0280 [Sel];
  UDecl "AcEditTimeZones" "consumer.AcEditTimeZones" 0xc0281 [Sel];
  UDecl "AcSetAlarm" "consumer.AcSetAlarm" 0xc0282 [Sel];
  UDecl "AcClearAlarm" "consumer.AcClearAlarm" 0xc0283 [Sel];
  UDecl "AcSnoozeAlarm" "consumer.AcSnoozeAlarm" 0xc0284 [Sel];
  UDecl "AcResetAlarm" "consumer.AcResetAlarm" 0xc0285 [Sel];
  UDecl "AcSynchronize" "consumer.AcSynchronize" 0xc0286 [Sel];
  UDecl "AcSendReceive" "consumer.AcSendReceive" 0xc0287 [Sel];
  UDecl "AcSendTo" "consumer.AcSendTo" 0xc0288 [Sel];
  UDecl "AcReply" "consumer.AcReply" 0xc0289 [Sel];
  UDecl "AcReplyAll" "consumer.AcReplyAll" 0xc028a [Sel];
  UDecl "AcForwardMsg" "consumer.AcForwardMsg" 0xc028b [Sel];
  UDecl "AcSend" "consumer.AcSend" 0xc028c [Sel];
  UDecl "AcAttachFile" "consumer.AcAttachFile" 0xc028d [Sel];
  UDecl "AcUpload" "consumer.AcUpload" 0xc028e [Sel];
  UDecl "AcDownload" "consumer.AcDownload" 0xc028f [Sel];
  UDecl "AcSetBorders" "consumer.AcSetBorders" 0xc0290 [Sel];
  UDecl "AcInsertRow" "consumer.AcInsertRow" 0xc0291 [Sel];
  UDecl "AcInsertColumn" "consumer.AcInsertColumn" 0xc0292 [Sel];
  UDecl "AcInsertFile" "consumer.AcInsertFile" 0xc0293 [Sel];
  UDecl "AcInsertPicture" "consumer.AcInsertPicture" 0xc0294 [Sel];
  UDecl "AcInsertObject" "consumer.AcInsertObject" 0xc0295 [Sel];
  UDecl "AcInsertSymbol" "consumer.AcInsertSymbol" 0xc0296 [Sel];
  UDecl "AcSaveAndClose" "consumer.AcSaveAndClose" 0xc0297 [Sel];
  UDecl "AcRename" "consumer.AcRename" 0xc0298 [Sel];
  UDecl "AcMerge" "consumer.AcMerge" 0xc0299 [Sel];
  UDecl "AcSplit" "consumer.AcSplit" 0xc029a [Sel];
  UDecl "AcDisributeHorizontally" "consumer.AcDisributeHorizontally" 0xc029b [Sel];
  UDecl "AcDistributeVertically" "consumer.AcDistributeVertically" 0xc029c [Sel];
  UDecl "ExtendedKeyboardAttributesCollection" "consumer.ExtendedKeyboardAttributesCollection" 0xc02c0 [CL];
  UDecl "KeyboardFormFactor" "consumer.KeyboardFormFactor" 0xc02c1 [SV];
  UDecl "KeyboardKeyType" "consumer.KeyboardKeyType" 0xc02c2 [SV];
  UDecl "KeyboardPhysicalLayout" "consumer.KeyboardPhysicalLayout" 0xc02c3 [SV];
  UDecl "VendorSpecificKeyboardPhysicalLayout" "consumer.VendorSpecificKeyboardPhysicalLayout" 0xc02c4 [SV];
  UDecl "KeyboardIETFLanguageTagIndex" "consumer.KeyboardIETFLanguageTagIndex" 0xc02c5 [SV];
  UDecl "ImplementedKeyboardInputAssistControls" "consumer.ImplementedKeyboardInputAssistControls" 0xc02c6 [SV];
  UDecl "KeyboardInputAssistPrevious" "consumer.KeyboardInputAssistPrevious" 0xc02c7 [Sel];
  UDecl "KeyboardInputAssistNext" "consumer.KeyboardInputAssistNext" 0xc02c8 [Sel];
  UDecl "KeyboardInputAssistPreviousGroup" "consumer.KeyboardInputAssistPreviousGroup" 0xc02c9 [Sel];
  UDecl "KeyboardInputAssistNextGroup" "consumer.KeyboardInputAssistNextGroup" 0xc02ca [Sel];
  UDecl "KeyboardInputAssistAccept" "consumer.KeyboardInputAssistAccept" 0xc02cb [Sel];
  UDecl "KeyboardInputAssistCancel" "consumer.KeyboardInputAssistCancel" 0xc02cc [Sel]
].

(* hrdc/usage/simulation.py:3-53 *)
Definition t_simulation : list udecl := [
  UDecl "FlightSimulationDevice" "simulation.FlightSimulationDevice" 0x20001 [CA];
  UDecl "AutomobileSimulationDevice" "simulation.AutomobileSimulationDevice" 0x20002 [CA];
  UDecl "TankSimulationDevice" "simulation.TankSimulationDevice" 0x20003 [CA];
  UDecl "SpaceshipSimulationDevice" "simulation.SpaceshipSimulationDevice" 0x20004 [CA];
  UDecl "SubmarineSimulationDevice" "simulation.SubmarineSimulationDevice" 0x20005 [CA];
  UDecl "SailingSimulationDevice" "simulation.SailingSimulationDevice" 0x20006 [CA];
  UDecl "MotorcycleSimulationDevice" "simulation.MotorcycleSimulationDevice" 0x20007 [CA];
  UDecl "SportsSimulationDevice" "simulation.SportsSimulationDevice" 0x20008 [CA];
  UDecl "AirplaneSimulationDevice" "simulation.AirplaneSimulationDevice" 0x20009 [CA];
  UDecl "HelicopterSimulationDevice" "simulation.HelicopterSimulationDevice" 0x2000a [CA];
  UDecl "MagicCarpetSimulationDevice" "simulation.MagicCarpetSimulationDevice" 0x2000b [CA];
  UDecl "BicycleSimulationDevice" "simulation.BicycleSimulationDevice" 0x2000c [CA];
  UDecl "FlightControlStick" "simulation.FlightControlStick" 0x20020 [CA];
  UDecl "FlightStick" "simulation.FlightStick" 0x20021 [CA];
  UDecl "CyclicControl" "simulation.CyclicControl" 0x20022 [CP];
  UDecl "CyclicTrim" "simulation.CyclicTrim" 0x20023 [CP];
  UDecl "FlightYoke" "simulation.FlightYoke" 0x20024 [CA];
  UDecl "TrackControl" "simulation.TrackControl" 0x20025 [CP];
  UDecl "Aileron" "simulation.Aileron" 0x200b0 [DV];
  UDecl "AileronTrim" "simulation.AileronTrim" 0x200b1 [DV];
  UDecl "AntiTorqueControl" "simulation.TorqueControl" 0x200b2 [DV];
  UDecl "AutopilotEnable" "simulation.AutopilotEnable" 0x200b3 [OOC];
  UDecl "ChaffRelease" "simulation.ChaffRelease" 0x200b4 [OSC];
  UDecl "CollectiveControl" "simulation.CollectiveControl" 0x200b5 [DV];
  UDecl "DiveBrake" "simulation.DiveBrake" 0x200b6 [DV];
  UDecl "ElectronicCountermeasures" "simulation.ElectronicCountermeasures" 0x200b7 [OOC];
  UDecl "Elevator" "simulation.Elevator" 0x200b8 [DV];
  UDecl "ElevatorTrim" "simulation.ElevatorTrim" 0x200b9 [DV];
  UDecl "Rudder" "simulation.Rudder" 0x200ba [DV];
  UDecl "Throttle" "simulation.Throttle" 0x200bb [DV];
  UDecl "FlightCommunications" "simulation.FlightCommunications" 0x200bc [OOC];
  UDecl "FlareRelease" "simulation.FlareRelease" 0x200bd [OSC];
  UDecl "LandingGear" "simulation.LandingGear" 0x200be [OOC];
  UDecl "ToeBrake" "simulation.ToeBrake" 0x200bf [DV];
  UDecl "Trigger" "simulation.Trigger" 0x200c0 [MC];
  UDecl "WeaponsArm" "simulation.WeaponsArm" 0x200c1 [OOC];
  UDecl "WeaponsSelect" "simulation.WeaponsSelect" 0x200c2 [OSC];
  UDecl "WingFlaps" "simulation.WingFlaps" 0x200c3 [DV];
  UDecl "Accelerator" "simulation.Accelerator" 0x200c4 [DV];
  UDecl "Brake" "simulation.Brake" 0x200c5 [DV];
  UDecl "Clutch" "simulation.Clutch" 0x200c6 [DV];
  UDecl "Shifter" "simulation.Shifter" 0x200c7 [DV];
  UDecl "Steering" "simulation.Steering" 0x200c8 [DV];
  UDecl "TurretDirection" "simulation.TurretDirection" 0x200c9 [DV];
  UDecl "BarrelElevation" "simulation.BarrelElevation" 0x200ca [DV];
  UDecl "DivePlane" "simulation.DivePlane" 0x200cb [DV];
  UDecl "Ballast" "simulation.Ballast" 0x200cc [DV];
  UDecl "BicycleCrank" "simulation.BicycleCrank" 0x200cd [DV];
  UDecl "HandleBars" "simulation.HandleBars" 0x200ce [DV];
  UDecl "FrontBrake" "simulation.FrontBrake" 0x200cf [DV];
  UDecl "RearBrake" "simulation.RearBrake" 0x200d0 [DV]
].

(* hrdc/usage/led.py:3-88 *)
Definition t_led : list udecl := [
  UDecl "NumLock" "led.NumLock" 0x80001 [OOC];
  UDecl "CapsLock" "led.CapsLock" 0x80002 [OOC];
  UDecl "ScrollLock" "led.ScrollLock" 0x80003 [OOC];
  UDecl "Compose" "led.Compose" 0x80004 [OOC];
  UDecl "Kana" "led.Kana" 0x80005 [OOC];
  UDecl "Power" "led.Power" 0x80006 [OOC];
  UDecl "Shift" "led.Shift" 0x80007 [OOC];
  UDecl "DoNotDisturb" "led.DoNotDisturb" 0x80008 [OOC];
  UDecl "Mute" "led.Mute" 0x80009 [OOC];
  UDecl "ToneEnable" "led.ToneEnable" 0x8000a [OOC];
  UDecl "HighCutFilter" "led.HighCutFilter" 0x8000b [OOC];
  UDecl "LowCutFilter" "led.LowCutFilter" 0x8000c [OOC];
  UDecl "EqualizerEnable" "led.EqualizerEnable" 0x8000d [OOC];
  UDecl "SoundFieldOn" "led.SoundFieldOn" 0x8000e [OOC];
  UDecl "SurroundOn" "led.SurroundOn" 0x8000f [OOC];
  UDecl "Repeat" "led.Repeat" 0x80010 [OOC];
  UDecl "Stereo" "led.Stereo" 0x80011 [OOC];
  UDecl "SamplingRateDetect" "led.SamplingRateDetect" 0x80012 [OOC];
  UDecl "Spinning" "led.Spinning" 0x80013 [OOC];
  UDecl "CAV" "led.CAV" 0x80014 [OOC];
  UDecl "CLV" "led.CLV" 0x80015 [OOC];
  UDecl "RecordingFormatDetect" "led.RecordingFormatDetect" 0x80016 [OOC];
  UDecl "OffHook" "led.OffHook" 0x80017 [OOC];
  UDecl "Ring" "led.Ring" 0x80018 [OOC];
  UDecl "MessageWaiting" "led.MessageWaiting" 0x80019 [OOC];
  UDecl "DataMode" "led.DataMode" 0x8001a [OOC];
  UDecl "BatteryOperation" "led.BatteryOperation" 0x8001b [OOC];
  UDecl "BatteryOK" "led.BatteryOK" 0x8001c [OOC];
  UDecl "BatteryLow" "led.BatteryLow" 0x8001d [OOC];
  UDecl "Speaker" "led.Speaker" 0x8001e [OOC];
  UDecl "HeadSet" "led.HeadSet" 0x8001f [OOC];
  UDecl "Hold" "led.Hold" 0x80020 [OOC];
  UDecl "Microphone" "led.Microphone" 0x80021 [OOC];
  UDecl "Coverage" "led.Coverage" 0x80022 [OOC];
  UDecl "NightMode" "led.NightMode" 0x80023 [OOC];
  UDecl "SendCalls" "led.SendCalls" 0x80024 [OOC];
  UDecl "CallPickup" "led.CallPickup" 0x80025 [OOC];
  UDecl "Conference" "led.Conference" 0x80026 [OOC];
  UDecl "StandBy" "led.StandBy" 0x80027 [OOC];
  UDecl "CameraOn" "led.CameraOn" 0x80028 [OOC];
  UDecl "CameraOff" "led.CameraOff" 0x80029 [OOC];
  UDecl "OnLine" "led.OnLine" 0x8002a [OOC];
  UDecl "OffLine" "led.OffLine" 0x8002b [OOC];
  UDecl "Busy" "led.Busy" 0x8002c [OOC];
  UDecl "Ready" "led.Ready" 0x8002d [OOC];
  UDecl "PaperOut" "led.PaperOut" 0x8002e [OOC];
  UDecl "PaperJam" "led.PaperJam" 0x8002f [OOC];
  UDecl "Remote" "led.Remote" 0x80030 [OOC];
  UDecl "Forward" "led.Forward" 0x80031 [OOC];
  UDecl "Reverse" "led.Reverse" 0x80032 [OOC];
  UDecl "Stop" "led.Stop" 0x80033 [OOC];
  UDecl "Rewind" "led.Rewind" 0x80034 [OOC];
  UDecl "FastForward" "led.FastForward" 0x80035 [OOC];
  UDecl "Play" "led.Play" 0x80036 [OOC];
  UDecl "Pause" "led.Pause" 0x80037 [OOC];
  UDecl "Record" "led.Record" 0x80038 [OOC];
  UDecl "Error" "led.Error" 0x80039 [OOC];
  UDecl "UsageSelectedIndicator" "led.UsageSelectedIndicator" 0x8003a [US];
  UDecl "UsageInUseIndicator" "led.UsageInUseIndicator" 0x8003b [US];
  UDecl "UsageMultiModeIndicator" "led.UsageMultiModeIndicator" 0x8003c [UM];
  UDecl "IndicatorOn" "led.IndicatorOn" 0x8003d [Sel];
  UDecl "IndicatorFlash" "led.IndicatorFlash" 0x8003e [Sel];
  UDecl "IndicatorSlowBlink" "led.IndicatorSlowBlink" 0x8003f [Sel];
  UDecl "IndicatorFastBlink" "led.IndicatorFastBlink" 0x80040 [Sel];
  UDecl "IndicatorOff" "led.IndicatorOff" 0x80041 [Sel];
  UDecl "FlashOnTime" "led.FlashOnTime" 0x80042 [DV];
  UDecl "SlowBlinkOnTime" "led.SlowBlinkOnTime" 0x80043 [DV];
  UDecl "SlowBlinkOffTime" "led.SlowBlinkOffTime" 0x80044 [DV];
  UDecl "FastBlinkOnTime" "led.FastBlinkOnTime" 0x80045 [DV];
  UDecl "FastBlinkOffTime" "led.FastBlinkOffTime" 0x80046 [DV];
  UDecl "UsageIndicatorColor" "led.UsageIndicatorColor" 0x80047 [UM];
  UDecl "IndicatorRed" "led.IndicatorRed" 0x80048 [Sel];
  UDecl "IndicatorAmber" "led.IndicatorAmber" 0x8004a [Sel];
  UDecl "SystemSuspend" "led.SystemSuspend" 0x8004c [OOC];
  UDecl "ExternalPowerConnected" "led.ExternalPowerConnected" 0x8004d [OOC];
  UDecl "PlayerIndicator" "led.PlayerIndicator" 0x8004e [NAry];
  UDecl "Player1" "led.Player1" 0x8004f [Sel];
  UDecl "Player2" "led.Player2" 0x80050 [Sel];
  UDecl "Player3" "led.Player3" 0x80051 [Sel];
  UDecl "Player4" "led.Player4" 0x80052 [Sel];
  UDecl "Player5" "led.Player5" 0x80053 [Sel];
  UDecl "Player6" "led.Player6" 0x80054 [Sel];
  UDecl "Player7" "led.Player7" 0x80055 [Sel];
  UDecl "Player8" "led.Player8" 0x80056 [Sel]
].

(* hrdc/usage/vr.py:3-14 *)
Definition t_vr : list udecl := [
  UDecl "Belt" "vr.Belt" 0x30001 [CA];
  UDecl "BodySuit" "vr.BodySuit" 0x30002 [CA];
  UDecl "Flexor" "vr.Flexor" 0x30003 [CP];
  UDecl "Glove" "vr.Glove" 0x30004 [CA];
  UDecl "HeadTracker" "vr.HeadTracker" 0x30005 [CP];
  UDecl "HeadMountedDisplay" "vr.HeadMountedDisplay" 0x30006 [CA];
  UDecl "HandTracker" "vr.HandTracker" 0x30007 [CA];
  UDecl "Oculometer" "vr.Oculometer" 0x30008 [CA];
  UDecl "Vest" "vr.Vest" 0x30009 [CA];
  UDecl "AnimatronicDevice" "vr.AnimatronicDevice" 0x3000a [CA];
  UDecl "StereoEnable" "vr.StereoEnable" 0x30020 [OOC];
  UDecl "DisplayEnable" "vr.DisplayEnable" 0x30021 [OOC]
].

(* hrdc/usage/game.py:3-30 *)
Definition t_game : list udecl := [
  UDecl "ThreeDGameController" "game.ThreeDGameController" 0x50001 [CA];
  UDecl "PinballDevice" "game.PinballDevice" 0x50002 [CA];
  UDecl "GunDevice" "game.GunDevice" 0x50003 [CA];
  UDecl "PointofView" "game.PointofView" 0x50020 [CP];
  UDecl "TurnRightLeft" "game.TurnRightLeft" 0x50021 [DV];
  UDecl "PitchForwardBackward" "game.PitchForwardBackward" 0x50022 [DV];
  UDecl "RollRightLeft" "game.RollRightLeft" 0x50023 [DV];
  UDecl "MoveRightLeft" "game.MoveRightLeft" 0x50024 [DV];
  UDecl "MoveForwardBackward" "game.MoveForwardBackward" 0x50025 [DV];
  UDecl "MoveUpDown" "game.MoveUpDown" 0x50026 [DV];
  UDecl "LeanRightLeft" "game.LeanRightLeft" 0x50027 [DV];
  UDecl "LeanForwardBackward" "game.LeanForwardBackward" 0x50028 [DV];
  UDecl "HeightofPOV" "game.HeightofPOV" 0x50029 [DV];
  UDecl "Flipper" "game.Flipper" 0x5002a [MC];
  UDecl "SecondaryFlipper" "game.SecondaryFlipper" 0x5002b [MC];
  UDecl "Bump" "game.Bump" 0x5002c [MC];
  UDecl "NewGame" "game.NewGame" 0x5002d [OSC];
  UDecl "ShootBall" "game.ShootBall" 0x5002e [OSC];
  UDecl "Player" "game.Player" 0x5002f [OSC];
  UDecl "GunBolt" "game.GunBolt" 0x50030 [OOC];
  UDecl "GunClip" "game.GunClip" 0x50031 [OOC];
  UDecl "GunSelector" "game.GunSelector" 0x50032 [NAry];
  UDecl "GunSingleShot" "game.GunSingleShot" 0x50033 [Sel];
  UDecl "GunBurst" "game.GunBurst" 0x50034 [Sel];
  UDecl "GunAutomatic" "game.GunAutomatic" 0x50035 [Sel];
  UDecl "GunSafety" "game.GunSafety" 0x50036 [OOC];
  UDecl "GamepadFireJump" "game.GamepadFireJump" 0x50037 [CL];
  UDecl "GamepadTrigger" "game.GamepadTrigger" 0x50039 [CL]
].

(* hrdc/usage/camera.py:3-4 *)
Definition t_camera : list udecl := [
  UDecl "Autofocus" "camera.Autofocus" 0x900020 [OSC];
  UDecl "Shutter" "camera.Shutter" 0x900021 [OSC]
].

(* hrdc/usage/device.py:3-9 *)
Definition t_device : list udecl := [
  UDecl "BatteryStrength" "device.BatteryStrength" 0x60020 [DV];
  UDecl "WirelessChannel" "device.WirelessChannel" 0x60021 [DV];
  UDecl "WirelessID" "device.WirelessID" 0x60022 [DV];
  UDecl "DiscoverWirelessControl" "device.DiscoverWirelessControl" 0x60023 [OSC];
  UDecl "SecurityCodeCharacterEntered" "device.SecurityCodeCharacterEntered" 0x60024 [OSC];
  UDecl "SecurityCodeCharacterErased" "device.SecurityCodeCharacterErased" 0x60025 [OSC];
  UDecl "SecurityCodeCleared" "device.SecurityCodeCleared" 0x60026 [OSC]
].

(* hrdc/usage/digitizers.py:3-62 *)
Definition t_digitizers : list udecl := [
  UDecl "Digitizer" "digitizers.Digitizer" 0xd0001 [CA];
  UDecl "Pen" "digitizers.Pen" 0xd0002 [CA];
  UDecl "LightPen" "digitizers.LightPen" 0xd0003 [CA];
  UDecl "TouchScreen" "digitizers.TouchScreen" 0xd0004 [CA];
  UDecl "TouchPad" "digitizers.TouchPad" 0xd0005 [CA];
  UDecl "WhiteBoard" "digitizers.WhiteBoard" 0xd0006 [CA];
  UDecl "CoordinateMeasuringMachine" "digitizers.CoordinateMeasuringMachine" 0xd0007 [CA];
  UDecl "ThreeDDigitizer" "digitizers.ThreeDDigitizer" 0xd0008 [CA];
  UDecl "StereoPlotter" "digitizers.StereoPlotter" 0xd0009 [CA];
  UDecl "ArticulatedArm" "digitizers.ArticulatedArm" 0xd000a [CA];
  UDecl "Armature" "digitizers.Armature" 0xd000b [CA];
  UDecl "MultiplePointDigitizer" "digitizers.MultiplePointDigitizer" 0xd000c [CA];
  UDecl "FreeSpaceWand" "digitizers.FreeSpaceWand" 0xd000d [CA];
  UDecl "Stylus" "digitizers.Stylus" 0xd0020 [CL];
  UDecl "Puck" "digitizers.Puck" 0xd0021 [CL];
  UDecl "Finger" "digitizers.Finger" 0xd0022 [CL];
  UDecl "TipPressure" "digitizers.TipPressure" 0xd0030 [DV];
  UDecl "BarrelPressure" "digitizers.BarrelPressure" 0xd0031 [DV];
  UDecl "InRange" "digitizers.InRange" 0xd0032 [MC];
  UDecl "Touch" "digitizers.Touch" 0xd0033 [MC];
  UDecl "Untouch" "digitizers.Untouch" 0xd0034 [OSC];
  UDecl "Tap" "digitizers.Tap" 0xd0035 [OSC];
  UDecl "Quality" "digitizers.Quality" 0xd0036 [DV];
  UDecl "DataValid" "digitizers.DataValid" 0xd0037 [MC];
  UDecl "TransducerIndex" "digitizers.TransducerIndex" 0xd0038 [DV];
  UDecl "TabletFunctionKeys" "digitizers.TabletFunctionKeys" 0xd0039 [CL];
  UDecl "ProgramChangeKeys" "digitizers.ProgramChangeKeys" 0xd003a [CL];
  UDecl "BatteryStrength" "digitizers.BatteryStrength" 0xd003b [DV];
  UDecl "Invert" "digitizers.Invert" 0xd003c [MC];
  UDecl "XTilt" "digitizers.XTilt" 0xd003d [DV];
  UDecl "YTilt" "digitizers.YTilt" 0xd003e [DV];
  UDecl "Azimuth" "digitizers.Azimuth" 0xd003f [DV];
  UDecl "Altitude" "digitizers.Altitude" 0xd0040 [DV];
  UDecl "Twist" "digitizers.Twist" 0xd0041 [DV];
  UDecl "TipSwitch" "digitizers.TipSwitch" 0xd0042 [MC];
  UDecl "SecondaryTipSwitch" "digitizers.SecondaryTipSwitch" 0xd0043 [MC];
  UDecl "BarrelSwitch" "digitizers.BarrelSwitch" 0xd0044 [MC];
  UDecl "Eraser" "digitizers.Eraser" 0xd0045 [MC];
  UDecl "TabletPick" "digitizers.TabletPick" 0xd0046 [MC];
  UDecl "TouchValid" "digitizers.TouchValid" 0xd0047 [MC];
  UDecl "Width" "digitizers.Width" 0xd0048 [DV];
  UDecl "Height" "digitizers.Height" 0xd0049 [DV];
  UDecl "Contactidentifier" "digitizers.Contactidentifier" 0xd0051 [DV];
  UDecl "Deviceconfiguration" "digitizers.Deviceconfiguration" 0xd000e [CA];
  UDecl "Devicemode" "digitizers.Devicemode" 0xd0052 [DV];
  UDecl "Deviceidentifier" "digitizers.Deviceidentifier" 0xd0053 [DV];
  UDecl "Contactcount" "digitizers.Contactcount" 0xd0054 [DV];
  UDecl "Contactcountmaximum" "digitizers.Contactcountmaximum" 0xd0055 [DV];
  UDecl "Devicesettings" "digitizers.Devicesettings" 0xd0023 [CL];
  UDecl "SecondaryBarrelSwitch" "digitizers.SecondaryBarrelSwitch" 0xd005a [MC];
  UDecl "TransducerSerialNumber" "digitizers.TransducerSerialNumber" 0xd005b [SV];
  UDecl "PreferredColor" "digitizers.PreferredColor" 0xd005c [DV]
].

(* hrdc/usage/lighting.py:5-37 *)
Definition t_lighting : list udecl := [
  UDecl "LampArray" "lighting.LampArray" 0x590001 [CA];
  UDecl "LampArrayAttributesReport" "lighting.LampArrayAttributesReport" 0x590002 [CL];
  UDecl "LampCount" "lighting.LampCount" 0x590003 [SV];
  UDecl "BoundingBoxWidthInMicrometers" "lighting.BoundingBoxWidthInMicrometers" 0x590004 [SV];
  UDecl "BoundingBoxHeightInMicrometers" "lighting.BoundingBoxHeightInMicrometers" 0x590005 [SV];
  UDecl "BoundingBoxDepthInMicrometers" "lighting.BoundingBoxDepthInMicrometers" 0x590006 [SV];
  UDecl "LampArrayKind" "lighting.LampArrayKind" 0x590007 [SV];
  UDecl "MinUpdateIntervalInMicroseconds" "lighting. MinUpdateIntervalInMicroseconds" 0x590008 [SV];
  UDecl "LampAttributesRequestReport" "lighting.LampAttributesRequestReport" 0x590020 [CL];
  UDecl "LampId" "lighting.LampId" 0x590021 [SV];
  UDecl "LampAttributesResponseReport" "lighting.LampAttributesResponseReport" 0x590022 [CL];
  UDecl "PositionXInMicrometers" "lighting.PositionXInMicrometers" 0x590023 [DV];
  UDecl "PositionYInMicrometers" "lighting.PositionYInMicrometers" 0x590024 [DV];
  UDecl "PositionZInMicrometers" "lighting.PositionZInMicrometers" 0x590025 [DV];
  UDecl "LampPurposes" "lighting.LampPurposes" 0x590026 [DV];
  UDecl "UpdateLatencyInMicroseconds" "lighting.UpdateLatencyInMicroseconds" 0x590027 [DV];
  UDecl "RedLevelCount" "lighting.RedLevelCount" 0x590028 [DV];
  UDecl "GreenLevelCount" "lighting.GreenLevelCount" 0x590029 [DV];
  UDecl "BlueLevelCount" "lighting.BlueLevelCount" 0x59002a [DV];
  UDecl "IntensityLevelCount" "lighting.IntensityLevelCount" 0x59002b [DV];
  UDecl "IsProgrammable" "lighting.IsProgrammable" 0x59002c [DV];
  UDecl "InputBinding" "lighting.InputBinding" 0x59002d [DV];
  UDecl "LampMultiUpdateReport" "lighting.LampMultiUpdateReport" 0x590050 [CL];
  UDecl "RedUpdateChannel" "lighting.RedUpdateChannel" 0x590051 [DV];
  UDecl "GreenUpdateChannel" "lighting.GreenUpdateChannel" 0x590052 [DV];
  UDecl "BlueUpdateChannel" "lighting.BlueUpdateChannel" 0x590053 [DV];
  UDecl "IntensityUpdateChannel" "lighting.IntensityUpdateChannel" 0x590054 [DV];
  UDecl "LampUpdateFlags" "lighting.LampUpdateFlags" 0x590055 [DV];
  UDecl "LampRangeUpdateReport" "lighting.LampRangeUpdateReport" 0x590060 [CL];
  UDecl "LampIdStart" "lighting.LampIdStart" 0x590061 [DV];
  UDecl "LampIdEnd" "lighting.LampIdEnd" 0x590062 [DV];
  UDecl "LampArrayControlReport" "lighting.LampArrayControlReport" 0x590070 [CL];
  UDecl "AutonomousMode" "lighting.AutonomousMode" 0x590071 [DV]
].

(* hrdc/usage/sensors.py:3-185 *)
Definition t_sensors : list udecl := [
  UDecl "Sensor" "sensors.Sensor" 0x200001 [CA; CP];
  UDecl "Biometric" "sensors.Biometric" 0x200010 [CA; CP];
  UDecl "BiometricHumanPresence" "sensors.BiometricHumanPresence" 0x200011 [CA; CP];
  UDecl "BiometricHumanProximity" "sensors.BiometricHumanProximity" 0x200012 [CA; CP];
  UDecl "BiometricHumanTouch" "sensors.BiometricHumanTouch" 0x200013 [CA; CP];
  UDecl "Electrical" "sensors.Electrical" 0x200020 [CA; CP];
  UDecl "ElectricalCapacitance" "sensors.ElectricalCapacitance" 0x200021 [CA; CP];
  UDecl "ElectricalCurrent" "sensors.ElectricalCurrent" 0x200022 [CA; CP];
  UDecl "ElectricalPower" "sensors.ElectricalPower" 0x200023 [CA; CP];
  UDecl "ElectricalInductance" "sensors.ElectricalInductance" 0x200024 [CA; CP];
  UDecl "ElectricalResistance" "sensors.ElectricalResistance" 0x200025 [CA; CP];
  UDecl "ElectricalVoltage" "sensors.ElectricalVoltage" 0x200026 [CA; CP];
  UDecl "ElectricalPotentiometer" "sensors.ElectricalPotentiometer" 0x200027 [CA; CP];
  UDecl "ElectricalFrequency" "sensors.ElectricalFrequency" 0x200028 [CA; CP];
  UDecl "ElectricalPeriod" "sensors.ElectricalPeriod" 0x200029 [CA; CP];
  UDecl "Environmental" "sensors.Environmental" 0x200030 [CA; CP];
  UDecl "EnvironmentalAtmosphericPressure" "sensors.EnvironmentalAtmosphericPressure" 0x200031 [CA; CP];
  UDecl "EnvironmentalHumidity" "sensors.EnvironmentalHumidity" 0x200032 [CA; CP];
  UDecl "EnvironmentalTemperature" "sensors.EnvironmentalTemperature" 0x200033 [CA; CP];
  UDecl "EnvironmentalWindDirection" "sensors.EnvironmentalWindDirection" 0x200034 [CA; CP];
  UDecl "EnvironmentalWindSpeed" "sensors.EnvironmentalWindSpeed" 0x200035 [CA; CP];
  UDecl "Light" "sensors.Light" 0x200040 [CA; CP];
  UDecl "LightAmbientLight" "sensors.LightAmbientLight" 0x200041 [CA; CP];
  UDecl "LightConsumerInfrared" "sensors.LightConsumerInfrared" 0x200042 [CA; CP];
  UDecl "Location" "sensors.Location" 0x200050 [CA; CP];
  UDecl "LocationBroadcast" "sensors.LocationBroadcast" 0x200051 [CA; CP];
  UDecl "LocationDeadReckoning" "sensors.LocationDeadReckoning" 0x200052 [CA; CP];
  UDecl "LocationGPS" "sensors.LocationGPS" 0x200053 [CA; CP];
  UDecl "LocationLookup" "sensors.LocationLookup" 0x200054 [CA; CP];
  UDecl "LocationOther" "sensors.LocationOther" 0x200055 [CA; CP];
  UDecl "LocationStatic" "sensors.LocationStatic" 0x200056 [CA; CP];
  UDecl "LocationTriangulation" "sensors.LocationTriangulation" 0x200057 [CA; CP];
  UDecl "Mechanical" "sensors.Mechanical" 0x200060 [CA; CP];
  UDecl "MechanicalBooleanSwitch" "sensors.MechanicalBooleanSwitch" 0x200061 [CA; CP];
  UDecl "MechanicalBooleanSwitchArray" "sensors.MechanicalBooleanSwitchArray" 0x200062 [CA; CP];
  UDecl "MechanicalMultivalueSwitch" "sensors.MechanicalMultivalueSwitch" 0x200063 [CA; CP];
  UDecl "MechanicalForce" "sensors.MechanicalForce" 0x200064 [CA; CP];
  UDecl "MechanicalPressure" "sensors.MechanicalPressure" 0x200065 [CA; CP];
  UDecl "MechanicalStrain" "sensors.MechanicalStrain" 0x200066 [CA; CP];
  UDecl "MechanicalWeight" "sensors.MechanicalWeight" 0x200067 [CA; CP];
  UDecl "MechanicalHapticVibrator" "sensors.MechanicalHapticVibrator" 0x200068 [CA; CP];
  UDecl "MechanicalHallEffectSwitch" "sensors.MechanicalHallEffectSwitch" 0x200069 [CA; CP];
  UDecl "Motion" "sensors.Motion" 0x200070 [CA; CP];
  UDecl "MotionAccelerometer1D" "sensors.MotionAccelerometer1D" 0x200071 [CA; CP];
  UDecl "MotionAccelerometer2D" "sensors.MotionAccelerometer2D" 0x200072 [CA; CP];
  UDecl "MotionAccelerometer3D" "sensors.MotionAccelerometer3D" 0x200073 [CA; CP];
  UDecl "MotionGyrometer1D" "sensors.MotionGyrometer1D" 0x200074 [CA; CP];
  UDecl "MotionGyrometer2D" "sensors.MotionGyrometer2D" 0x200075 [CA; CP];
  UDecl "MotionGyrometer3D" "sensors.MotionGyrometer3D" 0x200076 [CA; CP];
  UDecl "MotionMotionDetector" "sensors.MotionMotionDetector" 0x200077 [CA; CP];
  UDecl "MotionSpeedometer" "sensors.MotionSpeedometer" 0x200078 [CA; CP];
  UDecl "MotionAccelerometer" "sensors.MotionAccelerometer" 0x200079 [CA; CP];
  UDecl "MotionGyrometer" "sensors.MotionGyrometer" 0x20007a [CA; CP];
  UDecl "Orientation" "sensors.Orientation" 0x200080 [CA; CP];
  UDecl "OrientationCompass1D" "sensors.OrientationCompass1D" 0x200081 [CA; CP];
  UDecl "OrientationCompass2D" "sensors.OrientationCompass2D" 0x200082 [CA; CP];
  UDecl "OrientationCompass3D" "sensors.OrientationCompass3D" 0x200083 [CA; CP];
  UDecl "OrientationInclinometer1D" "sensors.OrientationInclinometer1D" 0x200084 [CA; CP];
  UDecl "OrientationInclinometer2D" "sensors.OrientationInclinometer2D" 0x200085 [CA; CP];
  UDecl "OrientationInclinometer3D" "sensors.OrientationInclinometer3D" 0x200086 [CA; CP];
  UDecl "OrientationDistance1D" "sensors.OrientationDistance1D" 0x200087 [CA; CP];
  UDecl "OrientationDistance2D" "sensors.OrientationDistance2D" 0x200088 [CA; CP];
  UDecl "OrientationDistance3D" "sensors.OrientationDistance3D" 0x200089 [CA; CP];
  UDecl "OrientationDeviceOrientation" "sensors.OrientationDeviceOrientation" 0x20008a [CA; CP];
  UDecl "OrientationCompass" "sensors.OrientationCompass" 0x20008b [CA; CP];
  UDecl "OrientationInclinometer" "sensors.OrientationInclinometer" 0x20008c [CA; CP];
  UDecl "OrientationDistance" "sensors.OrientationDistance" 0x20008d [CA; CP];
  UDecl "Scanner" "sensors.Scanner" 0x200090 [CA; CP];
  UDecl "ScannerBarcode" "sensors.ScannerBarcode" 0x200091 [CA; CP];
  UDecl "ScannerRFID" "sensors.ScannerRFID" 0x200092 [CA; CP];
  UDecl "ScannerNFC" "sensors.ScannerNFC" 0x200093 [CA; CP];
  UDecl "Time" "sensors.Time" 0x2000a0 [CA; CP];
  UDecl "TimeAlarmTimer" "sensors.TimeAlarmTimer" 0x2000a1 [CA; CP];
  UDecl "TimeRealTimeClock" "sensors.TimeRealTimeClock" 0x2000a2 [CA; CP];
  UDecl "Other" "sensors.Other" 0x2000e0 [CA; CP];
  UDecl "OtherCustom" "sensors.OtherCustom" 0x2000e1 [CA; CP];
  UDecl "OtherGeneric" "sensors.OtherGeneric" 0x2000e2 [CA; CP];
  UDecl "OtherGenericEnumerator" "sensors.OtherGenericEnumerator" 0x2000e3 [CA; CP];
  UDecl "Event" "sensors.Event" 0x200200 [];
  UDecl "EventSensorState" "sensors.EventSensorState" 0x200201 [NAry];
  UDecl "SensorStateUndefined" "sensors.SensorStateUndefined" 0x200800 [Sel];
  UDecl "SensorStateReady" "sensors.SensorStateReady" 0x200801 [Sel];
  UDecl "SensorStateNotAvailable" "sensors.SensorStateNotAvailable" 0x200802 [Sel];
  UDecl "SensorStateNoData" "sensors.SensorStateNoData" 0x200803 [Sel];
  UDecl "SensorStateInitializing" "sensors.SensorStateInitializing" 0x200804 [Sel];
  UDecl "SensorStateAccessDenied" "sensors.SensorStateAccessDenied" 0x200805 [Sel];
  UDecl "SensorStateError" "sensors.SensorStateError" 0x200806 [Sel];
  UDecl "EventSensorEvent" "sensors.EventSensorEvent" 0x200202 [NAry];
  UDecl "SensorEventUnknown" "sensors.SensorEventUnknown" 0x200810 [NAry];
  UDecl "SensorEventStateChanged" "sensors.SensorEventStateChanged" 0x200811 [NAry];
  UDecl "SensorEventPropertyChanged" "sensors.SensorEventPropertyChanged" 0x200812 [NAry];
  UDecl "SensorEventDataUpdated" "sensors.SensorEventDataUpdated" 0x200813 [NAry];
  UDecl "SensorEventPollResponse" "sensors.SensorEventPollResponse" 0x200814 [NAry];
  UDecl "SensorEventChangeSensitivity" "sensors.SensorEventChangeSensitivity" 0x200815 [NAry];
  UDecl "SensorEventRangeMaximumReached" "sensors.SensorEventRangeMaximumReached" 0x200816 [NAry];
  UDecl "SensorEventRangeMinimumReached" "sensors.SensorEventRangeMinimumReached" 0x200817 [NAry];
  UDecl "SensorEventHighThresholdCrossUpward" "sensors.SensorEventHighThresholdCrossUpward" 0x200818 [NAry];
  UDecl "SensorEventHighThresholdCrossDownward" "sensors.SensorEventHighThresholdCrossDownward" 0x200819 [NAry];
  UDecl "SensorEventLowThresholdCrossUpward" "sensors.SensorEventLowThresholdCrossUpward" 0x20081a [NAry];
  UDecl "SensorEventLowThresholdCrossDownward" "sensors.SensorEventLowThresholdCrossDownward" 0x20081b [NAry];
  UDecl "SensorEventZeroThresholdCrossUpward" "sensors.SensorEventZeroThresholdCrossUpward" 0x20081c [NAry];
  UDecl "SensorEventZeroThresholdCrossDownward" "sensors.SensorEventZeroThresholdCrossDownward" 0x20081d [NAry];
  UDecl "SensorEventPeriodExceeded" "sensors.SensorEventPeriodExceeded" 0x20081e [NAry];
  UDecl "SensorEventFrequencyExceeded" "sensors.SensorEventFrequencyExceeded" 0x20081f [NAry];
  UDecl "SensorEventComplexTrigger" "sensors.SensorEventComplexTrigger" 0x200820 [NAry];
  UDecl "Property" "sensors.Property" 0x200300 [];
  UDecl "PropertyFriendlyName" "sensors.PropertyFriendlyName" 0x200301 [SV];
  UDecl "PropertyPersistentUniqueID" "sensors.PropertyPersistentUniqueID" 0x200302 [DV];
  UDecl "PropertySensorStatus" "sensors.PropertySensorStatus" 0x200303 [DV];
  UDecl "PropertyMinimumReportInterval" "sensors.PropertyMinimumReportInterval" 0x200304 [SV];
  UDecl "PropertySensorManufacturer" "sensors.PropertySensorManufacturer" 0x200305 [SV];
  UDecl "PropertySensorModel" "sensors.PropertySensorModel" 0x200306 [SV];
  UDecl "PropertySensorSerialNumber" "sensors.PropertySensorSerialNumber" 0x200307 [SV];
  UDecl "PropertySensorDescription" "sensors.PropertySensorDescription" 0x200308 [SV];
  UDecl "PropertySensorConnectionType" "sensors.PropertySensorConnectionType" 0x200309 [NAry];
  UDecl "ConnectionTypePCIntegrated" "sensors.ConnectionTypePCIntegrated" 0x200830 [Sel];
  UDecl "ConnectionTypePCAttached" "sensors.ConnectionTypePCAttached" 0x200831 [Sel];
  UDecl "ConnectionTypePCExternal" "sensors.ConnectionTypePCExternal" 0x200832 [Sel];
  UDecl "PropertySensorDevicePath" "sensors.PropertySensorDevicePath" 0x20030a [DV];
  UDecl "PropertyHardwareRevision" "sensors.PropertyHardwareRevision" 0x20030b [SV];
  UDecl "PropertyFirmwareVersion" "sensors.PropertyFirmwareVersion" 0x20030c [SV];
  UDecl "PropertyReleaseDate" "sensors.PropertyReleaseDate" 0x20030d [SV];
  UDecl "PropertyReportInterval" "sensors.PropertyReportInterval" 0x20030e [DV];
  UDecl "PropertyChangeSensitivityAbsolute" "sensors.PropertyChangeSensitivityAbsolute" 0x20030f [DV];
  UDecl "PropertyChangeSensitivityPercentofRange" "sensors.PropertyChangeSensitivityPercentofRange" 0x200310 [DV];
  UDecl "PropertyChangeSensitivityPercentRelative" "sensors.PropertyChangeSensitivityPercentRelative" 0x200311 [DV];
  UDecl "PropertyAccuracy" "sensors.PropertyAccuracy" 0x200312 [DV];
  UDecl "PropertyResolution" "sensors.PropertyResolution" 0x200313 [DV];
  UDecl "PropertyMaximum" "sensors.PropertyMaximum" 0x200314 [DV];
  UDecl "PropertyMinimum" "sensors.PropertyMinimum" 0x200315 [DV];
  UDecl "PropertyReportingState" "sensors.PropertyReportingState" 0x200316 [NAry];
  UDecl "ReportingStateReportNoEvents" "sensors.ReportingStateReportNoEvents" 0x200840 [Sel];
  UDecl "ReportingStateReportAllEvents" "sensors.ReportingStateReportAllEvents" 0x200841 [Sel];
  UDecl "ReportingStateReportThresholdEvents" "sensors.ReportingStateReportThresholdEvents" 0x200842 [Sel];
  UDecl "ReportingStateWakeOnNoEvents" "sensors.ReportingStateWakeOnNoEvents" 0x200843 [Sel];
  UDecl "ReportingStateWakeOnAllEvents" "sensors.ReportingStateWakeOnAllEvents" 0x200844 [Sel];
  UDecl "ReportingStateWakeOnThresholdEvents" "sensors.ReportingStateWakeOnThresholdEvents" 0x200845 [Sel];
  UDecl "PropertySamplingRate" "sensors.PropertySamplingRate" 0x200317 [DV];
  UDecl "PropertyResponseCurve" "sensors.PropertyResponseCurve" 0x200318 [DV];
  UDecl "PropertyPowerState" "sensors.PropertyPowerState" 0x200319 [NAry];
  UDecl "PowerStateUndefined" "sensors.PowerStateUndefined" 0x200850 [Sel];
  UDecl "PowerStateD0FullPower" "sensors.PowerStateD0FullPower" 0x200851 [Sel];
  UDecl "PowerStateD1LowPower" "sensors.PowerStateD1LowPower" 0x200852 [Sel];
  UDecl "PowerStateD2StandbyPowerwithWakeup" "sensors.PowerStateD2StandbyPowerwithWakeup" 0x200853 [Sel];
  UDecl "PowerStateD3SleepwithWakeup" "sensors.PowerStateD3SleepwithWakeup" 0x200854 [Sel];
  UDecl "PowerStateD4PowerOff" "sensors.PowerStateD4PowerOff" 0x200855 [Sel];
  UDecl "DataFieldLocation" "sensors.DataFieldLocation" 0x200400 [SV];
  UDecl "DataFieldLocationReserved" "sensors.DataFieldLocationReserved" 0x200401 [];
  UDecl "DataFieldAltitudeAntennaSeaLevel" "sensors.DataFieldAltitudeAntennaSeaLevel" 0x200402 [SV];
  UDecl "DataFieldDifferentialReferenceStationID" "sensors.DataFieldDifferentialReferenceStationID" 0x200403 [SV];
  UDecl "DataFieldAltitudeEllipsoidError" "sensors.DataFieldAltitudeEllipsoidError" 0x200404 [SV];
  UDecl "DataFieldAltitudeEllipsoid" "sensors.DataFieldAltitudeEllipsoid" 0x200405 [SV];
  UDecl "DataFieldAltitudeSeaLevelError" "sensors.DataFieldAltitudeSeaLevelError" 0x200406 [SV];
  UDecl "DataFieldAltitudeSeaLevel" "sensors.DataFieldAltitudeSeaLevel" 0x200407 [SV];
  UDecl "DataFieldDifferentialGPSDataAge" "sensors.DataFieldDifferentialGPSDataAge" 0x200408 [SV];
  UDecl "DataFieldErrorRadius" "sensors.DataFieldErrorRadius" 0x200409 [SV];
  UDecl "DataFieldFixQuality" "sensors.DataFieldFixQuality" 0x20040a [NAry];
  UDecl "FixQualityNoFix" "sensors.FixQualityNoFix" 0x200870 [Sel];
  UDecl "FixQualityGPS" "sensors.FixQualityGPS" 0x200871 [Sel];
  UDecl "FixQualityDGPS" "sensors.FixQualityDGPS" 0x200872 [Sel];
  UDecl "DataFieldFixType" "sensors.DataFieldFixType" 0x20040b [NAry];
  UDecl "FixTypeNoFix" "sensors.FixTypeNoFix" 0x200880 [Sel];
  UDecl "FixTypeGPSSPSModeFixValid" "sensors.FixTypeGPSSPSModeFixValid" 0x200881 [Sel];
  UDecl "FixTypeDGPSSPSModeFixValid" "sensors.FixTypeDGPSSPSModeFixValid" 0x200882 [Sel];
  UDecl "FixTypeGPSPPSModeFixValid" "sensors.FixTypeGPSPPSModeFixValid" 0x200883 [Sel];
  UDecl "FixTypeRealTimeKinematic" "sensors.FixTypeRealTimeKinematic" 0x200884 [Sel];
  UDecl "FixTypeFloatRTK" "sensors.FixTypeFloatRTK" 0x200885 [Sel];
  UDecl "FixTypeEstimated" "sensors.FixTypeEstimated" 0x200886 [Sel];
  UDecl "FixTypeManualInputMode" "sensors.FixTypeManualInputMode" 0x200887 [Sel];
  UDecl "FixTypeSimulatorMode" "sensors.FixTypeSimulatorMode" 0x200888 [Sel];
  UDecl "DataFieldGeoidalSeparation" "sensors.DataFieldGeoidalSeparation" 0x20040c [SV];
  UDecl "DataFieldGPSOperationMode" "sensors.DataFieldGPSOperationMode" 0x20040d [NAry];
  UDecl "GPSOperationModeManual" "sensors.GPSOperationModeManual" 0x200890 [Sel];
  UDecl "GPSOperationModeAutomatic" "sensors.GPSOperationModeAutomatic" 0x200891 [Sel];
  UDecl "DataFieldGPSSelectionMode" "sensors.DataFieldGPSSelectionMode" 0x20040e [SV];
  UDecl "GPSSelectionModeAutonomous" "sensors.GPSSelectionModeAutonomous" 0x2008a0 [Sel];
  UDecl "GPSSelectionModeDGPS" "sensors.GPSSelectionModeDGPS" 0x2008a1 [Sel];
  UDecl "GPSSelectionModeEstimated" "sensors.GPSSelectionModeEstimated" 0x2008a2 [Sel];
  UDecl "GPSSelectionModeManualInput" "sensors.GPSSelectionModeManualInput" 0x2008a3 [Sel]
].

(* hrdc/usage/arcade.py:3-29 *)
Definition t_arcade : list udecl := [
  UDecl "GeneralPurposeIOCard" "arcade.GeneralPurposeIOCard" 0xff000001 [CA];
  UDecl "CoinDoor" "arcade.CoinDoor" 0xff000002 [CA];
  UDecl "WatchdogTimer" "arcade.WatchdogTimer" 0xff000003 [CA];
  UDecl "GeneralPurposeAnalogInputState" "arcade.GeneralPurposeAnalogInputState" 0xff000030 [DV];
  UDecl "GeneralPurposeDigitalInputState" "arcade.GeneralPurposeDigitalInputState" 0xff000031 [DV];
  UDecl "GeneralPurposeOpticalInputState" "arcade.GeneralPurposeOpticalInputState" 0xff000032 [DV];
  UDecl "GeneralPurposeDigitalOutputState" "arcade.GeneralPurposeDigitalOutputState" 0xff000033 [DV];
  UDecl "NumberofCoinDoors" "arcade.NumberofCoinDoors" 0xff000034 [DV];
  UDecl "CoinDrawerDropCount" "arcade.CoinDrawerDropCount" 0xff000035 [DV];
  UDecl "CoinDrawerStart" "arcade.CoinDrawerStart" 0xff000036 [OOC];
  UDecl "CoinDrawerService" "arcade.CoinDrawerService" 0xff000037 [OOC];
  UDecl "CoinDrawerTilt" "arcade.CoinDrawerTilt" 0xff000038 [OOC];
  UDecl "CoinDoorTest" "arcade.CoinDoorTest" 0xff000039 [OOC];
  UDecl "CoinDoorLockout" "arcade.CoinDoorLockout" 0xff000040 [OOC];
  UDecl "WatchdogTimeout" "arcade.WatchdogTimeout" 0xff000041 [DV];
  UDecl "WatchdogAction" "arcade.WatchdogAction" 0xff000042 [NAry];
  UDecl "WatchdogReboot" "arcade.WatchdogReboot" 0xff000043 [Sel];
  UDecl "WatchdogRestart" "arcade.WatchdogRestart" 0xff000044 [Sel];
  UDecl "AlarmInput" "arcade.AlarmInput" 0xff000045 [DV];
  UDecl "CoinDoorCounter" "arcade.CoinDoorCounter" 0xff000046 [OOC];
  UDecl "IODirectionMapping" "arcade.IODirectionMapping" 0xff000047 [DV];
  UDecl "SetIODirection" "arcade.SetIODirection" 0xff000048 [OOC];
  UDecl "ExtendedOpticalInputState" "arcade.ExtendedOpticalInputState" 0xff000049 [DV];
  UDecl "PinPadInputState" "arcade.PinPadInputState" 0xff00004a [DV];
  UDecl "PinPadStatus" "arcade.PinPadStatus" 0xff00004b [DV];
  UDecl "PinPadOutput" "arcade.PinPadOutput" 0xff00004c [OOC];
  UDecl "PinPadCommand" "arcade.PinPadCommand" 0xff00004d [DV]
].
