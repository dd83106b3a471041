(* HutSpec.v -- numbers of the HID Usage Tables (usb.org, 1.12 to 1.21).

   Written down from memory of the standard, not from /repo: only the spelling
   of the names is hrdc's.  For each page, runs of consecutive usages with the number of
   the first one.  The player usages of the LED page, which came after 1.12,
   are left out. *)
From Coq Require Import ZArith List String.
Import ListNotations.
Local Open Scope string_scope.
Local Open Scope Z_scope.

(** module of hrdc, page number, runs *)
Definition hut : list (string * (Z * list (Z * list string))) := [
  ("desktop", (0x01, [
   (0x01, [
    "Pointer"; "Mouse"]);
   (0x04, [
    "Joystick"; "Gamepad"; "Keyboard"; "Keypad"; "MultiAxisCtrl"; "TabletPCSystem"]);
   (0x0c, [
    "WirelessRadioControls"; "PortableDeviceControl"]);
   (0x30, [
    "X"; "Y"; "Z"; "Rx"; "Ry"; "Rz"; "Slider"; "Dial"; "Wheel"; "HatSwitch"; "CountedBuffer";
    "ByteCount"; "MotionWakeup"; "Start"; "Select"]);
   (0x40, [
    "Vx"; "Vy"; "Vz"; "Vbrx"; "Vbry"; "Vbrz"; "Vno"; "FeatureNotification"; "ResolutionMultiplier"]);
   (0x80, [
    "SysControl"; "SysPowerDown"; "SysSleep"; "SysWakeUp"; "SysContextMenu"; "SysMainMenu";
    "SysAppMenu"; "SysMenuHelp"; "SysMenuExit"; "SysMenuSelect"; "SysMenuRight"; "SysMenuLeft";
    "SysMenuUp"; "SysMenuDown"; "SysColdRestart"; "SysWarmRestart"]);
   (0x90, [
    "DPadUp"; "DPadDown"; "DPadRight"; "DPadLeft"]);
   (0xa0, [
    "SysDock"; "SysUndock"; "SysSetup"; "SysBreak"; "SysDbgrBreak"; "AppBreak"; "AppDbgrBreak";
    "SysSpeakerMute"; "SysHibernate"]);
   (0xb0, [
    "SysDsplInvert"; "SysDsplInternal"; "SysDsplExternal"; "SysDsplBoth"; "SysDsplDual";
    "SysDsplToggleIntExt"; "SysDsplSwap12"; "SysDsplLcdAutoscale"]);
   (0xc6, [
    "WirelessRadioButton"; "WirelessRadioLed"; "WirelessRadioSliderSwitch";
    "SystemDisplayRotationLockButton"; "SystemDisplayRotationLockSliderSwitch"; "ControlEnable"])]));
  ("simulation", (0x02, [
   (0x01, [
    "FlightSimulationDevice"; "AutomobileSimulationDevice"; "TankSimulationDevice";
    "SpaceshipSimulationDevice"; "SubmarineSimulationDevice"; "SailingSimulationDevice";
    "MotorcycleSimulationDevice"; "SportsSimulationDevice"; "AirplaneSimulationDevice";
    "HelicopterSimulationDevice"; "MagicCarpetSimulationDevice"; "BicycleSimulationDevice"]);
   (0x20, [
    "FlightControlStick"; "FlightStick"; "CyclicControl"; "CyclicTrim"; "FlightYoke"; "TrackControl"]);
   (0xb0, [
    "Aileron"; "AileronTrim"; "AntiTorqueControl"; "AutopilotEnable"; "ChaffRelease";
    "CollectiveControl"; "DiveBrake"; "ElectronicCountermeasures"; "Elevator"; "ElevatorTrim";
    "Rudder"; "Throttle"; "FlightCommunications"; "FlareRelease"; "LandingGear"; "ToeBrake";
    "Trigger"; "WeaponsArm"; "WeaponsSelect"; "WingFlaps"; "Accelerator"; "Brake"; "Clutch";
    "Shifter"; "Steering"; "TurretDirection"; "BarrelElevation"; "DivePlane"; "Ballast";
    "BicycleCrank"; "HandleBars"; "FrontBrake"; "RearBrake"])]));
  ("vr", (0x03, [
   (0x01, [
    "Belt"; "BodySuit"; "Flexor"; "Glove"; "HeadTracker"; "HeadMountedDisplay"; "HandTracker";
    "Oculometer"; "Vest"; "AnimatronicDevice"]);
   (0x20, [
    "StereoEnable"; "DisplayEnable"])]));
  ("game", (0x05, [
   (0x01, [
    "ThreeDGameController"; "PinballDevice"; "GunDevice"]);
   (0x20, [
    "PointofView"; "TurnRightLeft"; "PitchForwardBackward"; "RollRightLeft"; "MoveRightLeft";
    "MoveForwardBackward"; "MoveUpDown"; "LeanRightLeft"; "LeanForwardBackward"; "HeightofPOV";
    "Flipper"; "SecondaryFlipper"; "Bump"; "NewGame"; "ShootBall"; "Player"; "GunBolt"; "GunClip";
    "GunSelector"; "GunSingleShot"; "GunBurst"; "GunAutomatic"; "GunSafety"; "GamepadFireJump"]);
   (0x39, [
    "GamepadTrigger"])]));
  ("device", (0x06, [
   (0x20, [
    "BatteryStrength"; "WirelessChannel"; "WirelessID"; "DiscoverWirelessControl";
    "SecurityCodeCharacterEntered"; "SecurityCodeCharacterErased"; "SecurityCodeCleared"])]));
  ("keyboard", (0x07, [
   (0x00, [
    "NoEvent"; "Rollover"; "Postfail"; "Undefined"; "A"; "B"; "C"; "D"; "E"; "F"; "G"; "H"; "I";
    "J"; "K"; "L"; "M"; "N"; "O"; "P"; "Q"; "R"; "S"; "T"; "U"; "V"; "W"; "X"; "Y"; "Z";
    "OneAndExclam"; "TwoAndAt"; "ThreeAndNumber"; "FourAndDollar"; "FiveAndPercent"; "SixAndCaret";
    "SevenAndAmp"; "EightAndStar"; "NineAndLeftParen"; "ZeroAndRightParen"; "ReturnEnter"; "Escape";
    "DeleteBackspace"; "Tab"; "Spacebar"; "MinusAndUnderscore"; "EqualAndPlus";
    "LeftBoxAndLeftCurly"; "RightBoxAndRightCurly"; "BackslashAndPipe"; "NonUsNumberAndTilde";
    "SemicolonAndColon"; "QuotAndDoubleQuot"; "GraveAccentAndTilde"; "CommaAndLt"; "PeriodAndGt";
    "SlashAndQuestion"; "CapsLock"]);
   (0x3a, [
    "F1"; "F2"; "F3"; "F4"; "F5"; "F6"; "F7"; "F8"; "F9"; "F10"; "F11"; "F12"; "PrintScreen";
    "ScrollLock"; "Pause"; "Insert"; "Home"; "Pageup"; "DeleteForward"; "End"; "Pagedown";
    "Rightarrow"; "Leftarrow"; "Downarrow"; "Uparrow"]);
   (0x53, [
    "KeypadNumLockAndClear"; "KeypadSlash"; "KeypadStar"; "KeypadMinus"; "KeypadPlus";
    "KeypadEnter"; "Keypad1AndEnd"; "Keypad2AndDownArrow"; "Keypad3AndPagedn";
    "Keypad4AndLeftArrow"; "Keypad5"; "Keypad6AndRightArrow"; "Keypad7AndHome"; "Keypad8AndUpArrow";
    "Keypad9AndPageup"; "Keypad0AndInsert"; "KeypadPointAndDelete"; "NonUsBackslashAndPipe";
    "Application"; "Power"; "KeypadEqual"]);
   (0x68, [
    "F13"; "F14"; "F15"; "F16"; "F17"; "F18"; "F19"; "F20"; "F21"; "F22"; "F23"; "F24"; "Execute";
    "Help"; "Menu"; "Select"; "Stop"; "Again"; "Undo"; "Cut"; "Copy"; "Paste"; "Find"; "Mute";
    "VolumeUp"; "VolumeDown"; "LockingCapsLock"; "LockingNumLock"; "LockingScrollLock";
    "KeypadComma"; "KeypadEqualAs400"]);
   (0x87, [
    "International1"; "International2"; "International3"; "International4"; "International5";
    "International6"; "International7"; "International8"; "International9"; "Lang1"; "Lang2";
    "Lang3"; "Lang4"; "Lang5"; "Lang6"; "Lang7"; "Lang8"; "Lang9"; "AlternateErase"; "SysreqAttn";
    "Cancel"; "Clear"; "Prior"; "Return"; "Separator"; "Out"; "Oper"; "ClearAgain"; "CrselProps";
    "Exsel"]);
   (0xb0, [
    "Keypad00"; "Keypad000"; "ThousandsSeparator"; "DecimalSeparator"; "CurrencyUnit";
    "CurrencySubMinusUnit"; "KeypadLeftParen"; "KeypadRightParen"; "KeypadLeftCurly";
    "KeypadRightCurly"; "KeypadTab"; "KeypadBackspace"; "KeypadA"; "KeypadB"; "KeypadC"; "KeypadD";
    "KeypadE"; "KeypadF"; "KeypadXor"; "KeypadCaret"; "KeypadPercent"; "KeypadLt"; "KeypadGt";
    "KeypadAmp"; "KeypadAmpAmp"; "KeypadPipe"; "KeypadPipePipe"; "KeypadColon"; "KeypadNumber";
    "KeypadSpace"; "KeypadAt"; "KeypadExclam"]);
   (0xd0, [
    "KeypadMemoryStore"; "KeypadMemoryRecall"; "KeypadMemoryClear"; "KeypadMemoryAdd";
    "KeypadMemorySubtract"; "KeypadMemoryMultiply"; "KeypadMemoryDivide"; "KeypadPlusMinus";
    "KeypadClear"; "KeypadClearEntry"; "KeypadBinary"; "KeypadOctal"; "KeypadDecimal";
    "KeypadHexadecimal"]);
   (0xe0, [
    "LeftControl"; "LeftShift"; "LeftAlt"; "LeftGui"; "RightControl"; "RightShift"; "RightAlt";
    "RightGui"])]));
  ("led", (0x08, [
   (0x01, [
    "NumLock"; "CapsLock"; "ScrollLock"; "Compose"; "Kana"; "Power"; "Shift"; "DoNotDisturb";
    "Mute"; "ToneEnable"; "HighCutFilter"; "LowCutFilter"; "EqualizerEnable"; "SoundFieldOn";
    "SurroundOn"; "Repeat"; "Stereo"; "SamplingRateDetect"; "Spinning"; "CAV"; "CLV";
    "RecordingFormatDetect"; "OffHook"; "Ring"; "MessageWaiting"; "DataMode"; "BatteryOperation";
    "BatteryOK"; "BatteryLow"; "Speaker"; "HeadSet"; "Hold"; "Microphone"; "Coverage"; "NightMode";
    "SendCalls"; "CallPickup"; "Conference"; "StandBy"; "CameraOn"; "CameraOff"; "OnLine";
    "OffLine"; "Busy"; "Ready"; "PaperOut"; "PaperJam"; "Remote"; "Forward"; "Reverse"; "Stop";
    "Rewind"; "FastForward"; "Play"; "Pause"; "Record"; "Error"; "UsageSelectedIndicator";
    "UsageInUseIndicator"; "UsageMultiModeIndicator"; "IndicatorOn"; "IndicatorFlash";
    "IndicatorSlowBlink"; "IndicatorFastBlink"; "IndicatorOff"; "FlashOnTime"; "SlowBlinkOnTime";
    "SlowBlinkOffTime"; "FastBlinkOnTime"; "FastBlinkOffTime"; "UsageIndicatorColor";
    "IndicatorRed"; "IndicatorGreen"; "IndicatorAmber"; "GenericIndicator"; "SystemSuspend";
    "ExternalPowerConnected"])]));
  ("telephony", (0x0b, [
   (0x01, [
    "Phone"; "AnsweringMachine"; "MessageControls"; "Handset"; "Headset"; "TelephonyKeyPad";
    "ProgrammableButton"]);
   (0x20, [
    "HookSwitch"; "Flash"; "Feature"; "Hold"; "Redial"; "Transfer"; "Drop"; "Park"; "ForwardCalls";
    "AlternateFunction"; "Line"; "SpeakerPhone"; "Conference"; "RingEnable"; "RingSelect";
    "PhoneMute"; "CallerID"]);
   (0x50, [
    "SpeedDial"; "StoreNumber"; "RecallNumber"; "PhoneDirectory"]);
   (0x70, [
    "VoiceMail"; "ScreenCalls"; "DoNotDisturb"; "Message"; "AnswerOnOff"]);
   (0x90, [
    "InsideDialTone"; "OutsideDialTone"; "InsideRingTone"; "OutsideRingTone"; "PriorityRingTone";
    "InsideRingback"; "PriorityRingback"; "LineBusyTone"; "ReorderTone"; "CallWaitingTone";
    "ConfirmationTone1"; "ConfirmationTone2"; "TonesOff"; "OutsideRingback"; "Ringer"]);
   (0xb0, [
    "PhoneKey0"; "PhoneKey1"; "PhoneKey2"; "PhoneKey3"; "PhoneKey4"; "PhoneKey5"; "PhoneKey6";
    "PhoneKey7"; "PhoneKey8"; "PhoneKey9"; "PhoneKeyStar"; "PhoneKeyPound"; "PhoneKeyA";
    "PhoneKeyB"; "PhoneKeyC"; "PhoneKeyD"])]));
  ("consumer", (0x0c, [
   (0x01, [
    "ConsumerControl"; "NumericKeyPad"; "ProgrammableButtons"; "Microphone"; "Headphone";
    "GraphicEqualizer"]);
   (0x20, [
    "Plus10"; "Plus100"; "AmPm"]);
   (0x30, [
    "Power"; "Reset"; "Sleep"; "SleepAfter"; "SleepMode"; "Illumination"; "FunctionButtons"]);
   (0x40, [
    "Menu"; "MenuPick"; "MenuUp"; "MenuDown"; "MenuLeft"; "MenuRight"; "MenuEscape";
    "MenuValueIncrease"; "MenuValueDecrease"]);
   (0x60, [
    "DataOnScreen"; "ClosedCaption"; "ClosedCaptionSelect"; "VcrTv"; "BroadcastMode"; "Snapshot";
    "Still"; "PipToggle"; "PipSwap"; "Red"; "Green"; "Blue"; "Yellow"; "Aspect"; "ThreeDMode";
    "DisplayBrightnessIncrement"; "DisplayBrightnessDecrement"; "DisplayBrightness";
    "DisplayBacklightToggle"; "DisplaySetBrightnesstoMinimum"; "DisplaySetBrightnesstoMaximum";
    "DisplaySetAutoBrightness"]);
   (0x80, [
    "Selection"; "AssignSelection"; "ModeStep"; "RecallLast"; "EnterChannel"; "OrderMovie";
    "Channel"; "MediaSelection"; "MediaSelectComputer"; "MediaSelectTv"; "MediaSelectWww";
    "MediaSelectDvd"; "MediaSelectTelephone"; "MediaSelectProgramGuide"; "MediaSelectVideoPhone";
    "MediaSelectGames"; "MediaSelectMessages"; "MediaSelectCd"; "MediaSelectVcr";
    "MediaSelectTuner"; "Quit"; "Help"; "MediaSelectTape"; "MediaSelectCable";
    "MediaSelectSatellite"; "MediaSelectSecurity"; "MediaSelectHome"; "MediaSelectCall";
    "ChannelIncrement"; "ChannelDecrement"; "MediaSelectSap"]);
   (0xa0, [
    "VcrPlus"; "Once"; "Daily"; "Weekly"; "Monthly"]);
   (0xb0, [
    "Play"; "Pause"; "Record"; "FastForward"; "Rewind"; "ScanNextTrack"; "ScanPreviousTrack";
    "Stop"; "Eject"; "RandomPlay"; "SelectDisc"; "EnterDisc"; "Repeat"; "Tracking"; "TrackNormal";
    "SlowTracking"; "FrameForward"; "FrameBack"; "Mark"; "ClearMark"; "RepeatFromMark";
    "ReturnToMark"; "SearchMarkForward"; "SearchMarkBackwards"; "CounterReset"; "ShowCounter";
    "TrackingIncrement"; "TrackingDecrement"; "StopEject"; "PlayPause"; "PlaySkip"; "VoiceCommand"]);
   (0xe0, [
    "Volume"; "Balance"; "Mute"; "Bass"; "Treble"; "BassBoost"; "SurroundMode"; "Loudness"; "Mpx";
    "VolumeIncrement"; "VolumeDecrement"]);
   (0xf0, [
    "SpeedSelect"; "PlaybackSpeed"; "StandardPlay"; "LongPlay"; "ExtendedPlay"; "Slow"]);
   (0x100, [
    "FanEnable"; "FanSpeed"; "LightEnable"; "LightIlluminationLevel"; "ClimateControlEnable";
    "RoomTemperature"; "SecurityEnable"; "FireAlarm"; "PoliceAlarm"; "Proximity"; "Motion";
    "DuressAlarm"; "HoldupAlarm"; "MedicalAlarm"]);
   (0x150, [
    "BalanceRight"; "BalanceLeft"; "BassIncrement"; "BassDecrement"; "TrebleIncrement";
    "TrebleDecrement"]);
   (0x160, [
    "SpeakerSystem"; "ChannelLeft"; "ChannelRight"; "ChannelCenter"; "ChannelFront";
    "ChannelCenterFront"; "ChannelSide"; "ChannelSurround"; "ChannelLowFrequencyEnhancement";
    "ChannelTop"; "ChannelUnknown"]);
   (0x170, [
    "SubChannel"; "SubChannelIncrement"; "SubChannelDecrement"; "AlternateAudioIncrement";
    "AlternateAudioDecrement"]);
   (0x180, [
    "ApplicationLaunchButtons"; "AlLaunchButtonConfigurationTool";
    "AlProgrammableButtonConfiguration"; "AlConsumerControlConfiguration"; "AlWordProcessor";
    "AlTextEditor"; "AlSpreadsheet"; "AlGraphicsEditor"; "AlPresentationApp"; "AlDatabaseApp";
    "AlEmailReader"; "AlNewsreader"; "AlVoicemail"; "AlContactsAddressBook"; "AlCalendarSchedule";
    "AlTaskProjectManager"; "AlLogJournalTimecard"; "AlCheckbookFinance"; "AlCalculator";
    "AlAVCapturePlayback"; "AlLocalMachineBrowser"; "AlLanWanBrowser"; "AlInternetBrowser";
    "AlRemoteNetworkingIspConnect"; "AlNetworkConference"; "AlNetworkChat"; "AlTelephonyDialer";
    "AlLogon"; "AlLogoff"; "AlLogonLogoff"; "AlTerminalLockScreensaver"; "AlControlPanel";
    "AlCommandLineProcessorRun"; "AlProcessTaskManager"; "AlSelectTaskApplication";
    "AlNextTaskApplication"; "AlPreviousTaskApplication"; "AlPreemptiveHaltTaskApplication";
    "AlIntegratedHelpCenter"; "AlDocuments"; "AlThesaurus"; "AlDictionary"; "AlDesktop";
    "AlSpellCheck"; "AlGrammarCheck"; "AlWirelessStatus"; "AlKeyboardLayout"; "AlVirusProtection";
    "AlEncryption"; "AlScreenSaver"; "AlAlarms"; "AlClock"; "AlFileBrowser"; "AlPowerStatus";
    "AlImageBrowser"; "AlAudioBrowser"; "AlMovieBrowser"; "AlDigitalRightsManager";
    "AlDigitalWallet"]);
   (0x1bc, [
    "AlInstantMessaging"; "AlOemFeaturesTipsTutorialBrowser"; "AlOemHelp"; "AlOnlineCommunity";
    "AlEntertainmentContentBrowser"; "AlOnlineShoppingBrowser"; "AlSmartcardInformationHelp";
    "AlMarketMonitorFinanceBrowser"; "AlCustomizedCorporateNewsBrowser"; "AlOnlineActivityBrowser";
    "AlResearchSearchBrowser"; "AlAudioPlayer"]);
   (0x200, [
    "GenericGuiApplicationControls"; "AcNew"; "AcOpen"; "AcClose"; "AcExit"; "AcMaximize";
    "AcMinimize"; "AcSave"; "AcPrint"; "AcProperties"]);
   (0x21a, [
    "AcUndo"; "AcCopy"; "AcCut"; "AcPaste"; "AcSelectAll"; "AcFind"; "AcFindAndReplace"; "AcSearch";
    "AcGoTo"; "AcHome"; "AcBack"; "AcForward"; "AcStop"; "AcRefresh"; "AcPreviousLink";
    "AcNextLink"; "AcBookmarks"; "AcHistory"; "AcSubscriptions"; "AcZoomIn"; "AcZoomOut"; "AcZoom";
    "AcFullScreenView"; "AcNormalView"; "AcViewToggle"; "AcScrollUp"; "AcScrollDown"; "AcScroll";
    "AcPanLeft"; "AcPanRight"; "AcPan"; "AcNewWindow"; "AcTileHorizontally"; "AcTileVertically";
    "AcFormat"; "AcEdit"; "AcBold"; "AcItalics"; "AcUnderline"; "AcStrikethrough"; "AcSubscript";
    "AcSuperscript"; "AcAllCaps"; "AcRotate"; "AcResize"; "AcFlipHorizontal"; "AcFlipVertical";
    "AcMirrorHorizontal"; "AcMirrorVertical"; "AcFontSelect"; "AcFontColor"; "AcFontSize";
    "AcJustifyLeft"; "AcJustifyCenterH"; "AcJustifyRight"; "AcJustifyBlockH"; "AcJustifyTop";
    "AcJustifyCenterV"; "AcJustifyBottom"; "AcJustifyBlockV"; "AcIndentDecrease";
    "AcIndentIncrease"; "AcNumberedList"; "AcRestartNumbering"; "AcBulletedList"; "AcPromote";
    "AcDemote"; "AcYes"; "AcNo"; "AcCancel"; "AcCatalog"; "AcBuyCheckout"; "AcAddToCart";
    "AcExpand"; "AcExpandAll"; "AcCollapse"; "AcCollapseAll"; "AcPrintPreview"; "AcPasteSpecial";
    "AcInsertMode"; "AcDelete"; "AcLock"; "AcUnlock"; "AcProtect"; "AcUnprotect"; "AcAttachComment";
    "AcDeleteComment"; "AcViewComment"; "AcSelectWord"; "AcSelectSentence"; "AcSelectParagraph";
    "AcSelectColumn"; "AcSelectRow"; "AcSelectTable"; "AcSelectObject"; "AcRedoRepeat"; "AcSort";
    "AcSortAscending"; "AcSortDescending"; "AcFilter"; "AcSetClock"; "AcViewClock";
    "AcSelectTimeZone"; "AcEditTimeZones"; "AcSetAlarm"; "AcClearAlarm"; "AcSnoozeAlarm";
    "AcResetAlarm"; "AcSynchronize"; "AcSendReceive"; "AcSendTo"; "AcReply"; "AcReplyAll";
    "AcForwardMsg"; "AcSend"; "AcAttachFile"; "AcUpload"; "AcDownload"; "AcSetBorders";
    "AcInsertRow"; "AcInsertColumn"; "AcInsertFile"; "AcInsertPicture"; "AcInsertObject";
    "AcInsertSymbol"; "AcSaveAndClose"; "AcRename"; "AcMerge"; "AcSplit"; "AcDisributeHorizontally";
    "AcDistributeVertically"]);
   (0x2c0, [
    "ExtendedKeyboardAttributesCollection"; "KeyboardFormFactor"; "KeyboardKeyType";
    "KeyboardPhysicalLayout"; "VendorSpecificKeyboardPhysicalLayout";
    "KeyboardIETFLanguageTagIndex"; "ImplementedKeyboardInputAssistControls";
    "KeyboardInputAssistPrevious"; "KeyboardInputAssistNext"; "KeyboardInputAssistPreviousGroup";
    "KeyboardInputAssistNextGroup"; "KeyboardInputAssistAccept"; "KeyboardInputAssistCancel"])]));
  ("digitizers", (0x0d, [
   (0x01, [
    "Digitizer"; "Pen"; "LightPen"; "TouchScreen"; "TouchPad"; "WhiteBoard";
    "CoordinateMeasuringMachine"; "ThreeDDigitizer"; "StereoPlotter"; "ArticulatedArm"; "Armature";
    "MultiplePointDigitizer"; "FreeSpaceWand"; "Deviceconfiguration"]);
   (0x20, [
    "Stylus"; "Puck"; "Finger"; "Devicesettings"]);
   (0x30, [
    "TipPressure"; "BarrelPressure"; "InRange"; "Touch"; "Untouch"; "Tap"; "Quality"; "DataValid";
    "TransducerIndex"; "TabletFunctionKeys"; "ProgramChangeKeys"; "BatteryStrength"; "Invert";
    "XTilt"; "YTilt"; "Azimuth"; "Altitude"; "Twist"; "TipSwitch"; "SecondaryTipSwitch";
    "BarrelSwitch"; "Eraser"; "TabletPick"; "TouchValid"; "Width"; "Height"]);
   (0x51, [
    "Contactidentifier"; "Devicemode"; "Deviceidentifier"; "Contactcount"; "Contactcountmaximum"]);
   (0x5a, [
    "SecondaryBarrelSwitch"; "TransducerSerialNumber"; "PreferredColor"])]));
  ("pid", (0x0f, [
   (0x01, [
    "PhysicalInterfaceDevice"]);
   (0x20, [
    "Normal"; "SetEffectReport"; "EffectBlockIndex"; "ParameterBlockOffset"; "ROMFlag";
    "EffectType"; "ETConstantForce"; "ETRamp"; "ETCustomForceData"]);
   (0x30, [
    "ETSquare"; "ETSine"; "ETTriangle"; "ETSawtoothUp"; "ETSawtoothDown"]);
   (0x40, [
    "ETSpring"; "ETDamper"; "ETInertia"; "ETFriction"]);
   (0x50, [
    "Duration"; "SamplePeriod"; "Gain"; "TriggerButton"; "TriggerRepeatInterval"; "AxesEnable";
    "DirectionEnable"; "Direction"; "TypeSpecificBlockOffset"; "BlockType"; "SetEnvelopeReport";
    "AttackLevel"; "AttackTime"; "FadeLevel"; "FadeTime"; "SetConditionReport"; "CPOffset";
    "PositiveCoefficient"; "NegativeCoefficient"; "PositiveSaturation"; "NegativeSaturation";
    "DeadBand"; "DownloadForceSample"; "IsochCustomForceEnable"; "CustomForceDataReport";
    "CustomForceData"; "CustomForceVendorDefinedData"; "SetCustomForceReport";
    "CustomForceDataOffset"; "SampleCount"; "SetPeriodicReport"; "Offset"; "Magnitude"; "Phase";
    "Period"; "SetConstantForceReport"; "SetRampForceReport"; "RampStart"; "RampEnd";
    "EffectOperationReport"; "EffectOperation"; "OpEffectStart"; "OpEffectStartSolo";
    "OpEffectStop"; "LoopCount"; "DeviceGainReport"; "DeviceGain"; "PoolReport"; "RAMPoolSize";
    "ROMPoolSize"; "ROMEffectBlockCount"; "SimultaneousEffectsMax"; "PoolAlignment";
    "PoolMoveReport"; "MoveSource"; "MoveDestination"; "MoveLength"; "BlockLoadReport"]);
   (0x8b, [
    "BlockLoadStatus"; "BlockLoadSuccess"; "BlockLoadFull"; "BlockLoadError"; "BlockHandle";
    "BlockFreeReport"; "TypeSpecificBlockHandle"; "StateReport"]);
   (0x94, [
    "EffectPlaying"; "DeviceControlReport"; "DeviceControl"; "DCEnableActuators";
    "DCDisableActuators"; "DCStopAllEffects"; "DCDeviceReset"; "DCDevicePause"; "DCDeviceContinue"]);
   (0x9f, [
    "DevicePaused"; "ActuatorsEnabled"]);
   (0xa4, [
    "SafetySwitch"; "ActuatorOverrideSwitch"; "ActuatorPower"; "StartDelay"; "ParameterBlockSize";
    "DeviceManagedPool"; "SharedParameterBlocks"; "CreateNewEffectReport"; "RAMPoolAvailable"])]));
  ("sensors", (0x20, [
   (0x01, [
    "Sensor"]);
   (0x10, [
    "Biometric"; "BiometricHumanPresence"; "BiometricHumanProximity"; "BiometricHumanTouch"]);
   (0x20, [
    "Electrical"; "ElectricalCapacitance"; "ElectricalCurrent"; "ElectricalPower";
    "ElectricalInductance"; "ElectricalResistance"; "ElectricalVoltage"; "ElectricalPotentiometer";
    "ElectricalFrequency"; "ElectricalPeriod"]);
   (0x30, [
    "Environmental"; "EnvironmentalAtmosphericPressure"; "EnvironmentalHumidity";
    "EnvironmentalTemperature"; "EnvironmentalWindDirection"; "EnvironmentalWindSpeed"]);
   (0x40, [
    "Light"; "LightAmbientLight"; "LightConsumerInfrared"]);
   (0x50, [
    "Location"; "LocationBroadcast"; "LocationDeadReckoning"; "LocationGPS"; "LocationLookup";
    "LocationOther"; "LocationStatic"; "LocationTriangulation"]);
   (0x60, [
    "Mechanical"; "MechanicalBooleanSwitch"; "MechanicalBooleanSwitchArray";
    "MechanicalMultivalueSwitch"; "MechanicalForce"; "MechanicalPressure"; "MechanicalStrain";
    "MechanicalWeight"; "MechanicalHapticVibrator"; "MechanicalHallEffectSwitch"]);
   (0x70, [
    "Motion"; "MotionAccelerometer1D"; "MotionAccelerometer2D"; "MotionAccelerometer3D";
    "MotionGyrometer1D"; "MotionGyrometer2D"; "MotionGyrometer3D"; "MotionMotionDetector";
    "MotionSpeedometer"; "MotionAccelerometer"; "MotionGyrometer"]);
   (0x80, [
    "Orientation"; "OrientationCompass1D"; "OrientationCompass2D"; "OrientationCompass3D";
    "OrientationInclinometer1D"; "OrientationInclinometer2D"; "OrientationInclinometer3D";
    "OrientationDistance1D"; "OrientationDistance2D"; "OrientationDistance3D";
    "OrientationDeviceOrientation"; "OrientationCompass"; "OrientationInclinometer";
    "OrientationDistance"]);
   (0x90, [
    "Scanner"; "ScannerBarcode"; "ScannerRFID"; "ScannerNFC"]);
   (0xa0, [
    "Time"; "TimeAlarmTimer"; "TimeRealTimeClock"]);
   (0xe0, [
    "Other"; "OtherCustom"; "OtherGeneric"; "OtherGenericEnumerator"]);
   (0x200, [
    "Event"; "EventSensorState"; "EventSensorEvent"]);
   (0x300, [
    "Property"; "PropertyFriendlyName"; "PropertyPersistentUniqueID"; "PropertySensorStatus";
    "PropertyMinimumReportInterval"; "PropertySensorManufacturer"; "PropertySensorModel";
    "PropertySensorSerialNumber"; "PropertySensorDescription"; "PropertySensorConnectionType";
    "PropertySensorDevicePath"; "PropertyHardwareRevision"; "PropertyFirmwareVersion";
    "PropertyReleaseDate"; "PropertyReportInterval"; "PropertyChangeSensitivityAbsolute";
    "PropertyChangeSensitivityPercentofRange"; "PropertyChangeSensitivityPercentRelative";
    "PropertyAccuracy"; "PropertyResolution"; "PropertyMaximum"; "PropertyMinimum";
    "PropertyReportingState"; "PropertySamplingRate"; "PropertyResponseCurve"; "PropertyPowerState"]);
   (0x400, [
    "DataFieldLocation"; "DataFieldLocationReserved"; "DataFieldAltitudeAntennaSeaLevel";
    "DataFieldDifferentialReferenceStationID"; "DataFieldAltitudeEllipsoidError";
    "DataFieldAltitudeEllipsoid"; "DataFieldAltitudeSeaLevelError"; "DataFieldAltitudeSeaLevel";
    "DataFieldDifferentialGPSDataAge"; "DataFieldErrorRadius"; "DataFieldFixQuality";
    "DataFieldFixType"; "DataFieldGeoidalSeparation"; "DataFieldGPSOperationMode";
    "DataFieldGPSSelectionMode"]);
   (0x800, [
    "SensorStateUndefined"; "SensorStateReady"; "SensorStateNotAvailable"; "SensorStateNoData";
    "SensorStateInitializing"; "SensorStateAccessDenied"; "SensorStateError"]);
   (0x810, [
    "SensorEventUnknown"; "SensorEventStateChanged"; "SensorEventPropertyChanged";
    "SensorEventDataUpdated"; "SensorEventPollResponse"; "SensorEventChangeSensitivity";
    "SensorEventRangeMaximumReached"; "SensorEventRangeMinimumReached";
    "SensorEventHighThresholdCrossUpward"; "SensorEventHighThresholdCrossDownward";
    "SensorEventLowThresholdCrossUpward"; "SensorEventLowThresholdCrossDownward";
    "SensorEventZeroThresholdCrossUpward"; "SensorEventZeroThresholdCrossDownward";
    "SensorEventPeriodExceeded"; "SensorEventFrequencyExceeded"; "SensorEventComplexTrigger"]);
   (0x830, [
    "ConnectionTypePCIntegrated"; "ConnectionTypePCAttached"; "ConnectionTypePCExternal"]);
   (0x840, [
    "ReportingStateReportNoEvents"; "ReportingStateReportAllEvents";
    "ReportingStateReportThresholdEvents"; "ReportingStateWakeOnNoEvents";
    "ReportingStateWakeOnAllEvents"; "ReportingStateWakeOnThresholdEvents"]);
   (0x850, [
    "PowerStateUndefined"; "PowerStateD0FullPower"; "PowerStateD1LowPower";
    "PowerStateD2StandbyPowerwithWakeup"; "PowerStateD3SleepwithWakeup"; "PowerStateD4PowerOff"]);
   (0x870, [
    "FixQualityNoFix"; "FixQualityGPS"; "FixQualityDGPS"]);
   (0x880, [
    "FixTypeNoFix"; "FixTypeGPSSPSModeFixValid"; "FixTypeDGPSSPSModeFixValid";
    "FixTypeGPSPPSModeFixValid"; "FixTypeRealTimeKinematic"; "FixTypeFloatRTK"; "FixTypeEstimated";
    "FixTypeManualInputMode"; "FixTypeSimulatorMode"]);
   (0x890, [
    "GPSOperationModeManual"; "GPSOperationModeAutomatic"]);
   (0x8a0, [
    "GPSSelectionModeAutonomous"; "GPSSelectionModeDGPS"; "GPSSelectionModeEstimated";
    "GPSSelectionModeManualInput"])]));
  ("lighting", (0x59, [
   (0x01, [
    "LampArray"; "LampArrayAttributesReport"; "LampCount"; "BoundingBoxWidthInMicrometers";
    "BoundingBoxHeightInMicrometers"; "BoundingBoxDepthInMicrometers"; "LampArrayKind";
    "MinUpdateIntervalInMicroseconds"]);
   (0x20, [
    "LampAttributesRequestReport"; "LampId"; "LampAttributesResponseReport";
    "PositionXInMicrometers"; "PositionYInMicrometers"; "PositionZInMicrometers"; "LampPurposes";
    "UpdateLatencyInMicroseconds"; "RedLevelCount"; "GreenLevelCount"; "BlueLevelCount";
    "IntensityLevelCount"; "IsProgrammable"; "InputBinding"]);
   (0x50, [
    "LampMultiUpdateReport"; "RedUpdateChannel"; "GreenUpdateChannel"; "BlueUpdateChannel";
    "IntensityUpdateChannel"; "LampUpdateFlags"]);
   (0x60, [
    "LampRangeUpdateReport"; "LampIdStart"; "LampIdEnd"]);
   (0x70, [
    "LampArrayControlReport"; "AutonomousMode"])]));
  ("camera", (0x90, [
   (0x20, [
    "Autofocus"; "Shutter"])]));
  ("arcade", (0x91, [
   (0x01, [
    "GeneralPurposeIOCard"; "CoinDoor"; "WatchdogTimer"]);
   (0x30, [
    "GeneralPurposeAnalogInputState"; "GeneralPurposeDigitalInputState";
    "GeneralPurposeOpticalInputState"; "GeneralPurposeDigitalOutputState"; "NumberofCoinDoors";
    "CoinDrawerDropCount"; "CoinDrawerStart"; "CoinDrawerService"; "CoinDrawerTilt"; "CoinDoorTest"]);
   (0x40, [
    "CoinDoorLockout"; "WatchdogTimeout"; "WatchdogAction"; "WatchdogReboot"; "WatchdogRestart";
    "AlarmInput"; "CoinDoorCounter"; "IODirectionMapping"; "SetIODirection";
    "ExtendedOpticalInputState"; "PinPadInputState"; "PinPadStatus"; "PinPadOutput"; "PinPadCommand"])]))].

(** Usage [a] of the page of module [m] has number [n], page included. *)
Definition hut_number (m a : string) (n : Z) : Prop :=
  exists p runs start names k,
    In (m, (p, runs)) hut /\ In (start, names) runs /\ nth_error names k = Some a /\
    n = p * 65536 + start + Z.of_nat k.
