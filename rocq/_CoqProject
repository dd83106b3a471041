-Q theories Verif
theories/Py.v
theories/Usage.v
theories/Item.v
theories/Parser.v
theories/TextFormats.v
theories/Optimizer.v
theories/Descriptor.v
theories/Extractor.v
theories/Converter.v
theories/UsageTable.v
theories/UsageModules.v
theories/ModelTests.v
theories/HidSpec.v
theories/Spec.v
theories/ItemFacts.v
theories/ParserFacts.v
theories/CodecProofs.v
theories/Properties_Codec.v
theories/UsageProofs.v
theories/TableProofs.v
theories/Properties_Usage.v
theories/TextProofs.v
theories/TextNames.v
theories/Properties_Text.v
theories/StreamSpec.v
theories/PlainHost.v
theories/StreamProofs.v
theories/StreamTree.v
theories/Properties_Stream.v
theories/OptFacts.v
theories/OptSpec.v
theories/AllSpec.v
theories/TreeSpec.v
theories/MainMergeFacts.v
theories/Skeleton.v
theories/PassFacts.v
theories/RangeFacts.v
theories/GlobalFacts.v
theories/PageFacts.v
theories/MergeFacts.v
theories/PhysFacts.v
theories/DesigFacts.v
theories/OptAll.v
theories/TreeOpt.v
theories/NameFacts.v
theories/PageSpec.v
theories/PageShift.v
theories/PageTree.v
theories/SizeFacts.v
theories/SizeMore.v
theories/Properties_Optimizer.v
theories/Properties_Tree.v
theories/ExtractSpec.v
theories/ExtractFacts.v
theories/ExtractPrefix.v
theories/ExtractView.v
theories/ExtractAgain.v
theories/BackSpec.v
theories/ExtractBack.v
theories/Properties_Extract.v
theories/Dumper.v
theories/PyExpr.v
theories/DumpSpec.v
theories/DumpFacts.v
theories/DumpProofs.v
theories/DumpExtract.v
theories/Properties_Dump.v
theories/NameTree.v
theories/DumpCompile.v
theories/Properties_Names.v
theories/AcceptSpec.v
theories/ExtractAccept.v
theories/CompileAccept.v
theories/OptAccept.v
theories/AcceptBlob.v
theories/Properties_Accept.v
theories/ExtractStore.v
theories/ExtractFit.v
theories/RoundTrip.v
theories/Properties_Round.v
theories/Tools.v
theories/ToolSpec.v
theories/ToolProofs.v
theories/Properties_Tools.v
theories/NameBack.v
theories/BytesBack.v
theories/Properties_Bytes.v
theories/OptBackSpec.v
theories/OptBack.v
theories/Properties_OptBack.v
theories/Idem.v
theories/MainIdem.v
theories/Compare.v
theories/CompareProofs.v
theories/Properties_Small.v
theories/Properties_Examples.v
theories/CSpec.v
theories/CProofs.v
theories/Properties_C.v
theories/CommentSpec.v
theories/CommentProofs.v
theories/CommentTable.v
theories/Properties_Comment.v
theories/HutSpec.v
theories/HutProofs.v
theories/Properties_Hut.v
theories/CodeC.v
theories/Properties_CodeC.v
theories/LayoutSpec.v
theories/LayoutProofs.v
theories/Properties_Layout.v
theories/StackSpec.v
theories/StackFacts.v
theories/Properties_Stack.v
theories/TitleSpec.v
theories/TitleFacts.v
theories/Properties_Titles.v
theories/RedundFacts.v
theories/Properties_Redund.v
theories/PrintSpec.v
theories/PrintProofs.v
theories/Properties_Print.v
theories/FormSpec.v
theories/FormFacts.v
theories/FormRange.v
theories/FormProofs.v
theories/Properties_Form.v
theories/ComposeSpec.v
theories/ComposeProofs.v
theories/Properties_Compose.v
theories/HeedSpec.v
theories/HeedProofs.v
theories/VerdictSpec.v
theories/VerdictProofs.v
theories/Properties_Verdict.v
theories/Stdout.v
theories/StdoutSpec.v
theories/StdoutProofs.v
theories/Properties_Stdout.v
theories/ViewSpec.v
theories/ViewProofs.v
theories/Properties_View.v
theories/FollowSpec.v
theories/FollowProofs.v
theories/Properties_Follow.v
theories/TwiceSpec.v
theories/TwiceProofs.v
theories/Properties_Twice.v
theories/WholeProofs.v
theories/Properties_Whole.v
theories/IdsSpec.v
theories/IdsProofs.v
theories/Properties_Ids.v
theories/NumberedSpec.v
theories/NumberedProofs.v
theories/Properties_Numbered.v
theories/ApartSpec.v
theories/ApartProofs.v
theories/Properties_Apart.v
theories/RenumberSpec.v
theories/RenumberProofs.v
theories/Properties_Renumber.v
theories/PrefixSpec.v
theories/PrefixProofs.v
theories/Properties_Prefix.v
theories/CalmProofs.v
theories/Properties_Calm.v
theories/LengthSpec.v
theories/LengthProofs.v
theories/Properties_Length.v
theories/SpineSpec.v
theories/SpineProofs.v
theories/Properties_Spine.v
theories/BareSpec.v
theories/BareProofs.v
theories/Properties_Bare.v
theories/PlainSpec.v
theories/PlainProofs.v
theories/Properties_Plain.v
theories/Interrupt.v
theories/InterruptSpec.v
theories/InterruptProofs.v
theories/InterruptOpen.v
theories/Properties_Interrupt.v
theories/UnitSpec.v
theories/Properties_Unit.v
theories/FlagSpec.v
theories/Properties_Flags.v
theories/Members.v
theories/MembersSpec.v
theories/MembersProofs.v
theories/Properties_Members.v
theories/RepeatSpec.v
theories/RepeatProofs.v
theories/Properties_Repeat.v
theories/ShortSpec.v
theories/ShortProofs.v
theories/Properties_Short.v
theories/OrderSpec.v
theories/OrderProofs.v
theories/Properties_Order.v
theories/DocTests.v
