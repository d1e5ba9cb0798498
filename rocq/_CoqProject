-Q theories Verif
theories/Base.v
theories/Types.v
theories/Ops.v
theories/ReadErr.v
theories/Utf8.v
theories/ReadBase.v
theories/ReadOperands.v
theories/ExtSet.v
theories/ReadOps.v
theories/Reader.v
theories/Groups.v
theories/Validate.v
theories/DisplayBase.v
theories/DisplayTypes.v
theories/DisplayOps.v
theories/DisplayModule.v
theories/Glsl450.v
theories/ControlFlow.v
theories/DisplayFlow.v
theories/Fixtures.v
theories/Spec_Unicode.v
theories/Spec_Tables.v
theories/Spec_Wire.v
theories/Proofs_Utf8.v
theories/Proofs_Operands.v
theories/Proofs_Composite.v
theories/Proofs_Ops.v
theories/Proofs_Instr.v
theories/Proofs_Stream.v
theories/Spec_Opcodes.v
theories/Proofs_Errors.v
theories/Proofs_Reader.v
theories/Proofs_Encode.v
theories/Proofs_Next.v
theories/Proofs_Facts.v
theories/Spec_Operands.v
theories/Proofs_Facts2.v
theories/Samples.v
theories/Samples_Flow.v
theories/Prop_Reader.v
theories/Spec_Layout.v
theories/Proofs_Layout.v
theories/Proofs_Layout2.v
theories/Prop_Validate.v
theories/Spec_Flow.v
theories/Proofs_Flow.v
theories/Proofs_Flow2.v
theories/Proofs_Flow3.v
theories/Proofs_Flow4.v
theories/Prop_Flow.v
theories/Spec_Structured.v
theories/Proofs_Structured.v
theories/Prop_Structured.v
theories/Spec_Names.v
theories/Spec_Text.v
theories/Spec_Page.v
theories/Proofs_Text.v
theories/Proofs_Text2.v
theories/Proofs_Text3.v
theories/Proofs_Text4.v
theories/Proofs_Text5.v
theories/Proofs_Page.v
theories/Proofs_Text6.v
theories/Proofs_Text7.v
theories/Proofs_Text8.v
theories/Proofs_Glsl.v
theories/Prop_Display.v
theories/FmtBase.v
theories/ErrText.v
theories/FmtTypes.v
theories/FmtOps.v
theories/FmtFlow.v
theories/Spec_Writer.v
theories/Proofs_Fmt.v
theories/Spec_Options.v
theories/Proofs_Options.v
theories/Prop_Writer.v
theories/Spec_Failure.v
theories/Proofs_Failure.v
theories/Prop_Failure.v
theories/Spec_Trouble.v
theories/Proofs_Trouble.v
theories/Prop_Trouble.v
theories/EqBase.v
theories/Equality.v
theories/ModuleState.v
theories/EqMore.v
theories/Spec_Equality.v
theories/Samples_Equality.v
theories/Proofs_Equality.v
theories/Proofs_Equality2.v
theories/Proofs_Equality3.v
theories/Prop_Equality.v
theories/MoreOps.v
theories/Spec_More.v
theories/Proofs_More.v
theories/Prop_More.v
theories/Spec_Machine.v
theories/Proofs_Machine.v
theories/Proofs_EndToEnd.v
theories/Prop_Machine.v
theories/ValidateStack.v
theories/ValidateCount.v
theories/Spec_Stack.v
theories/Proofs_Stack.v
theories/Spec_ValidateCount.v
theories/Proofs_ValidateCount.v
theories/Prop_Stack.v
theories/Prop_ValidateCount.v
theories/ControlFlowCount.v
theories/Spec_Cost.v
theories/Proofs_Cost.v
theories/Prop_Cost.v
theories/ReaderState.v
theories/Spec_Calls.v
theories/Proofs_Calls.v
theories/Prop_Calls.v
theories/Spec_Invariance.v
theories/Proofs_Invariance.v
theories/Prop_Invariance.v
theories/Spec_Size.v
theories/Proofs_Size.v
theories/Prop_Size.v
theories/DebugBase.v
theories/Debug.v
theories/DebugMore.v
theories/Spec_Debug.v
theories/Proofs_Debug.v
theories/Proofs_Debug2.v
theories/Proofs_Debug3.v
theories/Spec_Shown.v
theories/Proofs_Shown.v
theories/Spec_ShownResults.v
theories/Proofs_ShownResults.v
theories/Prop_Debug.v
theories/ValidateState.v
theories/Spec_Copies.v
theories/Proofs_Copies.v
theories/Prop_Copies.v
theories/PlainOps.v
theories/DebugOps.v
theories/Spec_Plain.v
theories/Proofs_Plain.v
theories/Proofs_Plain2.v
theories/Spec_PlainFields.v
theories/Proofs_PlainFields.v
theories/KernelTypes.v
theories/Proofs_Kernel.v
theories/Prop_Plain.v
theories/DebugPretty.v
theories/Spec_Pretty.v
theories/Proofs_Pretty.v
theories/Proofs_Pretty2.v
theories/Prop_Pretty.v
theories/Spec_Standard.v
theories/Proofs_Standard.v
theories/Proofs_Standard2.v
theories/Samples_Standard.v
theories/Prop_Standard.v
theories/MemoryBlock.v
theories/Spec_Block.v
theories/Proofs_Block.v
theories/Proofs_Block2.v
theories/Proofs_Block3.v
theories/Prop_Block.v
theories/DebugOptions.v
theories/Spec_DebugOptions.v
theories/Proofs_DebugOptions.v
theories/Proofs_DebugOptions2.v
theories/Prop_DebugOptions.v
theories/DebugWriter.v
theories/Spec_DebugWriter.v
theories/Proofs_DebugWriter.v
theories/Prop_DebugWriter.v
theories/DebugHex.v
theories/Spec_DebugHex.v
theories/Proofs_DebugHex.v
theories/Proofs_DebugHex2.v
theories/Prop_DebugHex.v
theories/DisplayStack.v
theories/Spec_DisplayStack.v
theories/Proofs_DisplayStack.v
theories/Prop_DisplayStack.v
theories/Proofs_TextSize.v
theories/Prop_TextSize.v
theories/ReadAlloc.v
theories/Spec_Alloc.v
theories/Proofs_Alloc.v
theories/Prop_Alloc.v
theories/Spec_Stop.v
theories/Proofs_Stop.v
theories/Prop_Stop.v
theories/ControlFlowWork.v
theories/Spec_Work.v
theories/Proofs_Work.v
theories/Prop_Work.v
theories/Spec_DebugStop.v
theories/Spec_UserCode.v
theories/Proofs_DebugStop.v
theories/Proofs_UserCode.v
theories/Proofs_Compare.v
theories/Prop_DebugStop.v
theories/Prop_UserCode.v
theories/Fixtures_Load.v
theories/Spec_TextLength.v
theories/Proofs_TextLength.v
theories/Proofs_TextLength2.v
theories/Prop_TextLength.v
theories/Spec_Visible.v
theories/Proofs_Visible.v
theories/Prop_Visible.v
theories/Spec_Default.v
theories/Proofs_Default.v
theories/Prop_Default.v
theories/Spec_Frames.v
theories/Proofs_Frames.v
theories/Proofs_DepthLimit.v
theories/Proofs_Nesting.v
theories/Prop_Frames.v
theories/Proofs_ChainSize.v
theories/Prop_ChainSize.v
theories/Proofs_AnyCalls.v
theories/Prop_AnyCalls.v
theories/Spec_Returns.v
theories/Proofs_Returns.v
theories/Proofs_Rules.v
theories/Samples_Returns.v
theories/Proofs_ReturnsCalls.v
theories/Prop_Returns.v
theories/Spec_Simple.v
theories/Proofs_Simple.v
theories/Proofs_Simple2.v
theories/Proofs_SimpleCheck.v
theories/Samples_Simple.v
theories/Prop_Simple.v
theories/Spec_Occurs.v
theories/Proofs_Occurs.v
theories/Proofs_Occurs2.v
theories/Proofs_Occurs3.v
theories/Samples_Occurs.v
theories/Samples_Nested.v
theories/Prop_Occurs.v
theories/Spec_Image.v
theories/Proofs_Image.v
theories/Proofs_Image2.v
theories/Prop_Image.v
theories/HashTable.v
theories/ControlFlowHash.v
theories/ReaderHash.v
theories/Spec_Hash.v
theories/Proofs_Hash.v
theories/Prop_Hash.v
theories/ReaderOwned.v
theories/Spec_Drop.v
theories/Proofs_Drop.v
theories/Samples_Drop.v
theories/Prop_Drop.v
theories/ValidateOwned.v
theories/Spec_Owned.v
theories/Proofs_Owned.v
theories/Prop_Owned.v
theories/Spec_Split.v
theories/Proofs_Split.v
theories/Samples_Split.v
theories/Spec_Inline.v
theories/Proofs_Inline.v
theories/Samples_Inline.v
theories/Spec_Inlined.v
theories/Proofs_Inlined.v
theories/Proofs_Inlined3.v
theories/Spec_Mirror.v
theories/Proofs_Mirror.v
theories/Samples_Mirror.v
theories/Proofs_Replace.v
theories/Proofs_Inlined4.v
theories/Prop_Inline.v
theories/Spec_Halves.v
theories/Proofs_Halves.v
theories/Proofs_Halves2.v
theories/Proofs_Halves3.v
theories/Samples_Joined.v
theories/Proofs_Inlined5.v
theories/Prop_Split.v
theories/Spec_Turned.v
theories/Proofs_Turned.v
theories/Proofs_Turned2.v
theories/Prop_Mirror.v
theories/Proofs_Listing.v
theories/Proofs_Listing2.v
theories/Prop_Listing.v
theories/Spec_Care.v
theories/Proofs_CareBits.v
theories/Proofs_Care.v
theories/Proofs_Care2.v
theories/Samples_Care.v
theories/Prop_Care.v
theories/CountBase.v
theories/CountOperands.v
theories/CountOps.v
theories/CountReader.v
theories/Spec_ReadCost.v
theories/Proofs_ReadCost.v
theories/Proofs_ReadCost2.v
theories/Proofs_ReadCost3.v
theories/Samples_ReadCost.v
theories/Prop_ReadCost.v
theories/Spec_Dominate.v
theories/Proofs_Dominate.v
theories/Proofs_Dominate2.v
theories/Samples_Dominate.v
theories/Prop_Dominate.v
theories/Spec_Cut.v
theories/Proofs_Cut.v
theories/Prop_Cut.v
theories/Spec_Circles.v
theories/Proofs_Circles.v
theories/Samples_Circles.v
theories/Prop_Circles.v
theories/Spec_Order.v
theories/Proofs_Order.v
theories/Prop_Order.v
theories/Spec_Lengths.v
theories/Proofs_Lengths.v
theories/Prop_Lengths.v
theories/Spec_Neighbours.v
theories/Proofs_Neighbours.v
theories/Prop_Neighbours.v
theories/Spec_Rearrange.v
theories/Proofs_Rearrange.v
theories/Prop_Rearrange.v
theories/Spec_Link.v
theories/Proofs_Link.v
theories/Prop_Link.v
theories/Spec_Truncate.v
theories/Proofs_Truncate.v
theories/Prop_Truncate.v
theories/Spec_Renumber.v
theories/Proofs_Renumber.v
theories/Proofs_Renumber2.v
theories/Prop_Renumber.v
theories/Spec_Prune.v
theories/Proofs_Prune.v
theories/Prop_Prune.v
theories/Spec_Unshare.v
theories/Proofs_Unshare.v
theories/Proofs_Unshare2.v
theories/Proofs_Unshare3.v
theories/Prop_Unshare.v
theories/Spec_Rewrite.v
theories/Proofs_Rewrite.v
theories/Proofs_Rewrite2.v
theories/Proofs_Rewrite3.v
theories/Proofs_Inlined2.v
theories/Prop_Rewrite.v
