-Q theories Verif
theories/Base.v
theories/Spec.v
theories/BaseFacts.v
theories/Ptr.v
theories/PtrFacts.v
theories/Segment.v
theories/Builder.v
theories/Copy.v
theories/Endof.v
theories/Enc.v
theories/EncFacts.v
theories/SegmentFacts.v
theories/CopyFacts.v
theories/EncDen.v
theories/EndofFacts.v
theories/Struct.v
theories/Message.v
theories/PtrFinal.v
theories/Properties_Ptr.v
theories/FloatBits.v
theories/FloatSpec.v
theories/FloatFacts.v
theories/List.v
theories/Query.v
theories/StructFacts.v
theories/Stream.v
theories/StreamFacts.v
theories/MessageFacts.v
theories/SegSpec.v
theories/SegFlat.v
theories/MsgFinal.v
theories/FarFinal.v
theories/Samples.v
theories/Properties_Load.v
theories/ObjFacts.v
theories/EndofTotal.v
theories/DumpFacts.v
theories/AlignFacts.v
theories/CopyFrame.v
theories/CopyFinal.v
theories/Properties_Copy.v
theories/AnyPtr.v
theories/ReadFacts.v
theories/ListFacts.v
theories/EqFacts.v
theories/EqPy.v
theories/ReadFinal.v
theories/Properties_Read.v
theories/Hash.v
theories/HashFacts.v
theories/Key.v
theories/KeyFacts.v
theories/Case.v
theories/CaseFacts.v
theories/Enum.v
theories/EnumFacts.v
theories/Options.v
theories/OptionsFacts.v
theories/Decode.v
theories/DecodeFacts.v
theories/Properties_Misc.v
theories/BuilderC.v
theories/BuilderSim.v
theories/CopyStrict.v
theories/BuilderOps.v
theories/BuilderCFacts.v
theories/Properties_Build.v
theories/CopyList.v
theories/ArgSpec.v
theories/CopyListFacts.v
theories/Ctor.v
theories/CtorSpec.v
theories/CtorStore.v
theories/CCopyList.v
theories/CopyListStrict.v
theories/CtorSlots.v
theories/CtorFacts.v
theories/CtorErr.v
theories/CtorFinal.v
theories/CtorCall.v
theories/CtorCompact.v
theories/CtorProps.v
theories/CtorSamples.v
theories/Properties_Ctor.v
theories/Loader.v
theories/LoaderFacts.v
theories/LoaderFacts2.v
theories/Dist.v
theories/Names.v
theories/NamesFacts.v
theories/Properties_Comp.v
theories/Utf8.v
theories/Repr.v
theories/ReprSpec.v
theories/ReprFacts.v
theories/ReprParse.v
theories/Properties_Repr.v
theories/CRead.v
theories/CReadSpec.v
theories/CReadFacts.v
theories/CLoad.v
theories/CLoadFacts.v
theories/CLoadFacts2.v
theories/CEndofFacts.v
theories/CDumpFacts.v
theories/Properties_Compiled.v
theories/PyExpr.v
theories/PyExprFacts.v
theories/Const.v
theories/ConstSpec.v
theories/ConstFacts.v
theories/ConstModule.v
theories/Properties_Const.v
theories/Properties_Evolve.v
theories/Annot.v
theories/Properties_Annot.v
theories/PyGroup.v
theories/Properties_PyGroup.v
theories/Packing.v
theories/Properties_Packing.v
theories/OptDict.v
theories/Properties_OptDict.v
theories/Extend.v
theories/Properties_Extend.v
theories/ItemT.v
theories/Properties_ItemT.v
theories/Accept.v
theories/Properties_Accept.v
theories/Properties_Float.v
theories/Properties_CCtor.v
theories/Properties_Hostile.v
theories/Properties_ListArg.v
theories/SchemaPy.v
theories/LayoutCheck.v
theories/ShowCtor.v
theories/SchemaMsg.v
theories/SchemaSpec.v
theories/SchemaFacts.v
theories/SchemaConv.v
theories/SchemaSample.v
theories/Properties_Schema.v
theories/CopySafe.v
theories/Properties_CopySafe.v
theories/Printer.v
theories/PrinterSpec.v
theories/PrinterFacts.v
theories/Properties_Printer.v
theories/Driver.v
theories/DriverSpec.v
theories/Properties_Driver.v
theories/PySyntax.v
theories/PySyntaxFacts.v
theories/PyRun.v
theories/GenRun.v
theories/GenText.v
theories/PyPrint.v
theories/TextSpec.v
theories/GenTextFacts.v
theories/GenTextRun.v
theories/GenGet.v
theories/GenGet2.v
theories/GenNew.v
theories/GenNew2.v
theories/Properties_Text.v
theories/GenNew3.v
theories/GenNew4.v
theories/GenNew5.v
theories/Properties_TextNew.v
theories/ClassText.v
theories/ClassSpec.v
theories/ClassFacts.v
theories/Properties_ClassText.v
theories/SchemaText.v
theories/TextSamples.v
theories/TextNewSamples.v
theories/KeyText.v
theories/Properties_KeyText.v
theories/ClassSamples.v
theories/KeySamples.v
theories/ReprText.v
theories/ReprRun.v
theories/ReprTextFacts.v
theories/Properties_ReprText.v
theories/SchemaRepr.v
theories/ReprTextSamples.v
theories/PyModule.v
theories/PyModuleFacts.v
theories/ModuleText.v
theories/ModuleTextFacts.v
theories/ModuleRead.v
theories/PyModuleRun.v
theories/ModuleRunFacts.v
theories/ModuleSpec.v
theories/ModuleRun2.v
theories/ModuleRun3.v
theories/ModuleRun4.v
theories/ModuleRun5.v
theories/ModuleRun6.v
theories/ModuleRun7.v
theories/ModuleSamples.v
theories/Properties_ModuleText.v
theories/SchemaModule.v
theories/ModuleSchema.v
theories/ModuleSchema2.v
theories/Properties_ModuleSchema.v
