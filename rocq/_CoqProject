-Q theories Verif
theories/Base.v
theories/Reader.v
theories/ReaderSpec.v
theories/ReaderProofs.v
theories/Cache.v
theories/CacheProofs.v
theories/ReaderArray.v
theories/ReaderArrayProofs.v
theories/Leb.v
theories/LebSpec.v
theories/LebProofs.v
theories/DwarfReader.v
theories/DwarfReaderProofs.v
theories/Regs.v
theories/RegsProofs.v
theories/Expr.v
theories/ExprSpec.v
theories/ExprProofs.v
theories/Cfi.v
theories/CfiSpec.v
theories/CfiProofs.v
theories/CfiProofs2.v
theories/Props_Reader.v
theories/Props_Cfi.v
theories/Props_Expr.v
theories/Loclist.v
theories/LoclistSpec.v
theories/LoclistProofs.v
theories/Props_Loc.v
theories/Unwind.v
theories/UnwindSpec.v
theories/UnwindProofs.v
theories/UnwindProofs2.v
theories/Props_Unwind.v
theories/Cursor.v
theories/Lines.v
theories/LinesSpec.v
theories/LinesProofs.v
theories/Props_Lines.v
theories/Aranges.v
theories/ArangesSpec.v
theories/ArangesProofs.v
theories/Props_Aranges.v
theories/Die.v
theories/DieSpec.v
theories/DieProofs.v
theories/DieNav.v
theories/DieTree.v
theories/DieHist.v
theories/DieAttr.v
theories/DieAttrSpec.v
theories/DieAttrProofs.v
theories/Props_Die.v
theories/Bound.v
theories/ElfHash.v
theories/ElfHashSpec.v
theories/ElfHashProofs.v
theories/ElfObj.v
theories/ElfObjSpec.v
theories/ElfObjProofs.v
theories/Props_Elf.v
theories/Core.v
theories/CoreSpec.v
theories/CoreProofs.v
theories/Props_Core.v
theories/Live.v
theories/LiveSpec.v
theories/LiveProofs.v
theories/Props_Live.v
theories/Maps.v
theories/MapsSpec.v
theories/MapsProofs.v
theories/Props_Maps.v
theories/Json.v
theories/JsonSpec.v
theories/JsonProofs.v
theories/Props_Json.v
theories/Canal.v
theories/CanalSpec.v
theories/CanalProofs.v
theories/Props_Canal.v
theories/Heap.v
theories/HeapSpec.v
theories/HeapProofs.v
theories/Props_Heap.v
theories/Lzma.v
theories/LzmaSpec.v
theories/LzmaProofs.v
theories/Props_Lzma.v
theories/Flags.v
theories/FlagsSpec.v
theories/FlagsProofs.v
theories/Props_Flags.v
theories/Python.v
theories/PythonSpec.v
theories/PythonProofs.v
theories/PythonProofs2.v
theories/PythonProofs3.v
theories/PythonProofs4.v
theories/Props_Python.v
theories/PyShowSpec.v
theories/PyShowProofs.v
theories/Props_PyShow.v
theories/Pubnames.v
theories/PubnamesSpec.v
theories/PubnamesProofs.v
theories/Props_Pubnames.v
theories/Macros.v
theories/MacrosSpec.v
theories/MacrosProofs.v
theories/Props_Macros.v
theories/Context.v
theories/ContextSpec.v
theories/ContextProofs.v
theories/Props_Context.v
theories/Stacks.v
theories/StacksSpec.v
theories/StacksProofs.v
theories/Props_Stacks.v
theories/Args.v
theories/ArgsSpec.v
theories/ArgsProofs.v
theories/Props_Args.v
theories/Child.v
theories/ChildSpec.v
theories/ChildProofs.v
theories/Props_Child.v
theories/Load.v
theories/LoadSpec.v
theories/LoadProofs.v
theories/Props_Load.v
theories/Frames.v
theories/FramesSpec.v
theories/FramesProofs.v
theories/FramesProofs2.v
theories/FramesProofs3.v
theories/Props_Frames.v
theories/Units.v
theories/UnitsSpec.v
theories/UnitsProofs.v
theories/Props_Units.v
theories/ElfFile.v
theories/ElfFileSpec.v
theories/ElfFileProofs.v
theories/ElfFileProofs2.v
theories/Props_ElfFile.v
theories/ElfFileProofs3.v
theories/Props_ElfSym.v
theories/ElfDyn.v
theories/Props_ElfDyn.v
theories/Props_SymImg.v
theories/ElfAddr.v
theories/Props_ElfAddr.v
theories/FrameText.v
theories/FrameTextSpec.v
theories/FrameTextProofs.v
theories/FrameTextProofs2.v
theories/Props_FrameText.v
theories/Props_Frame2.v
theories/Main.v
theories/MainSpec.v
theories/Props_Main.v
theories/Props_Main2.v
theories/Hdmp.v
theories/HdmpSpec.v
theories/HdmpProofs.v
theories/HeapBig.v
theories/Props_Hdmp.v
theories/Props_Hdmp2.v
theories/JsonDoc.v
theories/JsonDocSpec.v
theories/JsonDocProofs.v
theories/Dump.v
theories/DumpSpec.v
theories/DumpProofs.v
theories/Props_Dump.v
theories/DumpCfi.v
theories/DumpCfiSpec.v
theories/DumpCfiProofs.v
theories/Props_DumpCfi.v
theories/JsonStack.v
theories/JsonStackSpec.v
theories/JsonStackProofs.v
theories/Props_JsonStack.v
theories/Props_Tight.v
theories/Props_Load2.v
theories/CanalMain.v
theories/CanalMainSpec.v
theories/CanalMainProofs.v
theories/Props_CanalMain.v
theories/Props_Tight2.v
theories/DumpTables.v
theories/DumpDie.v
theories/DumpDieSpec.v
theories/DumpDieProofs.v
theories/Props_DumpDie.v
theories/DumpElf.v
theories/DumpElfSpec.v
theories/DumpElfProofs.v
theories/DumpElfProofs2.v
theories/Props_DumpElf.v
theories/DumpUnit.v
theories/DumpUnitSpec.v
theories/DumpUnitProofs.v
theories/Props_DumpUnit.v
theories/DumpInfo.v
theories/Props_InfoDump.v
theories/StackUsers.v
theories/StackUsersSpec.v
theories/StackUsersProofs.v
theories/Props_StackUsers.v
theories/Service.v
theories/ServiceSpec.v
theories/ServiceProofs.v
theories/Props_Service.v
theories/Self.v
theories/Props_Self.v
theories/AltDwarf.v
theories/Props_AltDwarf.v
theories/PyFind.v
theories/Props_PyFind.v
theories/PyThreads.v
theories/Props_PyThreads.v
theories/CoreSignal.v
theories/Props_CoreSignal.v
theories/Options.v
theories/OptionsSpec.v
theories/Props_Options.v
theories/Locate.v
theories/LocateSpec.v
theories/LocateProofs.v
theories/Props_Locate.v
theories/SrcAddr.v
theories/SrcAddrSpec.v
theories/SrcAddrProofs.v
theories/Props_SrcAddr.v
theories/DieHeap.v
theories/Props_DieHeap.v
theories/RootRead.v
theories/Props_RootRead.v
theories/Props_SrcEntries.v
