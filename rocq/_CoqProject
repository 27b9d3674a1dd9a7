-Q theories Verif
theories/Wasm.v
theories/Std.v
theories/StdEnv.v
theories/WasmLogic.v
theories/WasmTac.v
theories/Spec.v
theories/ZBits.v
theories/ArithProofs.v
theories/BitProofs.v
theories/MulProofs.v
theories/MulIntProofs.v
theories/DivProofs.v
theories/RootProofs.v
theories/PowProofs.v
theories/ArithFacts.v
theories/ArithSpecs.v
theories/PropArith.v
theories/Mem.v
theories/SpecBytes.v
theories/BuffProofs.v
theories/ConvProofs.v
theories/PropBytes.v
theories/ParseProofs.v
theories/ParseIntProofs.v
theories/ParseSpecs.v
theories/PrintProofs.v
theories/PropStrings.v
theories/MemFacts.v
theories/NameProofs.v
theories/SpecUtf8.v
theories/Utf8Proofs.v
theories/PropNames.v
theories/Utf8Dec.v
theories/PropUtf8.v
theories/NameSearch.v
theories/PropSearch.v
theories/Bytes.v
theories/Gen.v
theories/ErrMap.v
theories/GenProofs.v
theories/PropGen.v
theories/Clar.v
theories/Codec.v
theories/Rep.v
theories/RepFacts.v
theories/ReadProofs.v
theories/WriteProofs.v
theories/ArgProofs.v
theories/PropCodec.v
theories/Ledger.v
theories/Invar.v
theories/SpecLedger.v
theories/LedgerProofs.v
theories/Calls.v
theories/CallProofs.v
theories/HostSaves.v
theories/PropLedger.v
theories/Emit.v
theories/EmitFacts.v
theories/EmitProofs.v
theories/Equal.v
theories/EqualProofs.v
theories/PropEmit.v
theories/Ast.v
theories/SpecLang.v
theories/Lang.v
theories/Typing.v
theories/LangFacts.v
theories/LangBase.v
theories/LangCtl.v
theories/LangEarly.v
theories/LangMem.v
theories/LangSeq.v
theories/LangList.v
theories/LangConcat.v
theories/LangTuple.v
theories/LangArith.v
theories/LangWord.v
theories/LangCopy.v
theories/LangCall.v
theories/LangSlice.v
theories/LangLaid.v
theories/LangReplace.v
theories/LangIndex.v
theories/LangFn.v
theories/LangFold.v
theories/LangMap.v
theories/LangPrim.v
theories/LangMain.v
theories/LangPlain.v
theories/LangTotal.v
theories/PropLang.v
theories/PropLang2.v
theories/TraitId.v
theories/PropTrait.v
theories/Effects.v
theories/PropEffects.v
theories/Cost.v
theories/CostTables.v
theories/PropCost.v
theories/SpecSer.v
theories/BeProofs.v
theories/Ser.v
theories/SerProofs.v
theories/PropSer.v
theories/PropSerialize.v
theories/PropStore.v
theories/PropRoom.v
theories/SpecHash.v
theories/HashFacts.v
theories/Sha256Proofs.v
theories/Sha256Main.v
theories/Sha512Proofs.v
theories/Sha512Main.v
theories/Rmd160Proofs.v
theories/Hash160Proofs.v
theories/PropHash.v
theories/HashWord.v
theories/PropHashWord.v
theories/SpecSkip.v
theories/SkipProofs.v
theories/PropSkip.v
theories/Deser.v
theories/SpecDeser.v
theories/DeserProofs.v
theories/DeserSeq.v
theories/DeserCtl.v
theories/DeserList.v
theories/DeserTuple.v
theories/DeserTupleMain.v
theories/DeserAll.v
theories/DeserUniq.v
theories/PropDeser.v
theories/SpecChain.v
theories/LangTrace.v
theories/LangHost.v
theories/PropLang3.v
theories/PropLang4.v
theories/PropLang5.v
theories/Filter.v
theories/PropLang6.v
theories/PropNft.v
theories/Const.v
theories/ConstProofs.v
theories/PropConst.v
theories/SpecPast.v
theories/LangSim.v
theories/AtBlock.v
theories/PropAtBlock.v
theories/Stx.v
theories/SpecStx.v
theories/StxProofs.v
theories/PropStx.v
theories/Outcall.v
theories/PropOutcall.v
theories/SpecBlocks.v
theories/Blocks.v
theories/PropBlocks.v
theories/SpecPrint.v
theories/Print.v
theories/PropPrint.v
theories/SpecPrincipal.v
theories/Principal.v
theories/PropPrincipal.v
theories/SpecConv.v
theories/Conv.v
theories/PropConv.v
theories/SpecCrypto.v
theories/Crypto.v
theories/PropCrypto.v
theories/PropDigest.v
theories/PropFilterNot.v
