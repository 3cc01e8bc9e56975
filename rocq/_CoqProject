-Q theories Verif
theories/Base.v
theories/ModelEngine.v
theories/ModelSha2Round.v
theories/ModelRipemdRound.v
theories/ModelSimd.v
theories/TablesSha2.v
theories/TablesRipemd.v
theories/TablesSimd.v
theories/ModelSha256.v
theories/ModelSha512.v
theories/ModelSha1.v
theories/ModelRipemd.v
theories/ModelSip.v
theories/ModelHmac.v
theories/SpecBase.v
theories/SpecSha2.v
theories/SpecSha1.v
theories/SpecRipemd.v
theories/SpecMac.v
theories/SpecMD.v
theories/ModelAll.v
theories/SpecApi.v
theories/ProofBase.v
theories/ProofSha2.v
theories/ProofEngine.v
theories/ProofSha1.v
theories/ProofRipemd.v
theories/ProofSimd.v
theories/ProofMD.v
theories/ProofApi.v
theories/ProofMid.v
theories/ProofConst.v
theories/ProofSip.v
theories/ProofHmac.v
theories/ProofSplit.v
theories/ProofHash.v
theories/PropHash.v
theories/ProofMac.v
theories/PropMac.v
theories/SpecText.v
theories/SpecTables.v
theories/ModelCmp.v
theories/ModelTypes.v
theories/SpecTypes.v
theories/ModelIo.v
theories/SpecIo.v
theories/ModelStore.v
theories/SpecStore.v
theories/ProofCmp.v
theories/ProofTypes.v
theories/ProofIo.v
theories/ProofStore.v
theories/ProofTables.v
theories/PropTypes.v
theories/SpecMore.v
theories/ProofLive.v
theories/ProofSound.v
theories/ProofMacColl.v
theories/PropMore.v
theories/ModelValues.v
theories/SpecValues.v
theories/SpecPerm.v
theories/ProofValues.v
theories/ProofUtf8.v
theories/ProofPerm.v
theories/ProofPermMore.v
theories/ProofHmacMid.v
theories/PropMore2.v
theories/SpecExact.v
theories/ProofExact.v
theories/PropMore3.v
theories/ModelProgram.v
theories/SpecProgram.v
theories/ProofProgram.v
theories/PropMore4.v
theories/ModelFmt.v
theories/SpecFmt.v
theories/SpecBits.v
theories/SpecBitsRip.v
theories/ProofFmt.v
theories/ProofBits.v
theories/ProofBitsRip.v
theories/PropMore5.v
theories/ModelLeak.v
theories/SpecLeak.v
theories/ProofLeakBlock.v
theories/ProofLeak.v
theories/ProofWork.v
theories/PropMore6.v
theories/ModelMem.v
theories/SpecMem.v
theories/ProofMem.v
theories/PropMore7.v
theories/GenBase.v
theories/GenLib.v
theories/GenCmp.v
theories/GenSip.v
theories/GenSha1.v
theories/GenSha256.v
theories/GenSha256Const.v
theories/GenSha512.v
theories/GenSha384.v
theories/GenRipemd.v
theories/GenHmac.v
theories/GenSha256t.v
theories/GenTypes.v
theories/GenIo.v
theories/SpecGen.v
theories/ProofGenBase.v
theories/ProofGenEngine.v
theories/ProofGenSha1.v
theories/ProofGenSha1E.v
theories/ProofGenSha2.v
theories/ProofGenSha256Fast.v
theories/ProofGenSha256Small.v
theories/ProofGenSimd.v
theories/ProofGenSha256.v
theories/ProofGenSha512Fast.v
theories/ProofGenSha512Small.v
theories/ProofGenSha512.v
theories/ProofGenRipemd.v
theories/ProofGenRipemdFast.v
theories/ProofGenRipemdSmall.v
theories/ProofGenRipemdE.v
theories/ProofGenConst.v
theories/ProofGenConstFast.v
theories/ProofGenConstSmall.v
theories/ProofGenConstAll.v
theories/ProofGenMac.v
theories/ProofGenSip.v
theories/ProofGenProgram.v
theories/PropGen.v
theories/ModelWriter.v
theories/SpecGenTypes.v
theories/ProofGenTypes.v
theories/PropGenTypes.v
theories/TraceBase.v
theories/TraceCmp.v
theories/TraceLib.v
theories/TraceSip.v
theories/TraceSha1.v
theories/TraceSha256.v
theories/TraceSha512.v
theories/TraceSha384.v
theories/TraceRipemd.v
theories/TraceHmac.v
theories/TraceSha256t.v
theories/SpecTrace.v
theories/ProofTraceBase.v
theories/ProofTraceBlock.v
theories/ProofTraceConst.v
theories/ProofTraceEngine.v
theories/ProofTrace.v
theories/PropTrace.v
theories/TextBase.v
theories/GenText.v
theories/SpecGenText.v
theories/ProofGenText.v
theories/PropGenText.v
theories/DeclBase.v
theories/GenDecl.v
theories/SpecGenDecl.v
theories/ProofGenDecl.v
theories/PropGenDecl.v
theories/BuildBase.v
theories/GenBuild.v
theories/SpecBuild.v
theories/ProofBuild.v
theories/PropBuild.v
theories/ScopeBase.v
theories/GenScope.v
theories/GenFuzz.v
theories/SpecFuzz.v
theories/ProofFuzz.v
theories/PropFuzz.v
theories/TraitBase.v
theories/GenTrait.v
theories/SpecTrait.v
theories/ProofTrait.v
theories/ProofTraitExact.v
theories/PropTraits.v
theories/ApiBase.v
theories/GenApi.v
theories/SpecOpaque.v
theories/ProofOpaque.v
theories/PropOpaque.v
