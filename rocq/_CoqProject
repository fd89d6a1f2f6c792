-Q theories Verif
theories/RustInt.v
theories/Syntax.v
theories/GenInt.v
theories/GenArr.v
theories/Gen.v
theories/Spec.v
theories/BitsLemmas.v
theories/CoreLemmas.v
theories/GenLemmas.v
theories/ConvLemmas.v
theories/BitOpLemmas.v
theories/Examples.v
theories/PropVocab.v
theories/PropFields.v
theories/PropConv.v
theories/PropBits.v
theories/Hist.v
theories/PropHist.v
theories/PropRefine.v
theories/PropAccess.v
theories/PropCompose.v
theories/ConstExpr.v
theories/Words.v
theories/PropLit.v
theories/Parser.v
theories/SpecDecl.v
theories/ParserLemmas.v
theories/ParserLoop.v
theories/Cargo.v
theories/PropArgs.v
theories/PropParse.v
theories/PropDefault.v
theories/Surface.v
theories/SpecSurface.v
theories/SurfaceLemmas.v
theories/PropSurface.v
theories/PropNames.v
theories/PropClash.v
theories/PropDebug.v
theories/Bitflag.v
theories/PropBitflag.v
theories/Rust.v
theories/Emit.v
theories/EmitVocab.v
theories/RustLemmas.v
theories/EmitLemmas.v
theories/EmitArr.v
theories/EmitArrPut.v
theories/EmitField.v
theories/EmitDefault.v
theories/EmitFns.v
theories/EmitRead.v
theories/EmitNew.v
theories/EmitConv.v
theories/EmitData.v
theories/EmitSlice.v
theories/EmitTrait.v
theories/EmitGuard.v
theories/EmitBit.v
theories/EmitProt.v
theories/EmitLoop.v
theories/EmitRange.v
theories/EmitBuilder.v
theories/EmitDebug.v
theories/SpecEmit.v
theories/EmitStep.v
theories/PropEmit.v
theories/PropText.v
theories/PropExact.v
theories/PropLossy.v
theories/Attr.v
theories/PropAttr.v
theories/Docs.v
theories/PropDocs.v
theories/DebugText.v
theories/PropDebugText.v
theories/Paths.v
theories/PropPaths.v
theories/PropCargo.v
theories/Outer.v
theories/PropOuter.v
theories/Derives.v
theories/PropDerives.v
theories/Moves.v
theories/PropMoves.v
theories/PropRaw.v
theories/Ignored.v
theories/PropIgnored.v
theories/Scope.v
theories/PropScope.v
theories/BuildDocs.v
theories/PropBuildDocs.v
theories/Toolchain.v
theories/Loosen.v
theories/PropToolchain.v
theories/TestRun.v
theories/RepoTests.v
