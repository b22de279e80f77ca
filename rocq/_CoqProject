-Q theories Verif
theories/PyBase.v
theories/Spec.v
theories/DataAccess.v
theories/BitFacts.v
theories/DataAccessFacts.v
theories/DataAccessThms.v
theories/Conformance_DataAccess.v
theories/Props_DataAccess.v
theories/Structure.v
theories/Resources.v
theories/Utf8.v
theories/StructSpec.v
theories/StructFacts.v
theories/Props_Structure.v
theories/Builder.v
theories/Archive.v
theories/ArchiveSpec.v
theories/BuilderFacts.v
theories/ResourceFacts.v
theories/SliceSpec.v
theories/SliceFacts.v
theories/ResourceSpec.v
theories/MultiFacts.v
theories/RawFacts.v
theories/ResourceThms.v
theories/Props_Resources.v
theories/Props_Limits.v
theories/DeclSpec.v
theories/DeclFacts.v
theories/Props_Decl.v
theories/OpenSpec.v
theories/ArchiveFacts.v
theories/HistorySpec.v
theories/HistoryFacts.v
theories/CrashFacts.v
theories/EndToEnd.v
theories/TarSpec.v
theories/TarFacts.v
theories/TarPack.v
theories/Writer.v
theories/WriterFacts.v
theories/Props_Archive.v
theories/Props_Builder.v
theories/GraphSpec.v
theories/GenTraversal.v
theories/GenTraversalFacts.v
theories/PyText.v
theories/GenTypes.v
theories/GenSpec.v
theories/GenTypesFacts.v
theories/Props_GenTypes.v
theories/GenTree.v
theories/GenTreeFacts.v
theories/GenBuild.v
theories/GenBuildFacts.v
theories/GenPassFacts.v
theories/GenAstFacts.v
theories/GenLayoutFacts.v
theories/GenAstSpec.v
theories/GenResolveFacts.v
theories/GenAstThms.v
theories/GenLimitFacts.v
theories/GenMergeFacts.v
theories/GenShapeFacts.v
theories/GenErrorFacts.v
theories/GenEvery.v
theories/GenTidy.v
theories/GenFieldFacts.v
theories/GenWords.v
theories/GenFlatdata.v
theories/Conformance_GenFlatdata.v
theories/GenPython.v
theories/GenOutFacts.v
theories/GenFinal.v
theories/GenRender.v
theories/GenOutSpec.v
theories/GenModule.v
theories/GenClassNames.v
theories/GenInk.v
theories/UsableSpec.v
theories/GenUsable.v
theories/Props_GenOutput.v
theories/Props_GenTree.v
theories/GenEquiv.v
theories/EmbedSpec.v
theories/GenAgree.v
theories/GenMentions.v
theories/Props_Embed.v
theories/GenDecode.v
theories/SameSpec.v
theories/GenSame.v
theories/EvolveFacts.v
theories/Props_Same.v
theories/Codecs.v
theories/CodecSpec.v
theories/CodecFacts.v
theories/CodecThms.v
theories/Props_Codecs.v
theories/CppTar.v
theories/CppTarSpec.v
theories/CppTarFacts.v
theories/Props_CppTar.v
theories/Grammar.v
theories/GrammarSpec.v
theories/GrammarLex.v
theories/GrammarFacts.v
theories/GrammarThms.v
theories/GrammarNames.v
theories/Props_Grammar.v
theories/NormSpec.v
theories/NormLex.v
theories/NormText.v
theories/NormWritten.v
theories/NormReady.v
theories/Props_Norm.v
theories/AcceptSpec.v
theories/AcceptCreate.v
theories/AcceptResolve.v
theories/AcceptIndex.v
theories/AcceptLocal.v
theories/AcceptConst.v
theories/AcceptCarry.v
theories/AcceptTypes.v
theories/AcceptSizes.v
theories/Props_Accept.v
theories/Streams.v
theories/CppStore.v
theories/StoreSpec.v
theories/StoreFacts.v
theories/CppFacts.v
theories/CppViews.v
theories/CppMulti.v
theories/Props_Cpp.v
theories/CppArchive.v
theories/CppArchiveSpec.v
theories/CppArchiveFacts.v
theories/CppSessionSpec.v
theories/CppSessionFacts.v
theories/Props_CppArchive.v
theories/RustStore.v
theories/RustSpec.v
theories/RustFacts.v
theories/RustVectors.v
theories/RustMulti.v
theories/Props_Rust.v
theories/RustArchive.v
theories/RustArchiveSpec.v
theories/RustArchiveFacts.v
theories/RustSessionSpec.v
theories/RustSessionFacts.v
theories/Props_RustArchive.v
theories/CrossSpec.v
theories/Props_Cross.v
theories/GoArchive.v
theories/GoSpec.v
theories/GoFacts.v
theories/Props_Go.v
theories/CppDiff.v
theories/DiffSpec.v
theories/Props_Diff.v
theories/GenLiterals.v
theories/LiteralSpec.v
theories/Props_Literals.v
theories/GenDocs.v
theories/DocSpec.v
theories/Props_Docs.v
theories/GenStructs.v
theories/StructOpsSpec.v
theories/StructOpsFacts.v
theories/Props_StructOps.v
theories/NestedSpec.v
theories/Props_Nested.v
theories/Props_NestedGen.v
theories/GenNumbers.v
theories/NumberSpec.v
theories/Props_Numbers.v
theories/GenNames.v
theories/NameSpec.v
theories/NameFacts.v
theories/Props_Names.v
theories/GenPaths.v
theories/PathSpec.v
theories/PathFacts.v
theories/Props_Paths.v
theories/EngineSpec.v
theories/GenEngine.v
theories/EngineFacts.v
theories/Props_Engine.v
theories/Props_EngineCase.v
theories/IterSpec.v
theories/CppIter.v
theories/Props_CppIter.v
theories/GenDot.v
theories/DotSpec.v
theories/DotFacts.v
theories/DotFields.v
theories/DotLabels.v
theories/Props_Dot.v
theories/RustTar.v
theories/RustTarSpec.v
theories/Props_RustTar.v
theories/RustBuild.v
theories/BuildSpec.v
theories/Props_Build.v
theories/MergeBuiltins.v
theories/MergeNames.v
theories/Props_Merge.v
theories/OrderSpec.v
theories/Props_Order.v
theories/HashSpec.v
theories/Props_Hash.v
theories/Props_OrderText.v
theories/LayoutFacts.v
theories/Props_Layout.v
