-Q theories Verif
theories/Base.v
theories/Model/Callbacks.v
theories/Model/CaseInsensitive.v
theories/Model/CharClass.v
theories/Model/Chars.v
theories/Model/Codegen.v
theories/Model/CodepointSet.v
theories/Model/ConvertCase.v
theories/Model/Decode.v
theories/Model/Encode.v
theories/Model/Escape.v
theories/Model/Expanders.v
theories/Model/GenCase.v
theories/Model/GenClass.v
theories/Model/GenFiles.v
theories/Model/GenNorm.v
theories/Model/LineBuilder.v
theories/Model/LowerBound.v
theories/Model/Memory.v
theories/Model/Messages.v
theories/Model/MessagesMore.v
theories/Model/Normalize.v
theories/Model/Print.v
theories/Model/PyText.v
theories/Model/References.v
theories/Model/Search.v
theories/Model/Split.v
theories/Model/Stream.v
theories/Model/Subrange.v
theories/Model/Unescape.v
theories/Model/Views.v
theories/Proofs/AcceptLemmas.v
theories/Proofs/AgreeExact.v
theories/Proofs/AgreeLemmas.v
theories/Proofs/AlgebraLemmas.v
theories/Proofs/AnyStringLemmas.v
theories/Proofs/AppendLemmas.v
theories/Proofs/BackwardCi.v
theories/Proofs/BackwardLemmas.v
theories/Proofs/BatchLemmas.v
theories/Proofs/BinarySearch.v
theories/Proofs/BlockLemmas.v
theories/Proofs/BlockMissing.v
theories/Proofs/CallbackLemmas.v
theories/Proofs/CallbackProps.v
theories/Proofs/CaseClassLemmas.v
theories/Proofs/CaseLemmas.v
theories/Proofs/CaseOrderLemmas.v
theories/Proofs/CaseRelate.v
theories/Proofs/CaseStringLemmas.v
theories/Proofs/CharClassLemmas.v
theories/Proofs/CharCross.v
theories/Proofs/CharLemmas.v
theories/Proofs/CharMalformed.v
theories/Proofs/CharSliceMalformed.v
theories/Proofs/ChunkLemmas.v
theories/Proofs/CiAlgebra.v
theories/Proofs/CiFindLastLemmas.v
theories/Proofs/CiFindLemmas.v
theories/Proofs/CiLemmas.v
theories/Proofs/CiMalformed.v
theories/Proofs/CiOffset.v
theories/Proofs/CiReplaceLemmas.v
theories/Proofs/CiSimLemmas.v
theories/Proofs/CiTotal.v
theories/Proofs/CiTotal2.v
theories/Proofs/ClassAlias.v
theories/Proofs/ClosureLemmas.v
theories/Proofs/ClosureMore.v
theories/Proofs/CodegenLemmas.v
theories/Proofs/CodepointLemmas.v
theories/Proofs/ColumnLemmas.v
theories/Proofs/CommuteBoth.v
theories/Proofs/CommuteCase.v
theories/Proofs/CommuteChars.v
theories/Proofs/CommuteExact.v
theories/Proofs/CommuteLemmas.v
theories/Proofs/CommuteNorm.v
theories/Proofs/CommuteProps.v
theories/Proofs/CommuteSep.v
theories/Proofs/ComposeLemmas.v
theories/Proofs/ComposeLoop.v
theories/Proofs/ConcatLemmas.v
theories/Proofs/CountLemmas.v
theories/Proofs/CpSetLemmas.v
theories/Proofs/DataExists.v
theories/Proofs/DataFileLemmas.v
theories/Proofs/DecodeLemmas.v
theories/Proofs/EmbedLemmas.v
theories/Proofs/EncodeLemmas.v
theories/Proofs/EscapeLemmas.v
theories/Proofs/EscapeScan.v
theories/Proofs/ExactIndex.v
theories/Proofs/ExpanderBlocks.v
theories/Proofs/ExpanderEvery.v
theories/Proofs/ExpanderLemmas.v
theories/Proofs/ExtremeLemmas.v
theories/Proofs/FoundLemmas.v
theories/Proofs/GenCaseLemmas.v
theories/Proofs/GenClassLemmas.v
theories/Proofs/GenNormLemmas.v
theories/Proofs/GenProps.v
theories/Proofs/HeaderLemmas.v
theories/Proofs/HeaderMain.v
theories/Proofs/HeaderProps.v
theories/Proofs/IndexSequenceLemmas.v
theories/Proofs/JoinSplitLemmas.v
theories/Proofs/LineEndLemmas.v
theories/Proofs/ListsLemmas.v
theories/Proofs/MalformedMessages.v
theories/Proofs/MemoryLemmas.v
theories/Proofs/MessageLemmas.v
theories/Proofs/MirrorLemmas.v
theories/Proofs/MultilineLemmas.v
theories/Proofs/NestedLemmas.v
theories/Proofs/NewlineLemmas.v
theories/Proofs/NoThrowLemmas.v
theories/Proofs/NormEquiv.v
theories/Proofs/NormIdem.v
theories/Proofs/NormLemmas.v
theories/Proofs/NormProps.v
theories/Proofs/NormalFormLemmas.v
theories/Proofs/NormalFormProps.v
theories/Proofs/NumeralLemmas.v
theories/Proofs/OffsetLemmas.v
theories/Proofs/OffsetProps.v
theories/Proofs/ParamLemmas.v
theories/Proofs/PieceLemmas.v
theories/Proofs/PlaceLemmas.v
theories/Proofs/PositionProps.v
theories/Proofs/PrintLemmas.v
theories/Proofs/QuotedLemmas.v
theories/Proofs/ReadingLemmas.v
theories/Proofs/RecordLemmas.v
theories/Proofs/RefLemmas.v
theories/Proofs/ReplaceCpLemmas.v
theories/Proofs/ReplaceLemmas.v
theories/Proofs/ReplaceUnits.v
theories/Proofs/RowLemmas.v
theories/Proofs/SafeLemmas.v
theories/Proofs/SafeLemmas2.v
theories/Proofs/SafeLemmas3.v
theories/Proofs/SafeLemmas4.v
theories/Proofs/SafeMore.v
theories/Proofs/SafeProps.v
theories/Proofs/SearchLemmas.v
theories/Proofs/SelfReplace.v
theories/Proofs/SequenceLemmas.v
theories/Proofs/SizeLemmas.v
theories/Proofs/SkipLemmas.v
theories/Proofs/SliceLemmas.v
theories/Proofs/SplitLemmas.v
theories/Proofs/StageLemmas.v
theories/Proofs/StoredLemmas.v
theories/Proofs/StrayLemmas.v
theories/Proofs/StreamLemmas.v
theories/Proofs/SyncLemmas.v
theories/Proofs/SyncUtf32.v
theories/Proofs/TableLemmas.v
theories/Proofs/TokenLemmas.v
theories/Proofs/TrimLemmas.v
theories/Proofs/UndoLemmas.v
theories/Proofs/UndoReplace.v
theories/Proofs/UnescapeLemmas.v
theories/Proofs/UnescapeLoop.v
theories/Proofs/UnescapeNext.v
theories/Proofs/UnescapeStep.v
theories/Proofs/UnicodeProps.v
theories/Proofs/Utf8Lemmas.v
theories/Proofs/Utf8Props.v
theories/Proofs/ValueLemmas.v
theories/Proofs/ViewLemmas.v
theories/Proofs/ViewProps.v
theories/Proofs/VisitLemmas.v
theories/Proofs/WordLemmas.v
theories/Proofs/WrapLemmas.v
theories/Properties/Agree.v
theories/Properties/Algebra.v
theories/Properties/Batch.v
theories/Properties/Blocks.v
theories/Properties/Callbacks.v
theories/Properties/CaseClasses.v
theories/Properties/CaseInsensitive.v
theories/Properties/CaseOrder.v
theories/Properties/CaseRelate.v
theories/Properties/Chunks.v
theories/Properties/CiAlgebra.v
theories/Properties/Closure.v
theories/Properties/Columns.v
theories/Properties/Commute.v
theories/Properties/Complaints.v
theories/Properties/Counts.v
theories/Properties/CpSet.v
theories/Properties/Embed.v
theories/Properties/Escape.v
theories/Properties/Expanders.v
theories/Properties/Extreme.v
theories/Properties/Found.v
theories/Properties/Generators.v
theories/Properties/Headers.v
theories/Properties/IndexSequences.v
theories/Properties/LineEnds.v
theories/Properties/Memory.v
theories/Properties/Messages.v
theories/Properties/Mirror.v
theories/Properties/Nested.v
theories/Properties/NormalForms.v
theories/Properties/Normalize.v
theories/Properties/Offsets.v
theories/Properties/Places.v
theories/Properties/Positions.v
theories/Properties/Print.v
theories/Properties/Quoted.v
theories/Properties/Records.v
theories/Properties/References.v
theories/Properties/Replace.v
theories/Properties/Row.v
theories/Properties/Safety.v
theories/Properties/Search.v
theories/Properties/Sequences.v
theories/Properties/Sizes.v
theories/Properties/Split.v
theories/Properties/Stages.v
theories/Properties/Stored.v
theories/Properties/Streams.v
theories/Properties/Success.v
theories/Properties/Tables.v
theories/Properties/Templates.v
theories/Properties/Undo.v
theories/Properties/UndoReplace.v
theories/Properties/Unicode.v
theories/Properties/Utf8.v
theories/Properties/Values.v
theories/Properties/Words.v
theories/Properties/Wrap.v
theories/Spec/Algebra.v
theories/Spec/Batch.v
theories/Spec/Blocks.v
theories/Spec/Boundaries.v
theories/Spec/Calls.v
theories/Spec/Case.v
theories/Spec/CaseClasses.v
theories/Spec/CaseFold.v
theories/Spec/CaseOrder.v
theories/Spec/Category.v
theories/Spec/Chunks.v
theories/Spec/Commute.v
theories/Spec/Complaints.v
theories/Spec/Counts.v
theories/Spec/CpSet.v
theories/Spec/CppText.v
theories/Spec/DataFile.v
theories/Spec/Embed.v
theories/Spec/Escape.v
theories/Spec/Expanders.v
theories/Spec/Iterate.v
theories/Spec/LineEnds.v
theories/Spec/Messages.v
theories/Spec/Mirror.v
theories/Spec/Newline.v
theories/Spec/NormalForms.v
theories/Spec/Normalization.v
theories/Spec/Offsets.v
theories/Spec/Print.v
theories/Spec/Quoted.v
theories/Spec/Replace.v
theories/Spec/Safety.v
theories/Spec/Sequences.v
theories/Spec/Slices.v
theories/Spec/Split.v
theories/Spec/Stream.v
theories/Spec/Strings.v
theories/Spec/Stuck.v
theories/Spec/Success.v
theories/Spec/TableRows.v
theories/Spec/Template.v
theories/Spec/Tokens.v
theories/Spec/UnicodeData.v
theories/Spec/Utf8Spec.v
theories/Spec/Views.v
theories/Spec/Visits.v
theories/Spec/WellFormed.v
theories/Spec/Words.v
theories/Spec/Wrap.v
theories/Tables/CanonicalTables.v
theories/Tables/CaseTables.v
theories/Tables/CharClassTables.v
theories/Tables/HeaderTexts.v
theories/Tables/NormalizationTables.v
theories/Tables/UnicodeDataTables.v
theories/Tables/UnicodeRows.v
theories/Tests/RepoTests.v
