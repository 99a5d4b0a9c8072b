-Q theories Verif
theories/Model/Go.v
theories/Model/Codec.v
theories/Model/ByteBool.v
theories/Model/IntRle.v
theories/Model/Chunk.v
theories/Model/Stream.v
theories/Model/Schema.v
theories/Model/Rows.v
theories/Model/File.v
theories/Model/Time.v
theories/Model/Decimal.v
theories/Model/Column.v
theories/Model/Nested.v
theories/Model/Tree.v
theories/Model/Wire.v
theories/Model/Assembled.v
theories/Model/Close.v
theories/Model/Failure.v
theories/Spec/BoolSpec.v
theories/Proofs/Base.v
theories/Proofs/CodecP.v
theories/Spec/Session.v
theories/Proofs/SessionP.v
theories/Proofs/ByteBoolP.v
theories/Spec/Bits.v
theories/Proofs/BitsP.v
theories/Spec/IntSpec.v
theories/Spec/OrcInt.v
theories/Spec/ChunkSpec.v
theories/Spec/StreamSpec.v
theories/Spec/SchemaSpec.v
theories/Spec/ValueSpec.v
theories/Spec/RowsSpec.v
theories/Spec/SeekFileSpec.v
theories/Spec/StripeSizeSpec.v
theories/Spec/FileSpec.v
theories/Spec/ColumnSpec.v
theories/Spec/StatsSpec.v
theories/Spec/AssemblySpec.v
theories/Spec/EndSpec.v
theories/Proofs/IntRunsP.v
theories/Proofs/IntDeltaP.v
theories/Proofs/IntPatchP.v
theories/Proofs/IntStreamP.v
theories/Proofs/IntClaimsP.v
theories/Proofs/OrcIntP.v
theories/Proofs/IntFaultsP.v
theories/Proofs/CodecClaimsP.v
theories/Proofs/ChunkP.v
theories/Proofs/StreamP.v
theories/Proofs/StreamClaimsP.v
theories/Proofs/SchemaP.v
theories/Proofs/ValueP.v
theories/Proofs/RowsP.v
theories/Proofs/FileP.v
theories/Proofs/TailP.v
theories/Proofs/OpenP.v
theories/Proofs/FileClaimsP.v
theories/Proofs/StripeSizeP.v
theories/Proofs/WireP.v
theories/Proofs/TimeP.v
theories/Proofs/RoundP.v
theories/Proofs/IntBytesP.v
theories/Proofs/ReadP.v
theories/Proofs/ColumnP.v
theories/Proofs/ColumnReadP.v
theories/Proofs/ColumnTotalP.v
theories/Proofs/ColumnFaultsP.v
theories/Proofs/StatsP.v
theories/Proofs/IndexStatsP.v
theories/Proofs/OpenBatchP.v
theories/Proofs/AssembledP.v
theories/Proofs/TreeP.v
theories/Proofs/LeafP.v
theories/Proofs/BatchP.v
theories/Proofs/EndP.v
theories/Proofs/EndColP.v
theories/Proofs/OpenTreeP.v
theories/Proofs/StripeNpP.v
theories/Proofs/EndFileP.v
theories/Proofs/EndMainP.v
theories/Proofs/EndClaimsP.v
theories/Properties/Scalars.v
theories/Properties/ByteBool.v
theories/Properties/IntRuns.v
theories/Properties/Streams.v
theories/Properties/Schema.v
theories/Properties/Rows.v
theories/Properties/Time.v
theories/Properties/Columns.v
theories/Properties/Stats.v
theories/Properties/File.v
theories/Spec/SeekSpec.v
theories/Spec/NestedSpec.v
theories/Proofs/SeekP.v
theories/Properties/Seek.v
theories/Proofs/SkipP.v
theories/Proofs/NestedP.v
theories/Properties/Skip.v
theories/Properties/Nested.v
theories/Properties/End.v
theories/Proofs/SeekFileP.v
theories/Properties/SeekFile.v
theories/Properties/Values.v
theories/Spec/OrcColumn.v
theories/Spec/OrcFile.v
theories/Spec/WriterSpec.v
theories/Spec/ProjectSpec.v
theories/Spec/ProgressSpec.v
theories/Spec/SplitSpec.v
theories/Spec/CloseSpec.v
theories/Proofs/OrcColumnP.v
theories/Proofs/OrcFileP.v
theories/Proofs/ProjectP.v
theories/Proofs/CloseP.v
theories/Proofs/OpenCloseP.v
theories/Proofs/ProgressP.v
theories/Proofs/SplitP.v
theories/Proofs/WrittenCloseP.v
theories/Proofs/OrcWriteIntP.v
theories/Proofs/OrcWriteP.v
theories/Proofs/OrcWriteFileP.v
theories/Proofs/OrcCheckP.v
theories/Proofs/RestartP.v
theories/Proofs/OrcSeekP.v
theories/Properties/Foreign.v
theories/Properties/ForeignFile.v
theories/Properties/Project.v
theories/Properties/SeekForeign.v
theories/Properties/StripeSize.v
theories/Properties/Progress.v
theories/Properties/Split.v
theories/Properties/OrcWriter.v
theories/Spec/CrashSpec.v
theories/Spec/OpenSpec.v
theories/Proofs/CrashP.v
theories/Proofs/CrashSeekP.v
theories/Proofs/SoundP.v
theories/Properties/Crash.v
theories/Properties/Cause.v
theories/Model/Memory.v
theories/Spec/MemorySpec.v
theories/Proofs/MemoryP.v
theories/Proofs/MemoryCountP.v
theories/Properties/Memory.v
theories/Model/Io.v
theories/Model/Life.v
theories/Spec/IoSpec.v
theories/Spec/LifeSpec.v
theories/Proofs/IoP.v
theories/Proofs/FaultP.v
theories/Proofs/IoOutP.v
theories/Proofs/LifeP.v
theories/Properties/Io.v
theories/Properties/Life.v
theories/Properties/Faults.v
theories/Properties/Close.v
theories/Proofs/SizeP.v
theories/Properties/Sizes.v
theories/Spec/FailureSpec.v
theories/Spec/RefusalSpec.v
theories/Proofs/FailureP.v
theories/Proofs/RefusalP.v
theories/Spec/CauseSpec.v
theories/Proofs/CauseP.v
theories/Proofs/CauseDictP.v
theories/Proofs/CauseIffP.v
theories/Proofs/CausePresentP.v
theories/Proofs/FailureFileP.v
theories/Proofs/FailureRowsP.v
theories/Properties/Failure.v
theories/Tests/Encoding.v
theories/Tests/Columns.v
theories/Tests/Interop.v
theories/Tests/Files.v
theories/Model/Options.v
theories/Model/Helper.v
theories/Spec/HelperSpec.v
theories/Proofs/OptionsP.v
theories/Proofs/HelperP.v
theories/Properties/Options.v
theories/Properties/Helper.v
theories/Model/Check.v
theories/Spec/CheckSpec.v
theories/Proofs/CheckP.v
theories/Properties/Check.v
theories/Proofs/PatchIffP.v
theories/Proofs/IntNearP.v
theories/Spec/PatchSpec.v
theories/Proofs/PatchPanicP.v
theories/Proofs/PatchWideP.v
theories/Tests/Pins.v
theories/Model/Unused.v
theories/Spec/UnusedSpec.v
theories/Proofs/UnusedP.v
theories/Properties/Unused.v
