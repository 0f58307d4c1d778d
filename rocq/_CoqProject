-Q theories Verif

theories/Spec/Classes.v
theories/Spec/UcdRanges.v
theories/Spec/Utf8.v
theories/Spec/UAX29.v
theories/Spec/Segmentation.v
theories/Spec/PropNames.v
theories/Data/TableRaw.v
theories/Data/UcdGraphemeBreakProperty.v
theories/Data/UcdEmojiData.v
theories/Data/UcdDerivedCoreProperties.v
theories/Data/UcdGraphemeBreakTest.v
theories/Model/Base.v
theories/Model/CharProps.v
theories/Model/Lookup.v
theories/Model/Machine.v
theories/Model/Scan.v
theories/Model/PropNames.v
theories/Proofs/Basics.v
theories/Proofs/TableCheck.v
theories/Proofs/LookupFacts.v
theories/Proofs/MachineFacts.v
theories/Proofs/ScanFacts.v
theories/Model/Drivers.v
theories/Model/Bufio.v
theories/Model/Work.v
theories/Model/Memory.v
theories/Spec/Readers.v
theories/Spec/Room.v
theories/Proofs/TextFacts.v
theories/Proofs/TextProps.v
theories/Proofs/DriverFacts.v
theories/Proofs/UnicodeFacts.v
theories/Proofs/BufioFacts.v
theories/Proofs/KeepFacts.v
theories/Proofs/MemoryFacts.v
theories/Properties/Splitting.v
theories/Properties/Unicode.v
theories/Properties/Lookup.v
theories/Properties/Bufio.v
theories/Properties/Memory.v
theories/Spec/Assignments.v
theories/Model/GenTable.v
theories/Proofs/GenRaw.v
theories/Proofs/GenCompact.v
theories/Proofs/GenFacts.v
theories/Spec/Limits.v
theories/Proofs/GenCount.v
theories/Properties/Generator.v
theories/Model/UcdParse.v
theories/Model/BuildTree.v
theories/Model/TableTests.v
theories/Spec/UcdFile.v
theories/Proofs/ParseFacts.v
theories/Proofs/UcdFacts.v
theories/Proofs/TestDataFacts.v
theories/Properties/Parsing.v
theories/Spec/Generation.v
theories/Spec/TableTests.v
theories/Proofs/BuildFacts.v
theories/Proofs/FileCheck.v
theories/Properties/Reproduce.v
theories/Properties/Limits.v
theories/Model/AutoVersion.v
theories/Properties/AutoVersion.v
theories/Data/TableRawGo.v
theories/Spec/GoSource.v
theories/Model/Emit.v
theories/Model/GenMain.v
theories/Proofs/EmitFacts.v
theories/Properties/Emission.v
theories/Proofs/TestFile.v
theories/Properties/Conformance.v
theories/Properties/Editing.v
theories/Model/EntryMemory.v
theories/Proofs/EntryMemoryFacts.v
theories/Properties/Entries.v
theories/Spec/TestReading.v
theories/Spec/ErrorValues.v
theories/Spec/AnyFiles.v
theories/Proofs/TestReading.v
theories/Proofs/AnyFiles.v
theories/Properties/TestData.v
theories/Properties/AnyFiles.v
theories/Properties/GenMain.v
theories/Model/States.v
theories/Spec/Histories.v
theories/Properties/States.v
theories/Spec/ClusterRegex.v
theories/Proofs/BoundaryFacts.v
theories/Proofs/RegexFacts.v
theories/Proofs/RoomFacts.v
theories/Properties/Regex.v
theories/Properties/Locality.v
theories/Spec/Runes.v
theories/Properties/Runes.v
theories/Properties/Rearrange.v
theories/Properties/TableTests.v
theories/Properties/Room.v
theories/Proofs/WorkFacts.v
theories/Properties/Work.v
theories/Spec/Hangul.v
theories/Properties/Hangul.v
theories/Model/Writing.v
theories/Properties/Writing.v
theories/Model/OtherTables.v
theories/Spec/Versions.v
theories/Proofs/VersionFacts.v
theories/Properties/Versions.v
theories/Data/Canonical.v
theories/Spec/Respelling.v
theories/Spec/Canonical.v
theories/Properties/Respelling.v
theories/Properties/Canonical.v
theories/Spec/Truncation.v
theories/Properties/Truncation.v
theories/Model/WordInt.v
theories/Properties/WordInt.v
theories/Properties/LookBehind.v
theories/Data/GoSources.v
theories/Model/GoSyntax.v
theories/Model/GoSemantics.v
theories/Model/GoLibrary.v
theories/Proofs/GoFacts.v
theories/Proofs/GoSymbolic.v
theories/Proofs/GoMachine.v
theories/Proofs/GoLookup.v
theories/Proofs/GoScan.v
theories/Proofs/GoNames.v
theories/Properties/Source.v
theories/Data/UcdSources.v
theories/Model/GoRuns.v
theories/Model/UcdSyntax.v
theories/Model/UcdSemantics.v
theories/Model/UcdSourceUnit.v
theories/Proofs/GoFuel.v
theories/Proofs/UcdNext.v
theories/Proofs/UcdRun.v
theories/Properties/SourceText.v
theories/Properties/UcdSource.v
theories/Model/UcdRuns.v
theories/Properties/UcdSourceFiles.v
theories/Model/GoSplit.v
theories/Properties/SourceScanner.v
theories/Properties/SourceTests.v
theories/Proofs/EmitParse.v
theories/Model/GoRegenerated.v
theories/Properties/Regenerated.v
