-Q theories Verif
theories/Base.v
theories/Utils.v
theories/Algorithms.v
theories/Common.v
theories/SchemeV2.v
theories/SourceStamp.v
theories/Utf8.v
theories/ElfInfo.v
theories/SigningBlock.v
theories/BaseFacts.v
theories/ParseFacts.v
theories/Wire.v
theories/CodecFacts.v
theories/Utf8Facts.v
theories/BlockFacts.v
theories/Built.v
theories/BuiltFacts.v
theories/SearchFacts.v
theories/InjFacts.v
theories/Spec.v
theories/LimitFacts.v
theories/PropBlockFacts.v
theories/PropBlock.v
theories/Zip.v
theories/Digest.v
theories/Module.v
theories/Signable.v
theories/ZipSpec.v
theories/RegionSpec.v
theories/ZipFacts.v
theories/DigestFacts.v
theories/ModuleFacts.v
theories/ModuleProps.v
theories/RawFacts.v
theories/Toy.v
theories/PropModule.v
theories/Signer.v
theories/Verifier.v
theories/ModuleVerify.v
theories/VerifySpec.v
theories/VerifyFacts.v
theories/SignSpec.v
theories/SignFacts.v
theories/VerifyProps.v
theories/EndToEnd.v
theories/ToyVerify.v
theories/PropVerify.v
theories/Keystore.v
theories/KeySpec.v
theories/KeyFacts.v
theories/PropKeystore.v
theories/Elf.v
theories/ElfFacts.v
theories/ElfLayout.v
theories/ElfSpec.v
theories/ElfProps.v
theories/ElfProps2.v
theories/ElfProps3.v
theories/ToyElf.v
theories/PropElf.v
theories/Cli.v
theories/CliSpec.v
theories/CliFacts.v
theories/CliProps.v
theories/CliProps2.v
theories/CliProps3.v
theories/CliProps4.v
theories/ToyCli.v
theories/PropCli.v
theories/CrossSpec.v
theories/CrossProps.v
theories/PropCross.v
theories/ExactFacts.v
theories/DebugFacts.v
theories/SizeFacts.v
theories/PropExact.v
theories/FindSpec.v
theories/GrammarFacts.v
theories/GapFacts.v
theories/PropFind.v
theories/IgnoredSpec.v
theories/IgnoredFacts.v
theories/FlagFacts.v
theories/PropIgnored.v
theories/CredFacts.v
theories/PropCred.v
theories/ReportSpec.v
theories/ReportFacts.v
theories/PropReport.v
theories/Race.v
theories/RaceFacts.v
theories/PropRace.v
theories/Serde.v
theories/SerdeSpec.v
theories/SerdeFacts.v
theories/PropSerde.v
theories/Print.v
theories/PrintSpec.v
theories/PrintFacts.v
theories/PropPrint.v
theories/Base64.v
theories/DumpSpec.v
theories/Base64Facts.v
theories/DumpFacts.v
theories/PropDump.v
theories/InfoPrint.v
theories/InfoSpec.v
theories/InfoFacts.v
theories/PropInfo.v
theories/InfoFacts2.v
theories/PropInfo2.v
theories/SignPrint.v
theories/SignPrintSpec.v
theories/SignPrintFacts.v
theories/PropSignPrint.v
theories/Unified.v
theories/UnifiedSpec.v
theories/UnifiedFacts.v
theories/PropUnified.v
theories/ElfVerifySpec.v
theories/ElfVerifyFacts.v
theories/PropElfVerify.v
theories/PrintFacts2.v
theories/PropPrint2.v
theories/KeyUseSpec.v
theories/KeyUseFacts.v
theories/PropKeyUse.v
theories/HistorySpec.v
theories/HistoryFacts.v
theories/PropHistory.v
theories/Main.v
theories/MainSpec.v
theories/MainFacts.v
theories/MainFacts2.v
theories/PropMain.v
theories/SignPrintFacts2.v
theories/OptionFacts.v
theories/PropSignPrint2.v
theories/Text.v
theories/TextSpec.v
theories/DecFacts.v
theories/TextFacts.v
theories/TextFacts2.v
theories/TextFacts3.v
theories/TextFacts4.v
theories/PropText.v
theories/BuildSpec.v
theories/BuildFacts.v
theories/BuildFacts2.v
theories/PropBuild.v
theories/NoElf.v
theories/NoElfSpec.v
theories/NoElfFacts.v
theories/PropNoElf.v
theories/NoElfCli.v
theories/NoElfCliSpec.v
theories/NoElfCliFacts.v
theories/PropNoElfCli.v
theories/UnzipSpec.v
theories/UnzipFacts.v
theories/UnzipFacts2.v
theories/PropUnzip.v
theories/LoadSpec.v
theories/LoadFacts.v
theories/PropLoad.v
theories/RaceDigest.v
theories/RaceDigestSpec.v
theories/RaceDigestFacts.v
theories/PropRaceDigest.v
theories/AuthSpec.v
theories/AuthFacts.v
theories/AuthFacts2.v
theories/PropAuth.v
theories/Clock.v
theories/ClockSpec.v
theories/ClockFacts.v
theories/ClockFacts2.v
theories/PropClock.v
theories/DigestRace.v
theories/DigestRaceSpec.v
theories/DigestRaceFacts.v
theories/DigestRaceFacts2.v
theories/PropDigestRace.v
theories/PropDigestAlgo.v
