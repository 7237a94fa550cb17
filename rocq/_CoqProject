-Q theories Verif
theories/Machine.v
theories/Tables.v
theories/Model.v
theories/Arith.v
theories/FareyTables.v
theories/ExpFacts.v
theories/Products.v
theories/IntCheck.v
theories/Core.v
theories/EdgeCheck.v
theories/Nearest.v
theories/Directed.v
theories/Ones.v
theories/Link.v
theories/Spec.v
theories/Reading.v
theories/Bridge.v
theories/ReadsBack.v
theories/Shortest.v
theories/Main.v
theories/Results.v
theories/Inward.v
theories/Congruence.v
theories/Logs.v
theories/Signs.v
theories/CacheFacts.v
theories/Builds.v
theories/Long.v
theories/Claims.v
theories/CharsModel.v
theories/TextSpec.v
theories/Chars.v
theories/Texts.v
theories/Outputs.v
theories/Unique.v
theories/Nearby.v
theories/Properties.v
theories/UserSpec.v
theories/Users.v
theories/IeeeSpec.v
theories/Ieee.v
theories/PropertiesUsers.v
theories/BigintModel.v
theories/BigSpec.v
theories/BigFacts.v
theories/Bigint.v
theories/BigintOps.v
theories/BigintMul.v
theories/BigClaims.v
theories/GenModel.v
theories/GenBits.v
theories/GenLoop.v
theories/GenTables.v
theories/PropertiesTools.v
theories/RyuTables.v
theories/RyuModel.v
theories/RyuFarey.v
theories/RyuArith.v
theories/RyuCore.v
theories/RyuScale.v
theories/RyuFlags.v
theories/RyuScaled.v
theories/RyuLoops.v
theories/RyuDecimal.v
theories/RyuChars.v
theories/TestModel.v
theories/RyuClaims.v
theories/PropertiesRyu.v
theories/DivModel.v
theories/DivSpec.v
theories/Division.v
theories/EuclidModel.v
theories/EuclidSpec.v
theories/EuclidNum.v
theories/Euclid.v
theories/DivCross.v
theories/DivClaims.v
theories/DivCrossClaims.v
theories/PropertiesDivision.v
theories/LengthModel.v
theories/LengthTables.v
theories/LengthCerts.v
theories/LengthNum.v
theories/LengthCheck.v
theories/LengthSpec.v
theories/Lengths.v
theories/LengthClaims.v
theories/LengthShort.v
theories/LengthExact.v
theories/PropertiesLengths.v
theories/CheckModel.v
theories/RandomModel.v
theories/ProgramSpec.v
theories/LiveClaims.v
theories/RandomClaims.v
theories/RandomSpec.v
theories/RandomFirst.v
theories/Reader.v
theories/CheckClaims.v
theories/LogCounts.v
theories/LogClaims.v
theories/LogRanges.v
theories/PropertiesPrograms.v
theories/FileTexts.v
theories/FileModel.v
theories/FileSpec.v
theories/FileClaims.v
theories/PropertiesFiles.v
theories/BenchModel.v
theories/BenchSpec.v
theories/BenchClaims.v
theories/BenchTimesSpec.v
theories/BenchTimes.v
theories/PropertiesBench.v
theories/StopSpec.v
theories/LeftExact.v
theories/InwardExact.v
theories/Masked.v
theories/Constants.v
theories/PropertiesInward.v
theories/BigExact.v
theories/PropertiesBig.v
theories/FormatSpec.v
theories/Formats.v
theories/PropertiesFormats.v
theories/LiveModel.v
theories/LiveSpec.v
theories/LiveFacts.v
theories/PropertiesLive.v
theories/ScreenModel.v
theories/ScreenSpec.v
theories/ScreenFacts.v
theories/PropertiesScreen.v
theories/FormSpec.v
theories/CppSpec.v
theories/Forms.v
theories/PropertiesForms.v
theories/SmallTables.v
theories/SmallModel.v
theories/SmallFacts.v
theories/PropertiesSmall.v
theories/Tight.v
theories/Overrun.v
theories/TightClaims.v
theories/PropertiesTight.v
theories/ShortText.v
theories/CppText.v
theories/PlainText.v
theories/RoundSpec.v
theories/RoundedDigits.v
theories/PropertiesReaders.v
theories/NarrowTables.v
theories/NarrowSpec.v
theories/NarrowRows.v
theories/Narrow.v
theories/PowerTables.v
theories/Powers.v
theories/NarrowClaims.v
theories/JsonSpec.v
theories/Json.v
theories/PropertiesNarrow.v
theories/WriterSpec.v
theories/Writer.v
theories/PropertiesWriter.v
theories/MachineArith.v
theories/FastPath.v
theories/PropertiesFast.v
theories/SpecialInputs.v
theories/PropertiesSpecial.v
theories/PropertiesConstants.v
