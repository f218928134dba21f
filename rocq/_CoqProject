-Q theories Verif
theories/Base.v
theories/BaseLemmas.v
theories/BitsModel.v
theories/BitsSpec.v
theories/BitsLemmas.v
theories/BitsLemmas2.v
theories/PropBits.v
theories/CyclicModel.v
theories/CyclicLemmas.v
theories/PropCyclic.v
theories/StreamModel.v
theories/StreamSpec.v
theories/StreamHistorySpec.v
theories/PatternModel.v
theories/RbuLemmas.v
theories/UintLemmas.v
theories/RandBitsLemmas.v
theories/ResetLemmas.v
theories/PatternLemmas.v
theories/StreamLemmas.v
theories/PropStream.v
theories/RankModel.v
theories/RankSpec.v
theories/RankLemmas.v
theories/PropRank.v
theories/DoubleModel.v
theories/DoubleLemmas.v
theories/EngineModel.v
theories/EngineSpec.v
theories/EngineLemmas.v
theories/EngineLemmas2.v
theories/PropEngine.v
theories/DoubleLemmas2.v
theories/ReportModel.v
theories/ReportSpec.v
theories/ReportLemmas.v
theories/ReportLemmas2.v
theories/VtestLemmas.v
theories/PropReport.v
theories/Tally.v
theories/TallyLemmas.v
theories/KpermModel.v
theories/KpermLemmas.v
theories/PropKperm.v
theories/RunsModel.v
theories/RunsSpec.v
theories/RunsLemmas.v
theories/PropRuns.v
theories/CrapsModel.v
theories/CrapsSpec.v
theories/CrapsLemmas.v
theories/PropCraps.v
theories/GcdModel.v
theories/GcdSpec.v
theories/GcdLemmas.v
theories/PropGcd.v
theories/NtupleModel.v
theories/WordSpec.v
theories/NtupleLemmas.v
theories/MissingModel.v
theories/MissingLemmas.v
theories/MissingLemmas2.v
theories/MissingLemmas3.v
theories/MissingLemmas4.v
theories/PropMissing.v
theories/CountOnesModel.v
theories/CountOnesSpec.v
theories/CountOnesLemmas.v
theories/PropCountOnes.v
theories/BirthdaysModel.v
theories/BirthdaysSpec.v
theories/BirthdaysLemmas.v
theories/PropBirthdays.v
theories/PopcountModel.v
theories/PopcountLemmas.v
theories/PopcountLemmas2.v
theories/PropPopcount.v
theories/SerialModel.v
theories/SerialLemmas.v
theories/PropSerial.v
theories/BitdistModel.v
theories/BitdistLemmas.v
theories/PropBitdist.v
theories/RgbModel.v
theories/PropRgb.v
theories/TreeModel.v
theories/TreeSpec.v
theories/TreeLemmas.v
theories/TreeLemmas2.v
theories/PropTree.v
theories/AesTables.v
theories/AesSpec.v
theories/AesModel.v
theories/AesLemmas.v
theories/AesLemmas2.v
theories/AesLemmas3.v
theories/PropAes.v
theories/ThreefishSpec.v
theories/ThreefishModel.v
theories/ThreefishLemmas.v
theories/ThreefishLemmas2.v
theories/ThreefishLemmas3.v
theories/PropThreefish.v
theories/FileModel.v
theories/FileSpec.v
theories/FileLemmas.v
theories/FileLemmas2.v
theories/FileLemmas3.v
theories/PropFile.v
theories/LinearLemmas.v
theories/GensModel.v
theories/GensSpec.v
theories/KissLemmas.v
theories/GensLemmas.v
theories/PropGens.v
theories/UniformModel.v
theories/PropUniform.v
theories/CaModel.v
theories/CaLemmas.v
theories/PropCa.v
theories/PropCipherGens.v
theories/RModel.v
theories/RSpec.v
theories/RLemmas.v
theories/DoubleLemmas3.v
theories/RDoubles.v
theories/RLemmas2.v
theories/RDoubles2.v
theories/PropR.v
theories/PropR2.v
theories/CliModel.v
theories/CliSpec.v
theories/CliLemmas.v
theories/CliLemmas2.v
theories/PropCli.v
theories/PropCli2.v
theories/PropCli3.v
theories/SphereModel.v
theories/SphereSpec.v
theories/SphereLemmas.v
theories/SphereLemmas2.v
theories/PropSphere.v
theories/PropSphere2.v
theories/PropSphere3.v
theories/PropSuperkiss.v
theories/KsModel.v
theories/KsSpec.v
theories/KsLemmas.v
theories/KsLemmas2.v
theories/KsLemmas3.v
theories/KsLemmas4.v
theories/KsReals.v
theories/KsLemmas5.v
theories/PropKs.v
theories/PropKs2.v
theories/PropKs3.v
theories/PropKs4.v
theories/KsSpec2.v
theories/KsLemmas6.v
theories/PropKs5.v
theories/ChisqModel.v
theories/ChisqSpec.v
theories/ChisqLemmas.v
theories/ChisqDoubles.v
theories/PropChisq.v
theories/PropChisq2.v
theories/PropChisq3.v
theories/SumsModel.v
theories/SumsSpec.v
theories/SumsLemmas.v
theories/PropSums.v
theories/SqueezeModel.v
theories/SqueezeSpec.v
theories/PropSqueeze.v
theories/SqueezeLaw.v
theories/SqueezeSums.v
theories/PropSqueeze2.v
theories/ExpectedLemmas.v
theories/RankLawSpec.v
theories/RankTestModel.v
theories/RankLawLemmas.v
theories/PropRankLaw.v
theories/OpermTable.v
theories/OpermSpec.v
theories/CountLemmas.v
theories/OpermMerge.v
theories/OpermLemmas.v
theories/OpermAverage.v
theories/OpermMatrix.v
theories/OpermCert.v
theories/OpermInverse.v
theories/OpermStatModel.v
theories/OpermStatSpec.v
theories/OpermReal.v
theories/PropOperm.v
theories/RunsChains.v
theories/RunsArcs.v
theories/RunsStatModel.v
theories/RunsLawSpec.v
theories/RunsCount.v
theories/RunsLaw.v
theories/RunsNumbers.v
theories/PropRunsLaw.v
theories/XtestModel.v
theories/MissingLawSpec.v
theories/MissingLaw.v
theories/MissingLaw2.v
theories/MissingNumbers.v
theories/PropMissingLaw.v
theories/DnaBlock.v
theories/DnaLaw.v
theories/DnaBounds.v
theories/DnaLawSpec.v
theories/PropDnaLaw.v
theories/CrapsStatModel.v
theories/CrapsLawSpec.v
theories/CrapsLaw.v
theories/CrapsLaw2.v
theories/PropCrapsLaw.v
theories/VtestArith.v
theories/VtestLawSpec.v
theories/VtestArithLemmas.v
theories/VtestLaw.v
theories/PropVtestLaw.v
theories/DctModel.v
theories/DctSpec.v
theories/DctLemmas.v
theories/DctLaw.v
theories/PropDct.v
theories/ParkingModel.v
theories/ParkingSpec.v
theories/ParkingLemmas.v
theories/PropParking.v
theories/CoinSpec.v
theories/CoinLaw.v
theories/TreeStatModel.v
theories/CoinNumbers.v
theories/TreeCoin.v
theories/TreeLawSpec.v
theories/TreeLawLemmas.v
theories/TreeBins.v
theories/PropTreeLaw.v
theories/TreeOrderSpec.v
theories/OrderAverage.v
theories/TreeOrder.v
theories/TreeWords.v
theories/TreeNumbers.v
theories/PropTreeOrder.v
theories/WindowLaw.v
theories/WordDigits.v
theories/WordCode.v
theories/BitStatSpec.v
theories/BitStatModel.v
theories/CountLaw.v
theories/CountStat.v
theories/SerialLaw.v
theories/SerialStat.v
theories/BitMoments.v
theories/BitLaw.v
theories/PropBitStat.v
theories/WindowSplit.v
theories/BstreamSpec.v
theories/BstreamModel.v
theories/BstreamLaw.v
theories/BstreamStat.v
theories/PropBstream.v
theories/PropFileName.v
theories/PropChoose.v
theories/BytesSpec.v
theories/BytesStatModel.v
theories/KernelLaw.v
theories/BytesLaw.v
theories/BytesVar.v
theories/PropBytes.v
theories/LaggedModel.v
theories/LaggedSpec.v
theories/PropLagged.v
theories/VtestVarSpec.v
theories/VtestVar.v
theories/PropVtestVar.v
theories/OrdersModel.v
theories/OrdersSpec.v
theories/OrdersLaw.v
theories/PropOrders.v
theories/BitdistStat.v
theories/BitdistLawSpec.v
theories/BitdistLaw.v
theories/PropBitdistLaw.v
theories/MostModel.v
theories/MostSpec.v
theories/MostLaw.v
theories/PropMost.v
theories/BirthdaysStat.v
theories/PropBirthdays2.v
theories/JenkinsModel.v
theories/JenkinsSpec.v
theories/PropJenkins.v
theories/SeedsModel.v
theories/SeedsSpec.v
theories/PropSeeds.v
theories/TimingModel.v
theories/TimingSpec.v
theories/PropTiming.v
theories/ProbModel.v
theories/ProbSpec.v
theories/PropProb.v
theories/RngTableModel.v
theories/PropRngTable.v
theories/UniformityModel.v
theories/UniformitySpec.v
theories/PropUniformity.v
theories/RandomSeedModel.v
theories/PropRandomSeed.v
theories/ListTestsModel.v
theories/PropListTests.v
theories/MainModel.v
theories/PropMain.v
theories/XorSeedModel.v
theories/PropXorSeed.v
theories/GorillaModel.v
theories/PropGorilla.v
theories/GcdChisqModel.v
theories/PropGcdChisq.v
theories/GcdStepsModel.v
theories/PropGcdSteps.v
theories/PropGcdLaw.v
theories/TemplateModel.v
theories/PropTemplate.v
theories/HelpModel.v
theories/PropHelp.v
