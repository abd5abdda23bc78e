-Q theories Verif
theories/Base.v
theories/BaseFacts.v
theories/Mem.v
theories/MemFacts.v
theories/Tables.v
theories/Nodes.v
theories/NodeFacts.v
theories/SearchFacts.v
theories/Trees.v
theories/LevelFacts.v
theories/RootFacts.v
theories/TreeFacts.v
theories/TreeBuild.v
theories/Words.v
theories/WordFacts.v
theories/Blocks.v
theories/Spec.v
theories/Bitmap.v
theories/Usage.v
theories/BlockFacts.v
theories/BitmapFacts.v
theories/ProgramFacts.v
theories/PropFacts.v
theories/SpecIndex.v
theories/Drivers.v
theories/IndexFacts.v
theories/PropFacts2.v
theories/LimitFacts.v
theories/DenseFacts.v
theories/Demo.v
theories/Demo2.v
theories/LimitProps.v
theories/Properties1.v
theories/Properties2.v
theories/Properties3.v
theories/SpecSystem.v
theories/System.v
theories/SystemFacts.v
theories/ValueFacts.v
theories/ShareFacts.v
theories/Demo3.v
theories/Properties4.v
theories/NdebugFacts.v
theories/ContractFacts.v
theories/Properties5.v
theories/Conc.v
theories/ConcFacts.v
theories/SpecConc.v
theories/ThreadFacts.v
theories/RaceFacts.v
theories/WrongFacts.v
theories/Demo4.v
theories/Properties6.v
theories/Random.v
theories/SpecRandom.v
theories/RandomFacts.v
theories/Properties7.v
theories/SpecHft.v
theories/Hft.v
theories/HftFacts.v
theories/HftMem.v
theories/HftBuild.v
theories/HftStore.v
theories/HftLayF.v
theories/HftLayL.v
theories/HftOps.v
theories/HftClient.v
theories/HftLimits.v
theories/HftTypeL.v
theories/HftMisuse.v
theories/HftPerf.v
theories/HftPerfFacts.v
theories/HftHybrid.v
theories/HftHybridFacts.v
theories/Demo5.v
theories/Properties8.v
theories/Properties9.v
theories/Properties10.v
theories/SpecPerf.v
theories/Perf.v
theories/PerfFacts.v
theories/Properties11.v
theories/SpecPoppy.v
theories/Poppy.v
theories/PoppyFacts.v
theories/PoppyFacts2.v
theories/PoppyProps.v
theories/Properties12.v
theories/SpecKernel.v
theories/Kernels.v
theories/KernelFacts.v
theories/KernelFacts2.v
theories/Properties13.v
theories/SpecText.v
theories/SpecFile.v
theories/MrRank.v
theories/MrRankFacts.v
theories/MrRankFacts2.v
theories/MrRankFacts3.v
theories/MrRankFacts4.v
theories/MrRankProps.v
theories/Properties14.v
theories/MrSelect.v
theories/MrSelectFacts.v
theories/MrSelectFacts2.v
theories/MrSelectFacts3.v
theories/MrSelectFacts4.v
theories/MrSelectFacts5.v
theories/MrSelectFacts6.v
theories/MrSelectProps.v
theories/MrFile.v
theories/MrFileFacts.v
theories/MrFileFacts2.v
theories/MrFileFacts3.v
theories/MrFileFacts4.v
theories/MrFileFacts5.v
theories/MrFileProps.v
theories/Properties15.v
theories/Properties16.v
theories/SpecOrder.v
theories/PerfBase.v
theories/OrderFacts.v
theories/PerfBaseFacts.v
theories/Properties17.v
theories/SpecMpe.v
theories/MrMpe.v
theories/MrMpeFacts.v
theories/MrMpeFacts2.v
theories/MrMpeFacts3.v
theories/MrMpeFacts4.v
theories/MrMpeFacts5.v
theories/MrMpeProps.v
theories/Properties18.v
theories/MrMpeUse.v
theories/MrMpeUseFacts.v
theories/Properties19.v
theories/SpecSmpe.v
theories/MrSmpe.v
theories/MrSmpeFacts.v
theories/MrSmpeFacts2.v
theories/MrSmpeFacts3.v
theories/MrSmpeFacts4.v
theories/MrSmpeFacts5.v
theories/MrSmpeFacts6.v
theories/MrSmpeFacts7.v
theories/MrSmpeProps.v
theories/Properties20.v
theories/MrSmpeUse.v
theories/MrSmpeUseFacts.v
theories/Properties21.v
theories/SpecAlign.v
theories/MrAlign.v
theories/MrAlignFacts.v
theories/MrAlignProps.v
theories/Properties22.v
theories/SpecPoppyBig.v
theories/PoppyBigFacts.v
theories/PoppyBigFacts2.v
theories/PoppyBigFacts3.v
theories/PoppyBigProps.v
theories/PoppyBigProps2.v
theories/Properties23.v
theories/SpecText32.v
theories/MrRank32.v
theories/MrRank32Facts.v
theories/MrRank32Facts2.v
theories/MrRank32Facts3.v
theories/MrRank32Facts4.v
theories/MrRank32Props.v
theories/Properties24.v
theories/SpecFile32.v
theories/MrFile32Facts.v
theories/MrFile32Facts2.v
theories/MrFile32Props.v
theories/Properties25.v
theories/MrMpe32.v
theories/MrMpe32Facts.v
theories/MrMpe32Facts2.v
theories/MrMpe32Facts3.v
theories/MrMpe32Facts4.v
theories/MrMpe32Props.v
theories/Properties26.v
theories/SpecSel32.v
theories/MrSelect32.v
theories/MrSelect32Facts.v
theories/MrSelect32Facts2.v
theories/MrSelect32Facts3.v
theories/MrSelect32Facts4.v
theories/MrSelect32Facts5.v
theories/MrSelect32Facts6.v
theories/MrSelect32Props.v
theories/Properties27.v
theories/SpecSelFile32.v
theories/MrSelFile32.v
theories/MrSelFile32Facts.v
theories/MrSelFile32Facts2.v
theories/MrSelFile32Props.v
theories/Properties28.v
theories/SpecSmpe32.v
theories/MrSmpe32.v
theories/MrSmpe32Facts.v
theories/MrSmpe32Facts2.v
theories/MrSmpe32Facts3.v
theories/MrSmpe32Facts4.v
theories/MrSmpe32Facts5.v
theories/MrSmpe32Facts6.v
theories/MrSmpe32Facts7.v
theories/MrSmpe32Props.v
theories/Properties29.v
theories/MrSmpe32UseFacts.v
theories/Properties30.v
theories/SpecHftFile.v
theories/HftFile.v
theories/HftFileFacts.v
theories/HftFileFacts2.v
theories/HftFileFacts3.v
theories/HftFileFacts4.v
theories/Properties31.v
theories/PoppyLinear.v
theories/PoppyLinearFacts.v
theories/Properties32.v
theories/SpecAlign32.v
theories/MrAlign32.v
theories/MrAlign32Facts.v
theories/MrAlign32Props.v
theories/Properties33.v
theories/SpecTypeF.v
theories/TypeFAlign.v
theories/TypeFAlignFacts.v
theories/Properties34.v
theories/SpecHftWord.v
theories/HftWord.v
theories/HftWordFacts.v
theories/HftWordFacts2.v
theories/Properties35.v
theories/HftIncFacts.v
theories/Properties36.v
theories/SpecDarray.v
theories/Darray.v
theories/DarrayFacts.v
theories/Properties37.v
theories/SpecOwn.v
theories/MrOwn.v
theories/MrOwnFacts.v
theories/Properties38.v
theories/SpecHoles.v
theories/HftHoles.v
theories/HftHolesFacts.v
theories/Properties39.v
theories/SpecPopOwn.v
theories/PopOwn.v
theories/PopOwnFacts.v
theories/Properties40.v
theories/MrRace.v
theories/MrRaceFacts.v
theories/MrRaceFacts2.v
theories/MrRaceFacts3.v
theories/Properties41.v
theories/MrRaceCf.v
theories/MrRaceCfFacts.v
theories/Properties42.v
