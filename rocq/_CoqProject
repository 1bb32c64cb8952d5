-Q theories Verif
theories/Base.v
theories/Lo.v
theories/Collections.v
theories/SpecCollections.v
theories/CollectionsFacts.v
theories/PropCollections.v
theories/Paths.v
theories/Level.v
theories/Kernel.v
theories/Session.v
theories/Defaults.v
theories/Spec.v
theories/KernelRel.v
theories/KernelFacts.v
theories/KernelInv.v
theories/WalkFacts.v
theories/StandsFacts.v
theories/JournalFacts.v
theories/SessionFacts.v
theories/RescueFacts.v
theories/FilesFacts.v
theories/BracketFacts.v
theories/WalkCor.v
theories/PathFacts.v
theories/WalkProps.v
theories/ParentFacts.v
theories/ReadFacts.v
theories/Simulate.v
theories/Feature.v
theories/Hybrid.v
theories/HibFacts.v
theories/ChildFacts.v
theories/Cases.v
theories/CasesFacts.v
theories/WalkRefuted.v
theories/PropWalk.v
theories/FeatureCor.v
theories/PropFeature.v
theories/Filters.v
theories/SpecFilter.v
theories/FiltersFacts.v
theories/Hooks.v
theories/Life.v
theories/SpecHooks.v
theories/HooksFacts.v
theories/PropHooks.v
theories/AskFacts.v
theories/Options.v
theories/Build.v
theories/Composites.v
theories/SpecBuild.v
theories/BuildFacts.v
theories/BuildProps.v
theories/ReuseFacts.v
theories/Settle.v
theories/FilterProps.v
theories/SampleProps.v
theories/HiberProps.v
theories/SpecChild.v
theories/ChildProps.v
theories/OwnProps.v
theories/BuildCases.v
theories/PropBuild.v
theories/FilterCases.v
theories/PropFilter.v
theories/PropChild.v
theories/SpecDefault.v
theories/DefaultFacts.v
theories/PropDefault.v
theories/Persist.v
theories/SpecPersist.v
theories/PersistFacts.v
theories/PropPersist.v
theories/Resume.v
theories/SpecResume.v
theories/SpawnFacts.v
theories/ResumeMetrics.v
theories/HandlerFacts.v
theories/ShiftFacts.v
theories/FastFacts.v
theories/WakeFacts.v
theories/FastProps.v
theories/RecoverFacts.v
theories/SpawnOrder.v
theories/MuteFacts.v
theories/ResumeBuild.v
theories/ResumeWalk.v
theories/ResumeCases.v
theories/ResumeRefuted.v
theories/ResumeProps.v
theories/PropResume.v
theories/PropHandler.v
theories/SpecSub.v
theories/SubFacts.v
theories/PropSub.v
theories/Pool.v
theories/PoolFacts.v
theories/PropPool.v
theories/Bus.v
theories/SpecBus.v
theories/BusFacts.v
theories/Race.v
theories/RaceFacts.v
theories/PropBus.v
theories/Again.v
theories/SpecAgain.v
theories/AgainFacts.v
theories/PropAgain.v
theories/Result.v
theories/PropResult.v
theories/RunMore.v
theories/PropRun.v
theories/PropRestore.v
theories/Output.v
theories/OutputFacts.v
theories/PropOutput.v
theories/SpecSkip.v
theories/SkipFacts.v
theories/PropSkip.v
theories/SpecCourse.v
theories/CourseFacts.v
theories/PropCourse.v
theories/Save.v
theories/SpecSave.v
theories/SaveFacts.v
theories/PropSave.v
theories/Errors.v
theories/SpecErrors.v
theories/PropErrors.v
theories/Scaffold.v
theories/PropScaffold.v
theories/Log.v
theories/PropLog.v
theories/Sink.v
theories/SpecSink.v
theories/SinkFacts.v
theories/PropSink.v
theories/Enums.v
theories/SpecEnums.v
theories/PropEnums.v
theories/SpecShare.v
theories/ShareFacts.v
theories/PropShare.v
theories/SpecPoly.v
theories/PolyFacts.v
theories/PropPoly.v
theories/World.v
theories/SpecWorld.v
theories/WorldFacts.v
theories/WorldBracket.v
theories/PropWorld.v
theories/SpecInterrupt.v
theories/InterruptFacts.v
theories/PropInterrupt.v
theories/SpecRelay.v
theories/RelayFacts.v
theories/FastRelayFacts.v
theories/PropRelay.v
theories/SpecLazy.v
theories/LazyFacts.v
theories/PropLazy.v
theories/OwnFilter.v
theories/PropCustom.v
theories/SpecJourney.v
theories/JourneyFacts.v
theories/PropJourney.v
theories/SpecMixed.v
theories/MixedFacts.v
theories/PropMixed.v
theories/ResumeFilter.v
theories/SiftFacts.v
theories/PropSift.v
theories/PropSame.v
theories/NamedAsk.v
theories/SiftWalk.v
theories/PropSiftWalk.v
theories/ResumeHib.v
theories/PropNap.v
theories/SpecSpell.v
theories/SpellFacts.v
theories/PropSpell.v
theories/PropIf.v
