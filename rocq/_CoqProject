-Q theories Verif
theories/Model/AddRace.v
theories/Model/Address.v
theories/Model/Alias.v
theories/Model/Args.v
theories/Model/Base.v
theories/Model/Bloom.v
theories/Model/BloomOnes.v
theories/Model/Blotter.v
theories/Model/CloseFault.v
theories/Model/Cmd.v
theories/Model/Conc.v
theories/Model/Config.v
theories/Model/ConfigOf.v
theories/Model/Crash.v
theories/Model/CreateFault.v
theories/Model/Csv.v
theories/Model/Dmd.v
theories/Model/DmdConc.v
theories/Model/DmdFault.v
theories/Model/DocRace.v
theories/Model/Enron.v
theories/Model/EnronArgs.v
theories/Model/EnronMain.v
theories/Model/Estimate.v
theories/Model/Extract.v
theories/Model/Fault.v
theories/Model/Fine.v
theories/Model/FineRun.v
theories/Model/Flags.v
theories/Model/Float.v
theories/Model/Fnames.v
theories/Model/Handles.v
theories/Model/Hex.v
theories/Model/Index.v
theories/Model/Inspect.v
theories/Model/Json.v
theories/Model/Live.v
theories/Model/Loading.v
theories/Model/Lock.v
theories/Model/LockWin.v
theories/Model/Moments.v
theories/Model/Names.v
theories/Model/NextConc.v
theories/Model/NextMoments.v
theories/Model/NextRace.v
theories/Model/Options.v
theories/Model/Output.v
theories/Model/Overlap.v
theories/Model/Path.v
theories/Model/PathRace.v
theories/Model/Post.v
theories/Model/Poster.v
theories/Model/Power.v
theories/Model/Program.v
theories/Model/Query.v
theories/Model/ReadFault.v
theories/Model/Root.v
theories/Model/Run.v
theories/Model/Self.v
theories/Model/Session.v
theories/Model/Several.v
theories/Model/Shard.v
theories/Model/Shatter.v
theories/Model/StaleConfig.v
theories/Model/Stats.v
theories/Model/Strings.v
theories/Model/Timeline.v
theories/Model/Token.v
theories/Model/Trigram.v
theories/Model/Utf8.v
theories/Model/Varint.v
theories/Model/Verbs.v
theories/Model/Walk.v
theories/Proof/AddRaceP.v
theories/Proof/AddressP.v
theories/Proof/AgreeP.v
theories/Proof/AgreeP2.v
theories/Proof/AliasP.v
theories/Proof/ArgsP.v
theories/Proof/BloomOnesP.v
theories/Proof/BloomP.v
theories/Proof/BlotsP.v
theories/Proof/BlotterP.v
theories/Proof/CleanP.v
theories/Proof/CloseFaultP.v
theories/Proof/CloseFaultP2.v
theories/Proof/ClosedP.v
theories/Proof/CmdP.v
theories/Proof/ConcP.v
theories/Proof/ConcRun.v
theories/Proof/ConfigP.v
theories/Proof/CrashP.v
theories/Proof/CrashP2.v
theories/Proof/CrashP3.v
theories/Proof/CsvP.v
theories/Proof/CutP.v
theories/Proof/DamagedP.v
theories/Proof/DamagedP2.v
theories/Proof/DamagedP3.v
theories/Proof/DecimalP.v
theories/Proof/DmdConcP.v
theories/Proof/DmdFaultP.v
theories/Proof/DmdP.v
theories/Proof/DocRaceP.v
theories/Proof/DocTurnP.v
theories/Proof/DocidP.v
theories/Proof/EnronMainP.v
theories/Proof/EnronP.v
theories/Proof/EstimateP.v
theories/Proof/ExtractP.v
theories/Proof/FaultP.v
theories/Proof/FaultP2.v
theories/Proof/FaultP3.v
theories/Proof/FaultP4.v
theories/Proof/FiledP.v
theories/Proof/FindP.v
theories/Proof/FineInv.v
theories/Proof/FineLive.v
theories/Proof/FineRefine.v
theories/Proof/FineRun.v
theories/Proof/FlagsP.v
theories/Proof/FloatP.v
theories/Proof/FloatTextP.v
theories/Proof/FloatTextP2.v
theories/Proof/FnamesP.v
theories/Proof/FnamesP2.v
theories/Proof/FuelP.v
theories/Proof/HandlesP.v
theories/Proof/HexP.v
theories/Proof/IndexP.v
theories/Proof/IndexP2.v
theories/Proof/InspectP.v
theories/Proof/InspectP2.v
theories/Proof/InspectP3.v
theories/Proof/JsonP.v
theories/Proof/JsonP2.v
theories/Proof/JsonTextP.v
theories/Proof/JsonTextP2.v
theories/Proof/JsonTextP3.v
theories/Proof/KeepP.v
theories/Proof/LikeP.v
theories/Proof/LikeP2.v
theories/Proof/LikeP3.v
theories/Proof/LikeP4.v
theories/Proof/LikeW.v
theories/Proof/LimitP.v
theories/Proof/LimitP2.v
theories/Proof/LimitP3.v
theories/Proof/LimitW.v
theories/Proof/LinkCutP.v
theories/Proof/LinkCutP2.v
theories/Proof/LiveP.v
theories/Proof/LoadP.v
theories/Proof/LoadP2.v
theories/Proof/LoadP3.v
theories/Proof/LockP.v
theories/Proof/LockP2.v
theories/Proof/LockWinP.v
theories/Proof/ManyShardsP.v
theories/Proof/MisalignedP.v
theories/Proof/MomentsP.v
theories/Proof/NamesP.v
theories/Proof/NextConcP.v
theories/Proof/NextMomentsP.v
theories/Proof/NextMomentsP2.v
theories/Proof/NextRaceP.v
theories/Proof/NextRaceP2.v
theories/Proof/NextRaceP3.v
theories/Proof/NextRaceP4.v
theories/Proof/NumeralP.v
theories/Proof/OpensP.v
theories/Proof/OptionsP.v
theories/Proof/OrderP.v
theories/Proof/OutputP.v
theories/Proof/OutputP2.v
theories/Proof/OverlapP.v
theories/Proof/PartlyP.v
theories/Proof/PathP.v
theories/Proof/PathRaceP.v
theories/Proof/PosterP.v
theories/Proof/PowerP.v
theories/Proof/ProgramP.v
theories/Proof/ProgramP2.v
theories/Proof/ProgramP3.v
theories/Proof/ProgramP4.v
theories/Proof/QueryP.v
theories/Proof/QueryP2.v
theories/Proof/QueryP3.v
theories/Proof/QueryW.v
theories/Proof/RaceP.v
theories/Proof/ReadFaultP.v
theories/Proof/ReuseP.v
theories/Proof/ReuseW.v
theories/Proof/RootP.v
theories/Proof/RoundP.v
theories/Proof/SelfP.v
theories/Proof/SessionP.v
theories/Proof/SessionP2.v
theories/Proof/SessionsP.v
theories/Proof/SeveralP.v
theories/Proof/ShardP.v
theories/Proof/ShatterP.v
theories/Proof/ShortP.v
theories/Proof/SizeP.v
theories/Proof/SortP.v
theories/Proof/SoundP.v
theories/Proof/StaleConfigP.v
theories/Proof/StaleP.v
theories/Proof/StaleP2.v
theories/Proof/StatsP.v
theories/Proof/StatsP2.v
theories/Proof/StatsP3.v
theories/Proof/StatsP4.v
theories/Proof/StretchP.v
theories/Proof/StuckP.v
theories/Proof/Tactics.v
theories/Proof/TimelineP.v
theories/Proof/TokenP.v
theories/Proof/TokenP2.v
theories/Proof/TrigramP.v
theories/Proof/UnblotP.v
theories/Proof/UnrelatedP.v
theories/Proof/Utf8P.v
theories/Proof/VarintP.v
theories/Proof/VerbsP.v
theories/Proof/WalkP.v
theories/Proof/WrapP.v
theories/Props/AddRace.v
theories/Props/Address.v
theories/Props/Agree.v
theories/Props/Alias.v
theories/Props/Args.v
theories/Props/ArgsAll.v
theories/Props/Bloom.v
theories/Props/BloomOnes.v
theories/Props/Blots.v
theories/Props/CloseFault.v
theories/Props/Closed.v
theories/Props/Cmd.v
theories/Props/Codec.v
theories/Props/Conc.v
theories/Props/Config.v
theories/Props/ConfigOf.v
theories/Props/Crash.v
theories/Props/Create.v
theories/Props/Csv.v
theories/Props/Damaged.v
theories/Props/Dmd.v
theories/Props/DmdConc.v
theories/Props/DmdFault.v
theories/Props/DocRace.v
theories/Props/Docid.v
theories/Props/Enron.v
theories/Props/EnronLine.v
theories/Props/Estimate.v
theories/Props/Extract.v
theories/Props/Fault.v
theories/Props/Filed.v
theories/Props/Find.v
theories/Props/Fnames.v
theories/Props/Handles.v
theories/Props/Hex.v
theories/Props/Histories.v
theories/Props/Idle.v
theories/Props/Inspect.v
theories/Props/JsonText.v
theories/Props/Limited.v
theories/Props/Live.v
theories/Props/Loading.v
theories/Props/Lock.v
theories/Props/LockWin.v
theories/Props/ManyShards.v
theories/Props/Misaligned.v
theories/Props/Moments.v
theories/Props/Names.v
theories/Props/NextConc.v
theories/Props/NextMoments.v
theories/Props/NextRace.v
theories/Props/Opens.v
theories/Props/Options.v
theories/Props/Order.v
theories/Props/Output.v
theories/Props/Overlap.v
theories/Props/PathRace.v
theories/Props/Power.v
theories/Props/Program.v
theories/Props/Query.v
theories/Props/Races.v
theories/Props/ReadFault.v
theories/Props/RepoTests.v
theories/Props/Reuse.v
theories/Props/Root.v
theories/Props/Self.v
theories/Props/Several.v
theories/Props/Shard.v
theories/Props/Short.v
theories/Props/Size.v
theories/Props/Sound.v
theories/Props/Stale.v
theories/Props/StaleConfig.v
theories/Props/Stats.v
theories/Props/Strings.v
theories/Props/Timeline.v
theories/Props/Token.v
theories/Props/Torn.v
theories/Props/Trigram.v
theories/Props/Unrelated.v
theories/Props/Verbs.v
theories/Props/Walk.v
theories/Props/Wrap.v
theories/Spec/Attempts.v
theories/Spec/Bits.v
theories/Spec/Cmdline.v
theories/Spec/Configs.v
theories/Spec/Counts.v
theories/Spec/Csv.v
theories/Spec/Damaged.v
theories/Spec/Double.v
theories/Spec/EnronLine.v
theories/Spec/Failing.v
theories/Spec/Fingerprint.v
theories/Spec/FloatText.v
theories/Spec/Fnv.v
theories/Spec/Handles.v
theories/Spec/Hexes.v
theories/Spec/History.v
theories/Spec/InTurn.v
theories/Spec/Inspected.v
theories/Spec/JsonText.v
theories/Spec/Limited.v
theories/Spec/Live.v
theories/Spec/Loading.v
theories/Spec/Locking.v
theories/Spec/LockingWin.v
theories/Spec/Mean.v
theories/Spec/Names.v
theories/Spec/Overlong.v
theories/Spec/Paths.v
theories/Spec/Posting.v
theories/Spec/Postings.v
theories/Spec/Printed.v
theories/Spec/Program.v
theories/Spec/Querying.v
theories/Spec/Races.v
theories/Spec/Reading.v
theories/Spec/Reuse.v
theories/Spec/Self.v
theories/Spec/Sessions.v
theories/Spec/Several.v
theories/Spec/Shortened.v
theories/Spec/Size.v
theories/Spec/Snapshots.v
theories/Spec/SomeOf.v
theories/Spec/Spelling.v
theories/Spec/Str.v
theories/Spec/Stretch.v
theories/Spec/Text.v
theories/Spec/Tree.v
theories/Spec/Turns.v
