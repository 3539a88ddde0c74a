-Q theories Verif
theories/Model/Base.v
theories/Model/Utf8Error.v
theories/Model/Env.v
theories/Model/Primitives.v
theories/Model/Prot.v
theories/Model/Frame.v
theories/Model/Message.v
theories/Model/Prints.v
theories/Model/Bytesextra.v
theories/Model/Serverinfo.v
theories/Model/Clientinfo.v
theories/Model/Clients.v
theories/Model/FragEvent.v
theories/Model/FlagEvent.v
theories/Model/Frags.v
theories/Model/Flags.v
theories/Model/Float.v
theories/Model/Ping.v
theories/Model/Ktxstats.v
theories/Model/Timezone.v
theories/Model/Matchdate.v
theories/Model/Duration.v
theories/Model/Validate.v
theories/Model/Players.v
theories/Spec/Occ.v
theories/Spec/Mvd.v
theories/Spec/Messages.v
theories/Spec/Obituary.v
theories/Spec/Score.v
theories/Spec/Flags.v
theories/Spec/Pings.v
theories/Spec/Times.v
theories/Spec/Texts.v
theories/Spec/Clientlist.v
theories/Spec/Stats.v
theories/Spec/Utf8.v
theories/Spec/Dates.v
theories/Spec/Order.v
theories/Spec/Teams.v
theories/Spec/Builds.v
theories/Proofs/BaseFacts.v
theories/Proofs/FloatFacts.v
theories/Proofs/RoundFacts.v
theories/Proofs/FrameFacts.v
theories/Proofs/PrintFacts.v
theories/Proofs/PrintProps.v
theories/Proofs/ScoreFacts.v
theories/Proofs/WalkProps.v
theories/Proofs/ObituaryFacts.v
theories/Proofs/ScoreProps.v
theories/Proofs/FlagFacts.v
theories/Proofs/PingFacts.v
theories/Proofs/TimeFacts.v
theories/Proofs/DecimalFacts.v
theories/Proofs/TextFacts.v
theories/Proofs/ClientFacts.v
theories/Proofs/StatsFacts.v
theories/Proofs/Utf8Facts.v
theories/Proofs/DateFacts.v
theories/Proofs/DateRef.v
theories/Proofs/ServerFacts.v
theories/Proofs/OrderFacts.v
theories/Proofs/EnvFacts.v
theories/Proofs/TeamFacts.v
theories/Proofs/BuildFacts.v
theories/Proofs/TailFacts.v
theories/Properties/Sample.v
theories/Properties/Walk.v
theories/Properties/Pings.v
theories/Properties/Times.v
theories/Properties/Scores.v
theories/Properties/Flags.v
theories/Properties/Texts.v
theories/Properties/Clients.v
theories/Properties/Stats.v
theories/Properties/Dates.v
theories/Properties/Players.v
theories/Properties/Teams.v
theories/Properties/Builds.v
theories/Properties/Tail.v
theories/Properties/UnitTests.v
theories/Properties/DemoFiles.v
theories/Properties/DemoFrames.v
theories/Spec/Codes.v
theories/Proofs/DecodeProps.v
theories/Properties/Decoders.v
theories/Spec/Literal.v
theories/Proofs/LiteralFacts.v
theories/Properties/Literals.v
theories/Spec/Faults.v
theories/Spec/Join.v
theories/Proofs/FaultFacts.v
theories/Proofs/ErrorProps.v
theories/Proofs/JoinFacts.v
theories/Properties/Errors.v
theories/Properties/Joins.v
theories/Spec/Userinfo.v
theories/Spec/Lax.v
theories/Spec/Clock.v
theories/Proofs/UserinfoFacts.v
theories/Proofs/LaxFacts.v
theories/Proofs/ClockFacts.v
theories/Properties/Exact.v
theories/Properties/Clock.v
theories/Spec/Panics.v
theories/Proofs/PanicFacts.v
theories/Proofs/PanicExact.v
theories/Properties/Panics.v
theories/Spec/Recording.v
theories/Proofs/RecordingFacts.v
theories/Proofs/RecordingTexts.v
theories/Properties/Recording.v
theories/Proofs/GrowFacts.v
theories/Properties/Growth.v
theories/Spec/Ranges.v
theories/Proofs/SizeFacts.v
theories/Proofs/RangeFacts.v
theories/Properties/Sizes.v
theories/Proofs/AgreeFacts.v
theories/Properties/Agree.v
theories/Spec/Wrap.v
theories/Proofs/WrapFacts.v
theories/Properties/Wrap.v
theories/Spec/Jams.v
theories/Proofs/JamFacts.v
theories/Properties/Jams.v
theories/Proofs/LocalFacts.v
theories/Properties/Local.v
theories/Spec/Shuffles.v
theories/Proofs/ShuffleFacts.v
theories/Properties/Shuffles.v
theories/Spec/Strings.v
theories/Proofs/StringFacts.v
theories/Proofs/ExponentFacts.v
theories/Properties/Strings.v
theories/Model/Debug.v
theories/Spec/Shown.v
theories/Proofs/ShownFacts.v
theories/Proofs/ShownOnce.v
theories/Properties/Shown.v
theories/Model/Width.v
theories/Spec/Width.v
theories/Proofs/WidthFacts.v
theories/Properties/Width.v
theories/Spec/Summary.v
theories/Proofs/SummaryFacts.v
theories/Properties/Summary.v
theories/Spec/Splice.v
theories/Proofs/SpliceFacts.v
theories/Properties/Splices.v
theories/Proofs/ConversionFacts.v
theories/Properties/Conversions.v
theories/Spec/Thin.v
theories/Proofs/ThinFacts.v
theories/Properties/Thin.v
theories/Spec/Library.v
theories/Proofs/LibraryFacts.v
theories/Properties/Library.v
theories/Spec/Rename.v
theories/Proofs/RenameFacts.v
theories/Properties/Rename.v
theories/Spec/Loops.v
theories/Proofs/LoopFacts.v
theories/Properties/Loops.v
theories/Spec/Work.v
theories/Proofs/WorkFacts.v
theories/Properties/Work.v
theories/Model/Pretty.v
theories/Spec/Pretty.v
theories/Proofs/PrettyFacts.v
theories/Properties/Pretty.v
theories/Spec/Copy.v
theories/Proofs/CopyFacts.v
theories/Properties/Copy.v
theories/Proofs/CalendarFacts.v
theories/Properties/Calendar.v
theories/Spec/Sources.v
theories/Proofs/SourceFacts.v
theories/Properties/Sources.v
theories/Spec/Uses.v
theories/Proofs/UseFacts.v
theories/Proofs/LongFacts.v
theories/Properties/Uses.v
theories/Spec/Chat.v
theories/Proofs/ChatFacts.v
theories/Properties/Chat.v
theories/Spec/Transfer.v
theories/Proofs/TransferFacts.v
theories/Properties/Transfers.v
theories/Spec/Wait.v
theories/Proofs/WaitFacts.v
theories/Properties/Waits.v
theories/Spec/Stretch.v
theories/Proofs/StretchFacts.v
theories/Properties/Stretches.v
theories/Properties/DemoTimes.v
theories/Spec/Damage.v
theories/Proofs/DamageFacts.v
theories/Properties/Damages.v
theories/Proofs/PatchFacts.v
theories/Properties/Patches.v
theories/Spec/Names.v
theories/Proofs/NameFacts.v
theories/Properties/Names.v
theories/Proofs/RecoverFacts.v
theories/Properties/Recover.v
theories/Spec/Retell.v
theories/Proofs/RetellFacts.v
theories/Properties/Retell.v
theories/Spec/FlagTale.v
theories/Proofs/FlagTaleFacts.v
theories/Properties/FlagTale.v
theories/Proofs/SecondNameFacts.v
theories/Spec/Tables.v
theories/Proofs/TablesFacts.v
theories/Properties/Tables.v
theories/Spec/Merge.v
theories/Proofs/MergeFacts.v
theories/Properties/Merge.v
theories/Spec/TeamMerge.v
theories/Proofs/TeamMergeFacts.v
theories/Properties/TeamMerge.v
theories/Spec/Columns.v
theories/Proofs/ColumnFacts.v
theories/Properties/Columns.v
theories/Proofs/OneMoreFacts.v
theories/Properties/OneMore.v
theories/Proofs/DeterminedFacts.v
theories/Properties/Determined.v
theories/Spec/Climb.v
theories/Proofs/ClimbFacts.v
theories/Properties/Climb.v
theories/Spec/Standing.v
theories/Proofs/StandingFacts.v
theories/Properties/Standing.v
