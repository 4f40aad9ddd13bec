-Q theories Verif
theories/Model/Alike.v
theories/Model/AnchorText.v
theories/Model/Anchored.v
theories/Model/Base.v
theories/Model/Calendar.v
theories/Model/Carrying.v
theories/Model/CodeRun.v
theories/Model/Combine.v
theories/Model/Command.v
theories/Model/CommandRun.v
theories/Model/Condition.v
theories/Model/Cron.v
theories/Model/CronText.v
theories/Model/Crossing.v
theories/Model/Custom.v
theories/Model/Delayed.v
theories/Model/Depend.v
theories/Model/Duration.v
theories/Model/Dynamic.v
theories/Model/Equality.v
theories/Model/History.v
theories/Model/Hooks.v
theories/Model/Imports.v
theories/Model/Interval.v
theories/Model/Logging.v
theories/Model/Naming.v
theories/Model/Params.v
theories/Model/Parse.v
theories/Model/Past.v
theories/Model/Period.v
theories/Model/Query.v
theories/Model/Registry.v
theories/Model/Relaunch.v
theories/Model/Run.v
theories/Model/RunTimes.v
theories/Model/Running.v
theories/Model/Scheduler.v
theories/Model/Settings.v
theories/Model/Sharing.v
theories/Model/Spelling.v
theories/Model/Statement.v
theories/Model/World.v
theories/Model/Zone.v
theories/Spec/AlgebraSpec.v
theories/Spec/AlikeSpec.v
theories/Spec/AnchorTextSpec.v
theories/Spec/CalendarSpec.v
theories/Spec/CarryingSpec.v
theories/Spec/CodeRunSpec.v
theories/Spec/CombineSpec.v
theories/Spec/CommandRunSpec.v
theories/Spec/CommandSpec.v
theories/Spec/ConditionSpec.v
theories/Spec/CronSpec.v
theories/Spec/CronTextSpec.v
theories/Spec/CrossingSpec.v
theories/Spec/CustomSpec.v
theories/Spec/DelayedSpec.v
theories/Spec/DependSpec.v
theories/Spec/DoneSpec.v
theories/Spec/DurationSpec.v
theories/Spec/DynamicSpec.v
theories/Spec/EqualitySpec.v
theories/Spec/HistorySpec.v
theories/Spec/HooksSpec.v
theories/Spec/ImportsSpec.v
theories/Spec/IntervalSpec.v
theories/Spec/LiveSpec.v
theories/Spec/LoggingSpec.v
theories/Spec/NamingSpec.v
theories/Spec/OnceSpec.v
theories/Spec/ParamsSpec.v
theories/Spec/ParseSpec.v
theories/Spec/PastSpec.v
theories/Spec/PeriodSpec.v
theories/Spec/QuerySpec.v
theories/Spec/RegistrySpec.v
theories/Spec/RelaunchSpec.v
theories/Spec/ReturnSpec.v
theories/Spec/RunTimesSpec.v
theories/Spec/RunningSpec.v
theories/Spec/SchedulerSpec.v
theories/Spec/SettingsSpec.v
theories/Spec/SharingSpec.v
theories/Spec/SpellingSpec.v
theories/Spec/StatementSpec.v
theories/Spec/ZoneSpec.v
theories/Proofs/AlgebraProofs.v
theories/Proofs/AlikeProofs.v
theories/Proofs/AnchorTextExamples.v
theories/Proofs/AnchorTextProofs.v
theories/Proofs/AnchorTextResults.v
theories/Proofs/AnchorTextSentences.v
theories/Proofs/AnchoredProofs.v
theories/Proofs/BackProofs.v
theories/Proofs/BookkeepingProofs.v
theories/Proofs/CalendarProofs.v
theories/Proofs/CarryingProofs.v
theories/Proofs/ClockProofs.v
theories/Proofs/CodeRunProofs.v
theories/Proofs/CombineExamples.v
theories/Proofs/CombineKept.v
theories/Proofs/CombineProofs.v
theories/Proofs/CombineSets.v
theories/Proofs/CommandProofs.v
theories/Proofs/CommandRunProofs.v
theories/Proofs/ConditionProofs.v
theories/Proofs/CronExamples.v
theories/Proofs/CronForwardProofs.v
theories/Proofs/CronMatchProofs.v
theories/Proofs/CronProofs.v
theories/Proofs/CronTextExamples.v
theories/Proofs/CronTextProofs.v
theories/Proofs/CronTextResults.v
theories/Proofs/CrossingExamples.v
theories/Proofs/CrossingProofs.v
theories/Proofs/CustomExamples.v
theories/Proofs/CustomResults.v
theories/Proofs/CustomSyntaxProofs.v
theories/Proofs/CustomTaskProofs.v
theories/Proofs/CycleProofs.v
theories/Proofs/DelayedExamples.v
theories/Proofs/DelayedProofs.v
theories/Proofs/DelayedResults.v
theories/Proofs/DependExamples.v
theories/Proofs/DependProofs.v
theories/Proofs/DoneProofs.v
theories/Proofs/DoneServed.v
theories/Proofs/DurationProofs.v
theories/Proofs/DynamicCycle.v
theories/Proofs/DynamicExamples.v
theories/Proofs/DynamicMemory.v
theories/Proofs/DynamicOrder.v
theories/Proofs/DynamicProofs.v
theories/Proofs/DynamicStart.v
theories/Proofs/EqualityProofs.v
theories/Proofs/EventProofs.v
theories/Proofs/FixedCycleProofs.v
theories/Proofs/GrouperProofs.v
theories/Proofs/HistoryProofs.v
theories/Proofs/HistoryRunProofs.v
theories/Proofs/HoldProofs.v
theories/Proofs/HooksProofs.v
theories/Proofs/ImportsExamples.v
theories/Proofs/ImportsProofs.v
theories/Proofs/IntervalProofs.v
theories/Proofs/LedgerExamples.v
theories/Proofs/LedgerProofs.v
theories/Proofs/LimitProofs.v
theories/Proofs/LinkProofs.v
theories/Proofs/LiveExamples.v
theories/Proofs/LiveServed.v
theories/Proofs/LiveSteps.v
theories/Proofs/LiveTurn.v
theories/Proofs/LogFailExamples.v
theories/Proofs/LogFailProofs.v
theories/Proofs/LoggingExamples.v
theories/Proofs/LoggingProofs.v
theories/Proofs/LoggingResults.v
theories/Proofs/MonthProofs.v
theories/Proofs/NamedProofs.v
theories/Proofs/NamingProofs.v
theories/Proofs/OnceExamples.v
theories/Proofs/OnceProofs.v
theories/Proofs/OnceServed.v
theories/Proofs/OutcomeExamples.v
theories/Proofs/OutcomeProofs.v
theories/Proofs/ParamsExamples.v
theories/Proofs/ParamsProofs.v
theories/Proofs/ParseAssemblyProofs.v
theories/Proofs/ParseBalanceProofs.v
theories/Proofs/ParseExamples.v
theories/Proofs/ParseProofs.v
theories/Proofs/ParseResults.v
theories/Proofs/ParseTreeProofs.v
theories/Proofs/PastExamples.v
theories/Proofs/PastProofs.v
theories/Proofs/PeriodExamples.v
theories/Proofs/PeriodProofs.v
theories/Proofs/PriorityProofs.v
theories/Proofs/QueryExamples.v
theories/Proofs/QueryFormProofs.v
theories/Proofs/QueryProofs.v
theories/Proofs/RegistryExamples.v
theories/Proofs/RegistryProofs.v
theories/Proofs/RelaunchExamples.v
theories/Proofs/RelaunchProofs.v
theories/Proofs/RelaunchResults.v
theories/Proofs/RequestProofs.v
theories/Proofs/ReturnExamples.v
theories/Proofs/ReturnProofs.v
theories/Proofs/RunTimesExamples.v
theories/Proofs/RunTimesProofs.v
theories/Proofs/RunningExamples.v
theories/Proofs/RunningProofs.v
theories/Proofs/RunningResults.v
theories/Proofs/SchedulerExamples.v
theories/Proofs/SessionExamples.v
theories/Proofs/SessionProofs.v
theories/Proofs/SettingsExamples.v
theories/Proofs/SettingsProofs.v
theories/Proofs/SharingProofs.v
theories/Proofs/ShutdownExamples.v
theories/Proofs/ShutdownProofs.v
theories/Proofs/SilenceProofs.v
theories/Proofs/SpellingProofs.v
theories/Proofs/StackProofs.v
theories/Proofs/StartProofs.v
theories/Proofs/StatementConverse.v
theories/Proofs/StatementExamples.v
theories/Proofs/StatementProofs.v
theories/Proofs/StatementResults.v
theories/Proofs/TerminationExamples.v
theories/Proofs/TerminationProofs.v
theories/Proofs/ThreadFailProofs.v
theories/Proofs/WindowProofs.v
theories/Proofs/WorldProofs.v
theories/Proofs/YearProofs.v
theories/Proofs/ZoneExamples.v
theories/Proofs/ZoneProofs.v
theories/Proofs/ZoneResults.v
theories/Props/AlikeProps.v
theories/Props/AnchorTextProps.v
theories/Props/CalendarProps.v
theories/Props/CarryingProps.v
theories/Props/CodeRunProps.v
theories/Props/CombineProps.v
theories/Props/CommandRunProps.v
theories/Props/ConditionProps.v
theories/Props/CronProps.v
theories/Props/CronTextProps.v
theories/Props/CrossingProps.v
theories/Props/CustomProps.v
theories/Props/CyclicProps.v
theories/Props/DelayedProps.v
theories/Props/DependProps.v
theories/Props/DurationProps.v
theories/Props/DynamicProps.v
theories/Props/EqualityProps.v
theories/Props/HistoryProps.v
theories/Props/HooksProps.v
theories/Props/ImportsProps.v
theories/Props/IntervalProps.v
theories/Props/LiveProps.v
theories/Props/LogFailProps.v
theories/Props/LoggingProps.v
theories/Props/MonthYearProps.v
theories/Props/NamingProps.v
theories/Props/OnceProps.v
theories/Props/OutcomeProps.v
theories/Props/ParamsProps.v
theories/Props/ParseProps.v
theories/Props/PastProps.v
theories/Props/PeriodProps.v
theories/Props/QueryProps.v
theories/Props/RegistryProps.v
theories/Props/RelaunchProps.v
theories/Props/ReturnProps.v
theories/Props/RunTimesProps.v
theories/Props/RunningProps.v
theories/Props/SchedulerProps.v
theories/Props/SessionProps.v
theories/Props/SettingsProps.v
theories/Props/SharingProps.v
theories/Props/ShutdownProps.v
theories/Props/SilenceProps.v
theories/Props/SpellingProps.v
theories/Props/StatementProps.v
theories/Props/TerminationProps.v
theories/Props/ZoneProps.v
