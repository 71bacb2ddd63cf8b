-Q theories Verif
theories/Model/Base.v
theories/Model/F64.v
theories/Model/Common.v
theories/Model/DateTime.v
theories/Model/Format.v
theories/Model/Token.v
theories/Model/Parse.v
theories/Model/Serde.v
theories/Model/ParseCached.v
theories/Spec/Calendar.v
theories/Spec/Ranges.v
theories/Spec/Clock.v
theories/Spec/Shift.v
theories/Spec/IntervalS.v
theories/Spec/Units.v
theories/Spec/Age.v
theories/Spec/Seconds.v
theories/Spec/Text.v
theories/Spec/Keywords.v
theories/Proofs/Arith.v
theories/Proofs/Cal.v
theories/Proofs/DateP.v
theories/Proofs/TsP.v
theories/Proofs/AddP.v
theories/Proofs/IntervalP.v
theories/Proofs/TimeP.v
theories/Proofs/FloatP.v
theories/Proofs/IvTruncP.v
theories/Proofs/IvLimitP.v
theories/Proofs/TruncP.v
theories/Proofs/WeekP.v
theories/Proofs/AgeP.v
theories/Proofs/ClockP.v
theories/Proofs/ConstructP.v
theories/Proofs/ScaleP.v
theories/Proofs/DigitsP.v
theories/Proofs/FormatP.v
theories/Proofs/ParseP.v
theories/Proofs/RoundTripP.v
theories/Proofs/IvParseP.v
theories/Proofs/IvReadP.v
theories/Proofs/IvPostgresP.v
theories/Proofs/IvVerboseP.v
theories/Proofs/IvSqlP.v
theories/Proofs/IvIsoP.v
theories/Proofs/IsoNegP.v
theories/Proofs/IvLenP.v
theories/Proofs/TokenP.v
theories/Proofs/CacheP.v
theories/Proofs/SerdeP.v
theories/Props/Dates.v
theories/Props/Timestamps.v
theories/Props/Intervals.v
theories/Props/Truncate.v
theories/Props/Units.v
theories/Props/Construct.v
theories/Props/Text.v
theories/Props/IntervalText.v
theories/Props/Keywords.v
theories/Props/Serde.v
theories/Spec/Lexing.v
theories/Proofs/LexP.v
theories/Proofs/FieldsP.v
theories/Proofs/FboundP.v
theories/Proofs/ShortP.v
theories/Spec/ShortNumbers.v
theories/Proofs/SafeP.v
theories/Props/Parser.v
theories/Spec/DateText.v
theories/Spec/TimeText.v
theories/Spec/DateWords.v
theories/Spec/IntervalWords.v
theories/Spec/IsoText.v
theories/Spec/OneWord.v
theories/Spec/DayCount.v
theories/Spec/Zone.v
theories/Spec/Weekday.v
theories/Spec/SqlInterval.v
theories/Proofs/NumDateP.v
theories/Proofs/ClockTextP.v
theories/Proofs/DateWordsP.v
theories/Proofs/DateTimeWordsP.v
theories/Proofs/FractP.v
theories/Proofs/IvWordsP.v
theories/Proofs/IvIsoTextP.v
theories/Props/DateText.v
theories/Proofs/ParsedP.v
theories/Props/Parsed.v
theories/Proofs/FoldP.v
theories/Proofs/SpaceP.v
theories/Proofs/CaseP.v
theories/Props/Spacing.v
theories/Proofs/PartsP.v
theories/Props/Parts.v
theories/Props/Words.v
theories/Props/IntervalWords.v
theories/Props/IsoText.v
theories/Proofs/OneWordP.v
theories/Props/OneWord.v
theories/Props/Precision.v
theories/Proofs/DayCountP.v
theories/Props/DayCount.v
theories/Proofs/CutP.v
theories/Proofs/ZoneP.v
theories/Props/Zone.v
theories/Proofs/WeekdayP.v
theories/Props/Weekday.v
theories/Proofs/YearMonthP.v
theories/Props/YearMonth.v
theories/Spec/Builds.v
theories/Proofs/ModesP.v
theories/Props/Builds.v
theories/Proofs/NoPanicP.v
theories/Props/NoPanic.v
theories/Spec/Sorting.v
theories/Proofs/SortP.v
theories/Props/Sorting.v
theories/Spec/SumOrder.v
theories/Proofs/SumOrderP.v
theories/Props/SumOrder.v
theories/Props/Nesting.v
theories/Spec/ScaleError.v
theories/Proofs/ScaleErrP.v
theories/Props/ScaleError.v
theories/Proofs/OverflowP.v
theories/Proofs/IvOverflowP.v
theories/Props/ShortNumbers.v
theories/Tests/Replay.v
theories/Proofs/AgeBackP.v
theories/Props/AgeBack.v
theories/Spec/IntervalLayout.v
theories/Proofs/UniqueP.v
theories/Proofs/IvLayoutP.v
theories/Proofs/IvUniqueP.v
theories/Props/Unique.v
theories/Proofs/AgeGrowsP.v
theories/Props/AgeGrows.v
theories/Spec/CompactTime.v
theories/Proofs/CompactP.v
theories/Props/CompactTime.v
theories/Spec/Labels.v
theories/Proofs/LabelsP.v
theories/Props/Labels.v
theories/Spec/Meaning.v
theories/Props/Meaning.v
theories/Proofs/CanonP.v
theories/Proofs/TypedP.v
theories/Props/Canon.v
theories/Spec/History.v
theories/Proofs/HistoryP.v
theories/Props/History.v
theories/Props/Split.v
theories/Spec/LongFraction.v
theories/Proofs/LongFracP.v
theories/Props/LongFraction.v
theories/Proofs/NoDigitP.v
theories/Proofs/NoDigitDateP.v
theories/Spec/NoDigit.v
theories/Props/NoDigit.v
theories/Proofs/LongIvP.v
theories/Props/LongNumber.v
