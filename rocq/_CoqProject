-Q theories Verif
theories/Base.v
theories/Regex.v
theories/RegexParse.v
theories/Calendar.v
theories/Components.v
theories/Utils.v
theories/Execute.v
theories/P_CasualDate.v
theories/P_CasualTime.v
theories/P_DayOfWeek.v
theories/P_Deadline.v
theories/P_ISO.v
theories/P_MonthName.v
theories/P_MiddleEndian.v
theories/P_Relative.v
theories/P_TimeAgo.v
theories/P_TimeLater.v
theories/P_TimeExpression.v
theories/P_Holiday.v
theories/P_Week.v
theories/Refiners.v
theories/Main.v
theories/Spec.v
theories/CalendarCycle.v
theories/CalendarFacts.v
theories/View.v
theories/ParserSpec.v
theories/PhraseSpec.v
theories/WeekSpec.v
theories/ResultFacts.v
theories/RegexFacts.v
theories/Template.v
theories/ExecuteFacts.v
theories/ParserRe.v
theories/MatchFacts.v
theories/FuelFacts.v
theories/LocateFacts.v
theories/HistoryFacts.v
theories/Prop_Result.v
theories/Prop_Execute.v
theories/ParserFacts.v
theories/NumberFacts.v
theories/CasualFacts.v
theories/Prop_Casual.v
theories/DeadlineFacts.v
theories/Prop_Deadline.v
theories/Symbolic.v
theories/Open.v
theories/ShapeFacts.v
theories/ISOFacts.v
theories/Prop_ISO.v
theories/Prop_Dow.v
theories/HolidayFacts.v
theories/Prop_Holiday.v
theories/MonthFacts.v
theories/Prop_Month.v
theories/OrdinalFacts.v
theories/FragmentFacts.v
theories/Prop_Utils.v
theories/AgoRuns.v
theories/AgoFacts.v
theories/Prop_Ago.v
theories/WeekFacts.v
theories/Prop_Week.v
theories/ShapeRun.v
theories/Segments.v
theories/RelativeSpec.v
theories/RelativeFacts.v
theories/RelativeRuns.v
theories/Prop_Relative.v
theories/ClockSpec.v
theories/ClockFacts.v
theories/ClockFamily.v
theories/ClockRuns.v
theories/Prop_Clock.v
theories/OverlapFacts.v
theories/ZoneFacts.v
theories/MergeFacts.v
theories/Prop_Refine.v
theories/MainFacts.v
theories/Alphabet.v
theories/Prop_Main.v
theories/MiddleSpec.v
theories/MiddleFacts.v
theories/MiddleMatch.v
theories/MiddleMean.v
theories/MiddleFamily.v
theories/MiddleRuns.v
theories/Prop_Middle.v
theories/Prop_Tags.v
theories/Prop_Dates.v
theories/Reference.v
theories/Prop_Program.v
theories/Prop_Answers.v
theories/Prop_Replies.v
theories/Prop_Days.v
theories/TotalFacts.v
theories/ISOShape.v
theories/Prop_Format.v
theories/Prop_Weeks.v
theories/SenseSpec.v
theories/Prop_Total.v
theories/FoundFacts.v
theories/FoundISO.v
theories/Prop_Found.v
theories/Prop_Times.v
theories/Prop_Sentence.v
theories/ClockTextSpec.v
theories/FoundClock.v
theories/Prop_ClockText.v
theories/Prop_ClockAnswer.v
theories/Prop_DateTime.v
theories/Prop_Range.v
theories/Prop_MonthText.v
theories/Prop_MonthTime.v
theories/MonthSpec.v
theories/FoundMonth.v
theories/Prop_MonthName.v
theories/Prop_TimeDay.v
theories/Prop_MonthClock.v
theories/Prop_TwoDates.v
theories/Prop_Tomorrow.v
theories/Prop_Fixed.v
theories/Prop_Linked.v
theories/Prop_LinkedDay.v
theories/Prop_LinkedMonth.v
theories/Prop_TwoTimes.v
theories/Prop_Vague.v
theories/Prop_VagueLinked.v
theories/Prop_OwnHour.v
theories/Prop_Evening.v
theories/Prop_Midnight.v
