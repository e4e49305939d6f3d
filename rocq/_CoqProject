-Q theories Verif
theories/PyBase.v
theories/CalModel.v
theories/ParserCtx.v
theories/PyProofs.v
theories/CalSpec.v
theories/DateTimeModel.v
theories/CalProofs.v
theories/DateTimeSpec.v
theories/DateTimeProofs.v
theories/DateTimeProofs2.v
theories/DateTimeProofs3.v
theories/PropDateProofs.v
theories/PropDate1.v
theories/DurationModel.v
theories/DurationProofs.v
theories/PropDuration.v
theories/DateTimeSpec2.v
theories/DateTimeProofs4.v
theories/DateTimeText.v
theories/DateTimeTextProofs.v
theories/DateTimeOps.v
theories/DateTimeOpsProofs.v
theories/PropDate2.v
theories/TextModel.v
theories/TextSpec.v
theories/TextProofs.v
theories/PackProofs.v
theories/PropText.v
theories/LineModel.v
theories/LineSpec.v
theories/LineProofs.v
theories/FoldProofs.v
theories/PropLine.v
theories/PeriodModel.v
theories/PeriodSpec.v
theories/PeriodProofs.v
theories/PropPeriod.v
theories/RecurModel.v
theories/RecurSpec.v
theories/RecurTextProofs.v
theories/RecurTextProofs2.v
theories/PropRecur1.v
theories/RecurExpand.v
theories/RecurExpandSpec.v
theories/RecurSimpleProofs.v
theories/RecurCacheSpec.v
theories/RecurCacheProofs.v
theories/RecurComplexSpec.v
theories/RecurComplexProofs.v
theories/RecurMiscProofs.v
theories/PropRecur2.v
theories/RecurSetSpec.v
theories/RecurSetProofs.v
theories/RecurSortProofs.v
theories/RecurSetProofs2.v
theories/RecurSetProofs3.v
theories/RecurByProofs.v
theories/PropRecur3.v
theories/RecurLoopProofs.v
theories/RecurByPartsSpec.v
theories/RecurByPartsProofs.v
theories/RecurCohProofs.v
theories/RecurByPartsProofs2.v
theories/RecurByPartsProofs3.v
theories/PropRecur4.v
theories/RecurSetModel.v
theories/RecurKeepProofs.v
theories/RecurUnionSpec.v
theories/RecurAgainProofs.v
theories/RecurUnionProofs.v
theories/PropRecur5.v
theories/VTimezoneModel.v
theories/VTimezoneSpec.v
theories/VTimezoneProofs.v
theories/VTimezoneProofs2.v
theories/VTimezoneProofs3.v
theories/PropTimezone.v
theories/TzDbModel.v
theories/TzDbSpec.v
theories/TzDbProofs.v
theories/TzDbProofs2.v
theories/TzDbProofs3.v
theories/PropTzDb.v
theories/PropertyModel.v
theories/PropertySpec.v
theories/PropertyProofs.v
theories/PropertyProofs2.v
theories/PropertyProofs3.v
theories/PropProperty.v
theories/ComponentModel.v
theories/ComponentSpec.v
theories/ComponentProofs.v
theories/ComponentProofs2.v
theories/ComponentProofs3.v
theories/ComponentProofs4.v
theories/ComponentProofs5.v
theories/ComponentProofs6.v
theories/ComponentProofs7.v
theories/PropComponent.v
theories/ZonalModel.v
theories/ZonalSpec.v
theories/ZonalProofs.v
theories/ZonalProofs2.v
theories/ZonalProofs3.v
theories/ZonalProofs4.v
theories/PropZonal.v
theories/ValidateModel.v
theories/ValidateSpec.v
theories/ValidateProofs.v
theories/ValidateProofs2.v
theories/ValidateProofs3.v
theories/ValidateProofs4.v
theories/ValidateProofs5.v
theories/ValidateProofs6.v
theories/ValidateProofs7.v
theories/ValidateProofs8.v
theories/PropValidate.v
theories/CalendarModel.v
theories/CalendarSpec.v
theories/CalendarProofs.v
theories/PropCalendar.v
theories/DupModel.v
theories/DupSpec.v
theories/DupProofs.v
theories/EqProofs.v
theories/EqProofs2.v
theories/PropCopy.v
theories/CalTzModel.v
theories/CalTzSpec.v
theories/CalTzProofs.v
theories/PropCalTz.v
theories/TimingModel.v
theories/TimingSpec.v
theories/TimingProofs.v
theories/TimingProofs2.v
theories/PropTiming.v
theories/AdjustSpec.v
theories/AdjustProofs.v
theories/PropAdjust.v
theories/DeriveModel.v
theories/DeriveSpec.v
theories/DeriveProofs.v
theories/PropDerive.v
theories/EditModel.v
theories/EditSpec.v
theories/EditProofs.v
theories/PropEdit.v
theories/JsonModel.v
theories/JsonSpec.v
theories/JsonProofs.v
theories/JsonProofs2.v
theories/JsonProofs3.v
theories/PropJson.v
theories/FilterModel.v
theories/FilterSpec.v
theories/FilterProofs.v
theories/PropFilter.v
theories/MakeModel.v
theories/MakeSpec.v
theories/MakeProofs.v
theories/PropMake.v
theories/AlarmModel.v
theories/AlarmSpec.v
theories/AlarmProofs.v
theories/PropAlarm.v
theories/FreeBusyModel.v
theories/FreeBusySpec.v
theories/FreeBusyProofs.v
theories/PropFreeBusy.v
theories/ZoneSpec.v
theories/ZoneProofs.v
theories/ZoneProofs2.v
theories/PropZone.v
theories/ZoneTzModel.v
theories/ZoneTzSpec.v
theories/ZoneTzProofs.v
theories/ZoneTzProofs2.v
theories/ZoneTzProofs3.v
theories/ZoneTzProofs4.v
theories/ZoneTzProofs5.v
theories/ZoneTzProofs6.v
theories/ZoneTzProofs7.v
theories/ZoneTzProofs8.v
theories/ZoneTzProofs9.v
theories/FreshProofs.v
theories/PropZoneTz.v
theories/VCardModel.v
theories/VCardSpec.v
theories/VCardProofs.v
theories/VCardProofs2.v
theories/VCardProofs3.v
theories/PropVCard.v
theories/WeekSpec.v
theories/WeekProofs.v
theories/StatusModel.v
theories/StatusSpec.v
theories/StatusProofs.v
theories/StatusProofs2.v
theories/PropStatus.v
theories/XmlModel.v
theories/XmlSpec.v
theories/XmlProofs.v
theories/XmlProofs2.v
theories/XmlProofs3.v
theories/PropXml.v
theories/TzFileModel.v
theories/TzFileSpec.v
theories/TzFileProofs.v
theories/TzFileProofs2.v
theories/PropTzFile.v
theories/ZoneFileModel.v
theories/ZoneFileSpec.v
theories/ZoneFileProofs.v
theories/ZoneFileProofs2.v
theories/ZoneFileProofs3.v
theories/ZoneFileProofs4.v
theories/ZoneFileProofs5.v
theories/PropZoneFile.v
theories/ZoneInfoModel.v
theories/ZoneInfoSpec.v
theories/ZoneInfoProofs.v
theories/ZoneInfoProofs2.v
theories/ZoneInfoProofs3.v
theories/PropZoneInfo.v
theories/VCardJsonModel.v
theories/VCardJsonSpec.v
theories/VCardJsonProofs.v
theories/VCardJsonProofs2.v
theories/PropVCardJson.v
theories/VCardCheckModel.v
theories/VCardCheckSpec.v
theories/VCardCheckProofs.v
theories/VCardCheckProofs2.v
theories/PropVCardCheck.v
theories/LocaleModel.v
theories/LocaleSpec.v
theories/LocaleProofs.v
theories/PropLocale.v
theories/ToolModel.v
theories/ToolSpec.v
theories/ToolProofs.v
theories/PropTool.v
theories/HashModel.v
theories/HashSpec.v
theories/HashProofs.v
theories/HashProofs2.v
theories/PropHash.v
theories/InstancesModel.v
theories/InstancesSpec.v
theories/InstancesProofs.v
theories/PropInstances.v
theories/MasterModel.v
theories/PropMaster.v
theories/StampModel.v
theories/StampSpec.v
theories/StampProofs.v
theories/PropStamp.v
theories/SetValueModel.v
theories/SetValueSpec.v
theories/SetValueProofs.v
theories/PropSetValue.v
theories/ParamModel.v
theories/ParamSpec.v
theories/ParamProofs.v
theories/PropParam.v
theories/MatchModel.v
theories/MatchSpec.v
theories/MatchProofs.v
theories/PropMatch.v
theories/RegisterModel.v
theories/RegisterSpec.v
theories/RegisterProofs.v
theories/RegisterProofs2.v
theories/PropRegister.v
theories/RegJsonModel.v
theories/RegJsonSpec.v
theories/RegJsonProofs.v
theories/PropRegJson.v
theories/RegMakeModel.v
theories/RegMakeSpec.v
theories/RegMakeProofs.v
theories/PropRegMake.v
theories/RegSetModel.v
theories/RegSetSpec.v
theories/RegSetProofs.v
theories/PropRegSet.v
theories/CalZonesModel.v
theories/CalZonesSpec.v
theories/CalZonesProofs.v
theories/PropCalZones.v
theories/FormatModel.v
theories/FormatSpec.v
theories/FormatProofs.v
theories/PropFormat.v
theories/RecurUIModel.v
theories/RecurUISpec.v
theories/RecurUIProofs.v
theories/PropRecurUI.v
theories/PropCalZones2.v
theories/ReadOneModel.v
theories/ReadOneSpec.v
theories/ReadOneProofs.v
theories/ReadOneProofs2.v
theories/PropReadOne.v
theories/PropReadOne2.v
theories/PropReadOne3.v
theories/PropReadOne4.v
theories/UnusedModel.v
theories/UnusedSpec.v
theories/UnusedProofs.v
theories/PropUnused.v
