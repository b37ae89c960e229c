-Q theories Verif
theories/Base/Ord.v
theories/Base/Arith.v
theories/Base/BTree.v
theories/Base/Str.v
theories/Base/Outcome.v
theories/Model/IpUtils.v
theories/Spec/TextSpec.v
theories/Proofs/TextP.v
theories/Proofs/IpV4P.v
theories/Proofs/IpV6P.v
theories/Proofs/IpV6G.v
theories/Proofs/IpExtra.v
theories/Spec/Utf8Spec.v
theories/Props/PropsIp.v
theories/Model/Mac.v
theories/Spec/MacSpec.v
theories/Proofs/MacP.v
theories/Props/PropsMac.v
theories/Model/RuleSelector.v
theories/Spec/SelectorSpec.v
theories/Proofs/SelectorP.v
theories/Props/PropsSelector.v
theories/Model/Ip.v
theories/Proofs/IpPrintP.v
theories/Props/PropsIpPrint.v
theories/Model/Field.v
theories/Model/Date.v
theories/Spec/DateSpec.v
theories/Proofs/DateP.v
theories/Spec/FieldSpec.v
theories/Proofs/FieldP.v
theories/Proofs/RoundP.v
theories/Spec/SingleSpec.v
theories/Proofs/Round32P.v
theories/Props/PropsField.v
theories/Model/Log.v
theories/Spec/LogSpec.v
theories/Proofs/LogP.v
theories/Props/PropsLog.v
theories/Model/Schema.v
theories/Model/BaseSchema.v
theories/Proofs/SchemaP.v
theories/Props/PropsSchema.v
theories/Spec/LogEditSpec.v
theories/Proofs/LogEditP.v
theories/Props/PropsLogEdit.v
theories/Model/EventEnums.v
theories/Model/Events.v
theories/Spec/IanaSpec.v
theories/Proofs/EventsP.v
theories/Spec/EventNames.v
theories/Props/PropsEvents.v
theories/Base/Sched.v
theories/Base/Regex.v
theories/Model/Metrics.v
theories/Spec/MetricsSpec.v
theories/Proofs/MetricsP.v
theories/Proofs/HistP.v
theories/Proofs/ComboP.v
theories/Proofs/Combo2P.v
theories/Proofs/PromP.v
theories/Proofs/FloatP.v
theories/Props/PropsMetrics.v
theories/Spec/DecimalSpec.v
theories/Proofs/DecimalP.v
theories/Props/PropsDecimal.v
theories/Props/PropsScrape.v
theories/Props/PropsDate.v
theories/Model/Datasets.v
theories/Model/NetDataset.v
theories/Model/Calendar.v
theories/Model/Language.v
theories/Model/DatasetTypes.v
theories/Model/I18n.v
theories/Model/Holder.v
theories/Spec/DatasetSpec.v
theories/Spec/DatasetRuns.v
theories/Spec/HolderSpec.v
theories/Proofs/DatasetP.v
theories/Proofs/NetP.v
theories/Proofs/GeoP.v
theories/Proofs/CalendarP.v
theories/Proofs/HolderP.v
theories/Props/PropsDatasets.v
theories/Spec/SyncSpec.v
theories/Proofs/SyncP.v
theories/Props/PropsSync.v
theories/Spec/SyncLossSpec.v
theories/Props/PropsSyncLoss.v
theories/Spec/RulesRunSpec.v
theories/Props/PropsRulesRun.v
theories/Model/Command.v
theories/Model/Err.v
theories/Model/Component.v
theories/Spec/ComponentSpec.v
theories/Proofs/ComponentP.v
theories/Props/PropsComponent.v
theories/Model/Fleet.v
theories/Spec/FleetSpec.v
theories/Proofs/FleetP.v
theories/Props/PropsFleet.v
theories/Proofs/FleetStopP.v
theories/Props/PropsFleetStop.v
theories/Model/KernelMessage.v
theories/Spec/KernelSpec.v
theories/Proofs/KernelP.v
theories/Model/Storage.v
theories/Spec/StorageSpec.v
theories/Proofs/StorageP.v
theories/Props/PropsKernel.v
theories/Model/Mitre.v
theories/Model/Rule.v
theories/Model/Sigma.v
theories/Spec/RuleSpec.v
theories/Spec/SigmaSpec.v
theories/Proofs/MitreP.v
theories/Proofs/RuleP.v
theories/Proofs/SigmaP.v
theories/Proofs/SigmaLexP.v
theories/Proofs/Utf8P.v
theories/Props/PropsRules.v
theories/Model/Query.v
theories/Spec/QuerySpec.v
theories/Proofs/QueryP.v
theories/Proofs/QueryLexP.v
theories/Proofs/QueryStarP.v
theories/Props/PropsQuery.v
theories/Model/Json.v
theories/Model/JsonField.v
theories/Model/Payloads.v
theories/Model/JsonCommand.v
theories/Spec/WireSpec.v
theories/Model/JsonRule.v
theories/Spec/JsonSpec.v
theories/Spec/SigmaJsonSpec.v
theories/Proofs/JsonP.v
theories/Proofs/JsonCmdP.v
theories/Proofs/JsonRuleP.v
theories/Props/PropsJson.v
theories/Model/JsonMore.v
theories/Model/JsonEvent.v
theories/Spec/RangeSpec.v
theories/Props/PropsRange.v
theories/Model/JsonSigma.v
theories/Spec/JsonMoreSpec.v
theories/Spec/JsonKeysSpec.v
theories/Spec/JsonEventSpec.v
theories/Proofs/FiniteP.v
theories/Props/PropsJsonMore.v
theories/Props/PropsJsonKeys.v
theories/Props/PropsSigmaJson.v
theories/Props/PropsJsonEvent.v
theories/Model/Testing.v
theories/Props/PropsTesting.v
theories/Props/PropsWire.v
theories/Props/PropsErrors.v
theories/Props/PropsPromTypes.v
theories/Model/GeoIp.v
theories/Props/PropsGeo.v
theories/Model/JsonText.v
theories/Spec/DepthSpec.v
theories/Props/PropsDepth.v
theories/Spec/SigmaEndSpec.v
theories/Props/PropsSigmaEnd.v
theories/Spec/CanonicalSpec.v
theories/Props/PropsCanonical.v
theories/Spec/JsonTextSpec.v
theories/Props/PropsJsonText.v
theories/Props/PropsTextTrip.v
theories/Props/PropsMac2.v
theories/Props/PropsFamilies.v
theories/Props/PropsFamilies2.v
theories/Props/PropsFamilies3.v
theories/Props/PropsFamilies4.v
theories/Props/RepoTests.v
