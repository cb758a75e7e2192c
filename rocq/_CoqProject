-Q theories Verif
theories/Base.v
theories/Errcode.v
theories/ErrcodeProofs.v
theories/ErrcodeProps.v
theories/TimeConv.v
theories/TimeConvProofs.v
theories/TimeConvProps.v
theories/Itoa.v
theories/ItoaProofs.v
theories/ItoaProps.v
theories/Base64.v
theories/Base64Spec.v
theories/Base64Proofs.v
theories/Base64Props.v
theories/Links.v
theories/LinksProofs.v
theories/LLProofs.v
theories/LLSpec.v
theories/LLHistProofs.v
theories/LLProps.v
theories/Table.v
theories/TableSpec.v
theories/TableProofs.v
theories/TableHist.v
theories/TableCount.v
theories/TableProps.v
theories/Labels.v
theories/LabelsSpec.v
theories/LabelsProofs.v
theories/LabelsProps.v
theories/Addr.v
theories/AddrSpec.v
theories/AddrProofs.v
theories/AddrProps.v
theories/RouteFlags.v
theories/RouteKey.v
theories/RouteKeySpec.v
theories/RouteKeyProofs.v
theories/RouteKeyProps.v
theories/RouteTable.v
theories/Lookup.v
theories/LookupSpec.v
theories/LookupMatch.v
theories/LookupProofs.v
theories/RouteTableProofs.v
theories/LookupStart.v
theories/LookupFacts.v
theories/LookupBitmask.v
theories/RouteTableHist.v
theories/LookupProps.v
theories/RouteTableProps.v
theories/Dispatch.v
theories/DispatchProofs.v
theories/DispatchProps.v
theories/DispatchSpec.v
theories/DispatchEffect.v
theories/DispatchEffectProps.v
theories/Atomic.v
theories/AtomicSpec.v
theories/AtomicProofs.v
theories/AtomicProps.v
theories/Refs.v
theories/RefsSpec.v
theories/RefsProofs.v
theories/RefsProps.v
theories/RwLock.v
theories/RwLockSpec.v
theories/RwLockProofs.v
theories/RwLockInv.v
theories/RwLockTac.v
theories/RwLockSteps.v
theories/RwLockReach.v
theories/RwLockReach2.v
theories/RwLockUnl.v
theories/RwLockProps.v
theories/Names.v
theories/NamesProofs.v
theories/NamesProps.v
theories/Cleanup.v
theories/CleanupSpec.v
theories/CleanupProofs.v
theories/CleanupProps.v
theories/EventConfig.v
theories/EventConfigSpec.v
theories/EventConfigProofs.v
theories/EventConfigProps.v
theories/Keyed.v
theories/Kv.v
theories/KvSpec.v
theories/KvProofs.v
theories/KvProps.v
theories/Actions.v
theories/ActionsSpec.v
theories/ActionsProps.v
theories/ActionList.v
theories/ActionListSpec.v
theories/ActionListProofs.v
theories/ActionListProps.v
theories/AddrFamilies.v
theories/AddrFamiliesSpec.v
theories/AddrFamiliesProofs.v
theories/AddrFamiliesProps.v
theories/Purge.v
theories/PurgeSpec.v
theories/PurgeProofs.v
theories/PurgeSteps.v
theories/PurgeLog.v
theories/PurgeUse.v
theories/PurgeCheck.v
theories/PurgeProps.v
theories/Clone.v
theories/CloneProofs.v
theories/CloneSim.v
theories/CloneProps.v
theories/CloneRoute.v
theories/CloneRouteProps.v
theories/Exchange.v
theories/ExchangeProofs.v
theories/ExchangeProps.v
theories/Export.v
theories/ExportSpec.v
theories/ExportProofs.v
theories/ExportProps.v
theories/LockBalance.v
theories/LockBalanceSpec.v
theories/LockBalanceProofs.v
theories/LockBalanceProps.v
theories/Json.v
theories/JsonText.v
theories/JsonSpec.v
theories/JsonProofs.v
theories/JsonChunks.v
theories/JsonLength.v
theories/JsonStrings.v
theories/JsonNumbers.v
theories/JsonComplete.v
theories/JsonGrammar.v
theories/JsonStringInv.v
theories/JsonTail.v
theories/JsonSound.v
theories/JsonProps.v
theories/JsonGrammarProps.v
theories/JsonDump.v
theories/JsonDumpSpec.v
theories/JsonDumpProofs.v
theories/JsonDumpStrings.v
theories/JsonDumpProps.v
theories/JsonPosSpec.v
theories/JsonPos.v
theories/JsonNest.v
theories/JsonPosProps.v
theories/JsonLimitSpec.v
theories/JsonLimits.v
theories/JsonLimitProps.v
theories/Convert.v
theories/ConvertSpec.v
theories/ConvertProofs.v
theories/ConvertProps.v
theories/Dict.v
theories/DictSpec.v
theories/DictTree.v
theories/DictInsert.v
theories/DictRemove.v
theories/DictSwap.v
theories/DictOps.v
theories/DictHold.v
theories/DictSteps.v
theories/DictWalk.v
theories/DictProps.v
theories/Dom.v
theories/DomSpec.v
theories/DomProofs.v
theories/DomMeaning.v
theories/DomDump.v
theories/DomRound.v
theories/DomProps.v
theories/Arrays.v
theories/ArraysSpec.v
theories/ArraysProofs.v
theories/ArraysProps.v
theories/Session.v
theories/SessionSpec.v
theories/SessionProofs.v
theories/SessionProps.v
theories/Loader.v
theories/LoaderSpec.v
theories/LoaderProofs.v
theories/LoaderEvents.v
theories/LoaderRoutes.v
theories/LoaderValues.v
theories/LoaderDoc.v
theories/LoaderSafe.v
theories/LoaderProps.v
theories/AddrText.v
theories/AddrTextSpec.v
theories/AddrTextProofs.v
theories/AddrTextProps.v
theories/TrackPeer.v
theories/TrackPeerSpec.v
theories/TrackPeerProofs.v
theories/TrackPeerProps.v
theories/Config.v
theories/ConfigProps.v
theories/RouteJson.v
theories/RouteJsonSpec.v
theories/RouteJsonProofs.v
theories/RouteJsonAddr.v
theories/RouteJsonProps.v
theories/Lwip.v
theories/LwipSpec.v
theories/LwipProps.v
theories/LwipInstallProps.v
theories/RouteMem.v
theories/RouteMemSpec.v
theories/RouteMemProofs.v
theories/RouteMemProps.v
theories/Thread.v
theories/ThreadSpec.v
theories/ThreadProofs.v
theories/ThreadProps.v
theories/Align.v
theories/AlignSpec.v
theories/AlignProps.v
theories/Ticks.v
theories/TicksSpec.v
theories/TicksProps.v
theories/Reputation.v
theories/ReputationSpec.v
theories/ReputationProps.v
theories/Scalar.v
theories/ScalarSpec.v
theories/ScalarProofs.v
theories/ScalarProps.v
theories/JsonPath.v
theories/JsonPathSpec.v
theories/JsonPathProps.v
theories/JsonClone.v
theories/JsonCloneSpec.v
theories/JsonCloneProps.v
theories/Strings.v
theories/StringsSpec.v
theories/StringsProps.v
theories/EventClone.v
theories/EventCloneSpec.v
theories/EventCloneProofs.v
theories/EventCloneProps.v
theories/Init.v
theories/InitSpec.v
theories/InitProofs.v
theories/InitProps.v
theories/Sems.v
theories/SemsSpec.v
theories/SemsProps.v
theories/EventCloneNames.v
theories/EventCloneNamesProps.v
theories/RouteRefs.v
theories/RouteRefsSpec.v
theories/RouteRefsProps.v
