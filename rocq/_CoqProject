-Q theories Verif

theories/Base.v
theories/BaseFacts.v
theories/Actions.v
theories/Limits.v
theories/Env.v
theories/Authority.v
theories/Roles.v
theories/Handlers.v
theories/SubAccounts.v
theories/Compact.v
theories/Classify.v
theories/Inner.v
theories/Sign.v
theories/Program.v
theories/SpecConfig.v
theories/SpecLimits.v
theories/LimitsFacts.v
theories/PropertiesLimits.v
theories/ConfigFacts.v
theories/ConfigEdit.v
theories/NewCredential.v
theories/SpecAuth.v
theories/AuthFacts.v
theories/ConfigEdit2.v
theories/ConfigEdit3.v
theories/SpecSteps.v
theories/SpecWorld.v
theories/Frame.v
theories/HandlerRoles.v
theories/HandlerRoles2.v
theories/HandlerSub.v
theories/HandlerLife.v
theories/HandlerV2.v
theories/HandlerAssets.v
theories/World.v
theories/World2.v
theories/Settle.v
theories/World3.v
theories/SignTrace.v
theories/SignSpec.v
theories/SignProcess.v
theories/SpecHistory.v
theories/History.v
theories/SpecActs.v
theories/Demo.v
theories/Actors.v
theories/ConfigProps.v
theories/DemoReach.v
theories/DemoWallet.v
theories/HistoryProps.v
theories/Outcome.v
theories/Creds.v
theories/AuthProps.v
theories/AuthProps2.v
theories/PropertiesConfig.v
theories/PropertiesAuth.v
theories/FrameRO.v
theories/SpecSign.v
theories/Ledger.v
theories/Track.v
theories/Parse.v
theories/SignLimited.v
theories/Spend.v
theories/SignRules.v
theories/Roundtrip.v
theories/AllRun.v
theories/DemoSign.v
theories/SignProps.v
theories/PropertiesSign.v
theories/SpecLife.v
theories/LifeProps.v
theories/DemoLife.v
theories/PropertiesLife.v
theories/FreshPerms.v
theories/PropertiesFindings.v
theories/SubProps.v
theories/PropertiesSub.v
theories/SpecRent.v
theories/Rent.v
theories/Rent2.v
theories/Rent3.v
theories/Spare.v
theories/DemoRent.v
theories/PropertiesRent.v
theories/SpecIdent.v
theories/IdentProps.v
theories/DemoTwin.v
theories/PropertiesIdent.v
theories/SpecAvail.v
theories/Avail.v
theories/Avail2.v
theories/Avail3.v
theories/FrameNat.v
theories/Lock.v
theories/Lock2.v
theories/DemoAvail.v
theories/PropertiesAvail.v
theories/SpecWrap.v
theories/Wrap.v
theories/DemoWrap.v
theories/PropertiesWrap.v
theories/Client.v
theories/SpecClient.v
theories/ClientFacts.v
theories/ClientAuth.v
theories/ClientRefuse.v
theories/ClientInner.v
theories/DemoClient.v
theories/PropertiesClient.v
theories/SpecWorks.v
theories/Avail4.v
theories/Avail5.v
theories/Avail6.v
theories/Avail7.v
theories/ClientWorks.v
theories/DemoWorks.v
theories/PropertiesWorks.v
theories/SpecFound.v
theories/Found.v
theories/Found2.v
theories/Bystander.v
theories/DemoFound.v
theories/PropertiesFound.v
theories/SpecSdk.v
theories/Sdk.v
theories/SdkFacts.v
theories/SdkFacts2.v
theories/SdkGrant.v
theories/SdkClient.v
theories/SdkProps.v
theories/SdkAsk.v
theories/SdkBatch.v
theories/DemoSdk.v
theories/PropertiesSdk.v
theories/SpecSub2.v
theories/ConfigCan.v
theories/Avail8.v
theories/Avail9.v
theories/Avail10.v
theories/DemoCan.v
theories/PropertiesCan.v
theories/SpecSub1.v
theories/Avail11.v
theories/DemoSub1.v
theories/PropertiesSub1.v
theories/SpecTok2.v
theories/Avail12.v
theories/DemoTok2.v
theories/PropertiesTok2.v
theories/SdkRead.v
theories/SdkRead2.v
theories/PropertiesRead.v
theories/Cli.v
theories/SpecCli.v
theories/CliProps.v
theories/CliProps2.v
theories/DemoCli.v
theories/PropertiesCli.v
theories/SpecTop.v
theories/Top.v
theories/PropertiesTop.v
theories/SpecScope.v
theories/Scope.v
theories/DemoScope.v
theories/PropertiesScope.v
theories/Layout.v
theories/LayoutTable.v
theories/SpecLayout.v
theories/LayoutFacts.v
theories/LayoutLinks.v
theories/PropertiesLayout.v
theories/SpecFlow.v
theories/Flow.v
theories/DemoFlow.v
theories/PropertiesFlow.v
theories/Flow2.v
theories/PropertiesFlow2.v
theories/SpecBudget.v
theories/Budget.v
theories/Budget2.v
theories/Budget3.v
theories/DemoBudget.v
theories/PropertiesBudget.v
theories/Budget4.v
theories/Budget5.v
theories/DemoBudget2.v
theories/PropertiesBudget2.v
theories/Strand.v
theories/DemoStrand.v
theories/PropertiesStrand.v
