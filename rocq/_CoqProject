-Q theories Verif
theories/Base.v
theories/BaseProofs.v
theories/Fees.v
theories/FeesSpec.v
theories/FeesProofs.v
theories/Properties_Fees.v
theories/Critbit.v
theories/CritbitBits.v
theories/CritbitProofs.v
theories/CritbitSlab.v
theories/CritbitOps.v
theories/CritbitSpec.v
theories/CritbitRefine.v
theories/Properties_Critbit.v
theories/Queue.v
theories/QueueSpec.v
theories/QueueProofs.v
theories/Codec.v
theories/CodecProofs.v
theories/Properties_Queue.v
theories/Market.v
theories/Matching.v
theories/ListSum.v
theories/MatchSteps.v
theories/MatchRefine.v
theories/MatchAsk.v
theories/MatchBid.v
theories/MatchRun.v
theories/Ledger.v
theories/LedgerSteps.v
theories/LedgerSums.v
theories/MatchSpec.v
theories/LedgerRun.v
theories/MatchReport.v
theories/MatchOrder.v
theories/MatchFacts.v
theories/MatchExample.v
theories/Properties_Matching.v
theories/Core.v
theories/Slots.v
theories/CoreInv.v
theories/CoreOrder.v
theories/CoreNew.v
theories/CoreCancel.v
theories/CoreConsume.v
theories/CoreSettle.v
theories/CoreFrame.v
theories/Instr.v
theories/InstrProofs.v
theories/WireSpec.v
theories/WireProofs.v
theories/Properties_Instr.v
theories/Store.v
theories/Process.v
theories/StoreProofs.v
theories/World.v
theories/WorldInv.v
theories/WorldLoad.v
theories/WorldRun.v
theories/WorldStep.v
theories/WorldStep2.v
theories/WorldConsume.v
theories/WorldInit.v
theories/WorldMain.v
theories/WorldSpec.v
theories/WorldFacts.v
theories/WorldFwd.v
theories/WorldCancel.v
theories/WorldCrank.v
theories/WorldPay.v
theories/WorldTrade.v
theories/WorldAuth.v
theories/WorldRights.v
theories/WorldExample.v
theories/Properties_World.v
theories/Properties_Cancel.v
theories/Properties_Consume.v
theories/Properties_Pay.v
theories/WorldRange.v
theories/ExampleWrap.v
theories/Properties_Range.v
theories/ExampleAuth.v
theories/Properties_Auth.v
theories/Borsh.v
theories/PoolStore.v
theories/Pool.v
theories/AdminPool.v
theories/AssertOwner.v
theories/BorshProofs.v
theories/PoolFees.v
theories/PoolFacts.v
theories/PoolExec.v
theories/PoolWorld.v
theories/PoolInv.v
theories/PoolBack.v
theories/PoolMain.v
theories/PoolQuote.v
theories/ExamplePool.v
theories/PoolWireSpec.v
theories/PoolWire.v
theories/Properties_Pool.v
theories/Layout.v
theories/LayoutSpec.v
theories/LayoutProofs.v
theories/LayoutView.v
theories/Properties_Frame.v
theories/Proxy.v
theories/ProxySpec.v
theories/ProxyAmounts.v
theories/ProxyProofs.v
theories/ProxyMain.v
theories/ProxyMore.v
theories/ExampleProxy.v
theories/Properties_Proxy.v
theories/WorldSizes.v
theories/ExitSpec.v
theories/WorldExit.v
theories/Properties_Exit.v
theories/OpenSpec.v
theories/WorldOpen.v
theories/Properties_Open.v
theories/MatchRoom.v
theories/PlaceSpec.v
theories/TakeSpec.v
theories/CorePlace.v
theories/WorldPlace.v
theories/CoreTake.v
theories/WorldTake.v
theories/Properties_Place.v
theories/Properties_Take.v
theories/WorldCids.v
theories/Client.v
theories/ClientSpec.v
theories/ClientProofs.v
theories/ClientWorks.v
theories/Properties_Client.v
theories/ExampleSupply.v
theories/WorldSupply.v
theories/WorldIsolate.v
theories/WorldRent.v
theories/Properties_Rent.v
theories/Properties_Isolate.v
theories/Crank.v
theories/CrankSpec.v
theories/CrankLists.v
theories/CrankProofs.v
theories/CrankWorks.v
theories/CrankList.v
theories/ExampleCrank.v
theories/Properties_Crank.v
theories/Permissioned.v
theories/PermSpec.v
theories/PermProofs.v
theories/PermMain.v
theories/ExamplePerm.v
theories/Properties_Perm.v
theories/LifeSpec.v
theories/LifeProofs.v
theories/LifeSteps.v
theories/LifeMain.v
theories/Properties_Life.v
theories/ExamplePriority.v
theories/Properties_Priority.v
theories/PoolUseSpec.v
theories/PoolUse.v
theories/Properties_PoolUse.v
theories/AbsentSpec.v
theories/AbsentProofs.v
theories/ExampleAbsent.v
theories/Properties_Absent.v
theories/BestSpec.v
theories/BestProofs.v
theories/Properties_Best.v
theories/StatementSpec.v
theories/StatementProofs.v
theories/ExampleStatement.v
theories/Properties_Statement.v
theories/MatchBlame.v
theories/MatchTwin.v
theories/MatchFull.v
theories/CoreBlame.v
theories/ErrorSpec.v
theories/ErrorProofs.v
theories/Properties_Errors.v
theories/Errors.v
theories/ErrorsProofs.v
theories/Properties_Codes.v
theories/TakeErrorSpec.v
theories/TakeBlame.v
theories/TakeErrorProofs.v
theories/Properties_TakeErrors.v
theories/ReplaceErrorSpec.v
theories/ReplaceProofs.v
theories/Properties_Replace.v
theories/IncomeSpec.v
theories/IncomeProofs.v
theories/ExampleIncome.v
theories/Properties_Income.v
theories/StrandSpec.v
theories/StrandProofs.v
theories/Properties_Strand.v
theories/MoreSpec.v
theories/MoreProofs.v
theories/Properties_More.v
theories/ExposureSpec.v
theories/ExposureProofs.v
theories/ExampleExposure.v
theories/Properties_Exposure.v
theories/BacklogSpec.v
theories/BacklogProofs.v
theories/Properties_Backlog.v
theories/CrankAnySpec.v
theories/CrankAnyProofs.v
theories/Properties_ConsumeAny.v
theories/ShareSpec.v
theories/ShareProofs.v
theories/Properties_Share.v
theories/NoGainSpec.v
theories/NoGainProofs.v
theories/ExampleNoGain.v
theories/Properties_NoGain.v
theories/DelaySpec.v
theories/DelayProofs.v
theories/ExampleDelay.v
theories/Properties_Delay.v
theories/UseProofs.v
theories/Properties_Use.v
theories/LocalSpec.v
theories/LocalProofs.v
theories/ForeignProofs.v
theories/Properties_Local.v
theories/UndoProofs.v
theories/Properties_Undo.v
theories/AbortSpec.v
theories/AbortProofs.v
theories/Properties_Abort.v
theories/SwapSpec.v
theories/SwapProofs.v
theories/Properties_Swap.v
theories/TotalSpec.v
theories/TotalProofs.v
theories/Properties_Total.v
theories/Bundle.v
theories/ScarceSpec.v
theories/ScarceProofs.v
theories/Properties_Bundle.v
theories/PoolTotalSpec.v
theories/PoolTotal.v
theories/Properties_PoolTotal.v
theories/CountSpec.v
theories/CountProofs.v
theories/Properties_Count.v
theories/RoomSpec.v
theories/RoomProofs.v
theories/RoomStore.v
theories/Properties_Room.v
theories/PoolOpen.v
theories/Properties_PoolOpen.v
