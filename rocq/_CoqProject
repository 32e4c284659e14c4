-Q theories Verif
theories/Base.v
theories/Common.v
theories/Chain.v
theories/BaseFacts.v
theories/ChainFacts.v
theories/IndexRange.v
theories/IndexFacts.v
theories/SaleFacts.v
theories/V2Model.v
theories/V2Spec.v
theories/V2Facts.v
theories/V2Match.v
theories/V2Inv.v
theories/V2Sale.v
theories/V2Trade.v
theories/V2Reach.v
theories/V2Book.v
theories/V2Auth.v
theories/V2Calls.v
theories/QuerySpec.v
theories/IndexWalk.v
theories/V2Query.v
theories/V2Live.v
theories/V2Examples.v
theories/V2More.v
theories/V2ExactSpec.v
theories/V2Exact.v
theories/V2Final.v
theories/V2Properties.v
theories/V2ExactProperties.v
theories/LedgerSpec.v
theories/Ledger.v
theories/V2LedgerSpec.v
theories/V2Ledger.v
theories/V2LedgerProperties.v
theories/V2LocalSpec.v
theories/V2Local.v
theories/V2LocalProperties.v
theories/V2HashSpec.v
theories/V2Hash.v
theories/V2HashOver.v
theories/V2HashProperties.v
theories/Plain.v
theories/RAModel.v
theories/RASpec.v
theories/RAFacts.v
theories/RAIndex.v
theories/RAInv.v
theories/RAReach.v
theories/RAFinal.v
theories/RALive.v
theories/RAQuery.v
theories/RAHalt.v
theories/RAMore.v
theories/RAExamples.v
theories/RARefute.v
theories/RAProperties.v
theories/RAExactSpec.v
theories/RAExact.v
theories/RAExactProperties.v
theories/RALedgerSpec.v
theories/RALedger.v
theories/RALedgerProperties.v
theories/RALocalSpec.v
theories/RALocal.v
theories/RALocalProperties.v
theories/V1Model.v
theories/V1Spec.v
theories/V1Facts.v
theories/V1Inv.v
theories/V1Reach.v
theories/V1Final.v
theories/V1Hooks.v
theories/V1Live.v
theories/V1Query.v
theories/V1More.v
theories/V1Exact.v
theories/V1Examples.v
theories/V1Refute.v
theories/V1Properties.v
theories/V1LedgerSpec.v
theories/V1Ledger.v
theories/V1LedgerProperties.v
theories/V1LocalSpec.v
theories/V1Local.v
theories/V1LocalProperties.v
theories/Events.v
theories/EventFacts.v
theories/V2Events.v
theories/V2EventSpec.v
theories/V2EventFacts.v
theories/V2EventProperties.v
theories/RAEvents.v
theories/RAEventSpec.v
theories/RAEventFacts.v
theories/RAEventProperties.v
theories/V1Events.v
theories/V1EventSpec.v
theories/V1EventFacts.v
theories/V1EventProperties.v
theories/V1Pages.v
theories/V1PageProperties.v
theories/Migrate.v
theories/MigrateProperties.v
theories/Storage.v
theories/V2Storage.v
theories/V2StorageProperties.v
theories/RAStorage.v
theories/RAStorageProperties.v
theories/V1Storage.v
theories/V1StorageProperties.v
theories/TxSpec.v
theories/TxFacts.v
theories/V2Tx.v
theories/V2TxProperties.v
theories/RATx.v
theories/RATxProperties.v
theories/V1Tx.v
theories/V1TxProperties.v
theories/RAQueueSpec.v
theories/RAQueue.v
theories/RAQueueProperties.v
theories/JointSpec.v
theories/Joint.v
theories/ThreeSpec.v
theories/Three.v
theories/ThreeProperties.v
theories/NftBooksSpec.v
theories/RANftSpec.v
theories/RANft.v
theories/V2NftSpec.v
theories/V2Nft.v
theories/RANftProperties.v
theories/V2NftProperties.v
theories/V2Locked.v
theories/RALocked.v
theories/V1Locked.v
theories/V2LockedProperties.v
theories/RALockedProperties.v
theories/V1LockedProperties.v
theories/RoundingSpec.v
theories/V2Rounding.v
theories/V1Rounding.v
theories/V2RoundingProperties.v
theories/V1RoundingProperties.v
theories/RABoundsSpec.v
theories/RABounds.v
theories/RABoundsProperties.v
theories/WorkSpec.v
theories/Work.v
theories/V2Work.v
theories/RAWork.v
theories/V1Work.v
theories/V2WorkProperties.v
theories/RAWorkProperties.v
theories/V1WorkProperties.v
theories/AlikeSpec.v
theories/Alike.v
theories/RAAlikeSpec.v
theories/V1AlikeSpec.v
theories/V2AlikeSpec.v
theories/RAAlike.v
theories/V1Alike.v
theories/V2Alike.v
theories/V2AlikeProperties.v
theories/RAAlikeProperties.v
theories/V1AlikeProperties.v
theories/V2DrainSpec.v
theories/V2Drain.v
theories/V2DrainProperties.v
theories/V1DrainSpec.v
theories/V1Drain.v
theories/V1DrainProperties.v
theories/RADrainSpec.v
theories/RADrain.v
theories/RADrainProperties.v
theories/RARaceSpec.v
theories/RARace.v
theories/RARaceProperties.v
theories/V2PriceSpec.v
theories/V2Price.v
theories/V2PriceProperties.v
theories/V2QuoteSpec.v
theories/V2Quote.v
theories/V2QuoteProperties.v
theories/RAQuoteSpec.v
theories/RAQuote.v
theories/RAQuoteProperties.v
theories/RAShieldSpec.v
theories/RAShield.v
theories/RAShieldProperties.v
theories/V2WaysSpec.v
theories/V2Ways.v
theories/V2WaysProperties.v
theories/RABlockSpec.v
theories/RABlock.v
theories/RABlockProperties.v
theories/V2TieSpec.v
theories/V2Tie.v
theories/V2TieProperties.v
theories/RAWordModel.v
theories/RAWordSpec.v
theories/RAWord.v
theories/RAWordProperties.v
theories/V2DelaySpec.v
theories/V2Delay.v
theories/V2DelayProperties.v
theories/V1DelaySpec.v
theories/V1Delay.v
theories/V1DelayProperties.v
theories/RADelaySpec.v
theories/RADelay.v
theories/RADelayProperties.v
theories/ViewSpec.v
theories/V2ViewSpec.v
theories/V2View.v
theories/V2ViewProperties.v
theories/V1ViewSpec.v
theories/V1View.v
theories/V1ViewProperties.v
theories/RAViewSpec.v
theories/RAView.v
theories/RAViewProperties.v
theories/V2ChangeSpec.v
theories/V2Change.v
theories/V2ChangeProperties.v
theories/V1ChangeSpec.v
theories/V1Change.v
theories/V1ChangeProperties.v
theories/RAChangeSpec.v
theories/RAChange.v
theories/RAChangeProperties.v
theories/V2CoinsSpec.v
theories/V2Coins.v
theories/V2CoinsProperties.v
theories/V2HouseSpec.v
theories/V2House.v
theories/V2HouseProperties.v
theories/V1HouseSpec.v
theories/V1House.v
theories/V1HouseProperties.v
theories/RAHouseSpec.v
theories/RAHouse.v
theories/RAHouseProperties.v
theories/V2CompeteSpec.v
theories/V2Compete.v
theories/V2CompeteProperties.v
theories/V2WealthSpec.v
theories/V2Wealth.v
theories/V2WealthProperties.v
theories/RAWealthSpec.v
theories/RAWealth.v
theories/RAWealthProperties.v
theories/V1WealthSpec.v
theories/V1Wealth.v
theories/V1WealthProperties.v
theories/PurseSpec.v
theories/PurseFacts.v
theories/V2PurseSpec.v
theories/V2PurseProperties.v
theories/RAPurseSpec.v
theories/RAPurseProperties.v
theories/V1PurseSpec.v
theories/V1PurseProperties.v
theories/TheftSpec.v
theories/LossFacts.v
theories/V2LossSpec.v
theories/V2LossProperties.v
theories/RALossSpec.v
theories/RALossProperties.v
theories/V1LossSpec.v
theories/V1LossProperties.v
theories/V2TheftProperties.v
theories/RATheftProperties.v
theories/V1TheftProperties.v
