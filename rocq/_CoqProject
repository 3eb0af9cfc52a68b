-Q theories Verif
theories/Base.v
theories/OMap.v
theories/State.v
theories/Ledger.v
theories/Program.v
theories/Spec.v
theories/Core.v
theories/ResLemmas.v
theories/TreeLemmas.v
theories/AccrualLemmas.v
theories/RefreshLemmas.v
theories/MapSum.v
theories/CoreInv.v
theories/CoreSteps.v
theories/CoreThms.v
theories/CoreRun.v
theories/Witness.v
theories/FrameLemmas.v
theories/CoreLive.v
theories/CoreMore.v
theories/PropsCore.v
theories/LedgerLemmas.v
theories/Codec.v
theories/CodecLemmas.v
theories/PropsCodec.v
theories/Bst.v
theories/BstLemmas.v
theories/PropsBst.v
theories/WfLemmas.v
theories/History.v
theories/HistoryLemmas.v
theories/LedgerSpec.v
theories/Changes.v
theories/AccessLemmas.v
theories/HistoryThms.v
theories/Clients.v
theories/Scenario.v
theories/ConserveLemmas.v
theories/ReachThms.v
theories/Attacks.v
theories/PropsLedger.v
theories/EffectSpec.v
theories/EffectLemmas.v
theories/EffectMethods.v
theories/EffectThms.v
theories/EffectMore.v
theories/EffectCompare.v
theories/Horizon.v
theories/EffectExamples.v
theories/PropsEffects.v
theories/ClientSpec.v
theories/ClientLemmas.v
theories/PropsClients.v
theories/Idl.v
theories/IdlSpec.v
theories/IdlLemmas.v
theories/PropsIdl.v
theories/RepoTests.v
theories/LedgerView.v
theories/LedgerCore.v
theories/LedgerCoreThms.v
theories/LedgerOrderly.v
theories/PropsLedgerCore.v
theories/SuccessSpec.v
theories/SuccessLemmas.v
theories/SuccessMethods.v
theories/SuccessThms.v
theories/Blocked.v
theories/PropsSuccess.v
theories/Leave.v
theories/PropsLeave.v
theories/Determined.v
theories/CommuteSpec.v
theories/Commute.v
theories/CommuteExamples.v
theories/PropsCommute.v
theories/DustSpec.v
theories/Dust.v
theories/DustRun.v
theories/PropsDust.v
theories/FairSpec.v
theories/Fair.v
theories/PropsFair.v
theories/LossView.v
theories/LedgerDust.v
theories/PropsLedgerDust.v
theories/FairView.v
theories/LedgerFair.v
theories/PropsLedgerFair.v
theories/PowerSpec.v
theories/Powers.v
theories/PowerExamples.v
theories/PropsPower.v
theories/Tx.v
theories/TxLemmas.v
theories/PropsTx.v
theories/PlainSpec.v
theories/Plain.v
theories/PropsPlain.v
theories/WorthSpec.v
theories/Worth.v
theories/PropsWorth.v
theories/SplitSpec.v
theories/Split.v
theories/SplitThms.v
theories/PropsSplit.v
theories/ErrorSpec.v
theories/ErrorLemmas.v
theories/ErrorThms.v
theories/ErrorExact.v
theories/PropsErrors.v
theories/Views.v
theories/ViewSpec.v
theories/ViewLemmas.v
theories/PropsViews.v
theories/Overlay.v
theories/OverlaySpec.v
theories/OverlayThms.v
theories/OverlayMore.v
theories/OverlayExamples.v
theories/PropsOverlay.v
theories/BackSpec.v
theories/TakenBack.v
theories/PropsTakenBack.v
theories/MoveSpec.v
theories/Move.v
theories/MoveProcess.v
theories/PropsMove.v
theories/ContainSpec.v
theories/Local.v
theories/Contain.v
theories/ContainExamples.v
theories/PropsContain.v
theories/DoubleSpec.v
theories/Double.v
theories/PropsDouble.v
theories/CompleteSpec.v
theories/Complete.v
theories/PropsComplete.v
theories/Spl.v
theories/SplSpec.v
theories/SplThms.v
theories/PropsSpl.v
theories/Flash.v
theories/PropsFlash.v
theories/Rent.v
theories/PropsRent.v
theories/Helpers.v
theories/PropsHelpers.v
theories/ChoiceSpec.v
theories/Choice.v
theories/PropsChoice.v
theories/BookSpec.v
theories/Book.v
theories/PropsBook.v
theories/GapSpec.v
theories/Gap.v
theories/PropsGap.v
theories/FreezeSpec.v
theories/Freeze.v
theories/Anybody.v
theories/PropsFreeze.v
theories/CapSpec.v
theories/Cap.v
theories/PropsCap.v
theories/RaidSpec.v
theories/Raid.v
theories/PropsRaid.v
theories/DebtSpec.v
theories/Debt.v
theories/DebtLedger.v
theories/PropsDebt.v
theories/IncomeSpec.v
theories/Income.v
theories/PropsIncome.v
theories/StrikeSpec.v
theories/Strike.v
theories/Erase.v
theories/PropsStrike.v
theories/DiarySpec.v
theories/Diary.v
theories/PropsDiary.v
theories/LogSpec.v
theories/Log.v
theories/PropsLog.v
theories/CompareSpec.v
theories/Compare.v
theories/PropsCompare.v
theories/LongerSpec.v
theories/Longer.v
theories/PropsLonger.v
theories/OwnSpec.v
theories/Own.v
theories/PropsOwn.v
theories/OwnLongSpec.v
theories/OwnLong.v
theories/PropsOwnLong.v
theories/OrderLogSpec.v
theories/OrderLog.v
theories/PropsOrderLog.v
theories/OftenSpec.v
theories/Often.v
theories/PropsOften.v
theories/DaysSpec.v
theories/Days.v
theories/PropsDays.v
theories/PartsSpec.v
theories/Parts.v
theories/PropsParts.v
theories/ScaleSpec.v
theories/Scale.v
theories/PropsScale.v
theories/RichSpec.v
theories/Rich.v
theories/PropsRich.v
theories/WindUpSpec.v
theories/WindUp.v
theories/PropsWindUp.v
theories/TogetherSpec.v
theories/Together.v
theories/PropsTogether.v
theories/PartingSpec.v
theories/Parting.v
theories/PropsParting.v
theories/PaceSpec.v
theories/Pace.v
theories/PropsPace.v
