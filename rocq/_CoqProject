-Q theories Verif
theories/Base.v
theories/BaseLemmas.v
theories/Types.v
theories/Ctx.v
theories/Presets.v
theories/Env.v
theories/Helpers.v
theories/HelpersAltair.v
theories/HelpersElectra.v
theories/Block.v
theories/Epoch.v
theories/Transition.v
theories/Upgrade.v
theories/Genesis.v
theories/Executor.v
theories/Clock.v
theories/Text.v
theories/Blobs.v
theories/Trees.v
theories/Keys.v
theories/Json.v
theories/Signing.v
theories/StLemmas.v
theories/Frame.v
theories/SpecCommon.v
theories/SpecShuffle.v
theories/SpecHelpers.v
theories/SpecElectra.v
theories/SpecOps.v
theories/SpecBlock.v
theories/SpecAtt.v
theories/SpecFinality.v
theories/SpecSlots.v
theories/SpecEpoch.v
theories/SpecPhase0.v
theories/SpecUpgrade.v
theories/SpecFlow.v
theories/SpecQueues.v
theories/SpecRegistry.v
theories/SpecHistory.v
theories/SpecClock.v
theories/SpecExec.v
theories/SpecText.v
theories/SpecBlobs.v
theories/SpecGenesis.v
theories/SpecOrder.v
theories/SpecTrees.v
theories/SpecKeys.v
theories/SpecJson.v
theories/SpecSigning.v
theories/SpecTotal.v
theories/ShuffleProofs.v
theories/BlobProofs.v
theories/HelperProofs.v
theories/HelperProofs2.v
theories/OpsProofs.v
theories/ElectraProofs.v
theories/SlashProofs.v
theories/BlockProofs.v
theories/AttProofs.v
theories/FinalityProofs.v
theories/SlotProofs.v
theories/EpochProofs.v
theories/RegistryProofs.v
theories/RewardProofs.v
theories/Phase0Proofs.v
theories/PeriodicProofs.v
theories/FlowProofs.v
theories/GenesisProofs.v
theories/UpgradeProofs.v
theories/QueueProofs.v
theories/QueueProofs2.v
theories/FrameProofs.v
theories/HistoryProofs.v
theories/JsonProofs.v
theories/SigningProofs.v
theories/Toy.v
theories/ToyCtx.v
theories/Toy2.v
theories/Toy3.v
theories/PropsHelpers.v
theories/PropsInvariants.v
theories/PropsOps.v
theories/PropsBlock.v
theories/PropsAtt.v
theories/PropsFinality.v
theories/PropsSlots.v
theories/PropsEpoch.v
theories/PropsPhase0.v
theories/PropsFlow.v
theories/PropsUpgrade.v
theories/PropsQueues.v
theories/PropsDepositsElectra.v
theories/TotalProofs.v
theories/PropsTotal.v
theories/SpecCrash.v
theories/CrashProofs.v
theories/CrashElectra.v
theories/CrashSlots.v
theories/CrashEpoch.v
theories/CrashEpoch2.v
theories/PropsCrash.v
theories/PropsCrash2.v
theories/PropsCrash3.v
theories/SpecReach.v
theories/Reach.v
theories/ReachHistory.v
theories/ReachShape.v
theories/PropsReach.v
theories/SpecDuties.v
theories/SpecSafety.v
theories/SpecEvidence.v
theories/SpecArchive.v
theories/SpecSync.v
theories/SpecLive.v
theories/LookProofs.v
theories/VoteProofs.v
theories/SafetyProofs.v
theories/PropsVotes.v
theories/SafetyChain.v
theories/LiveProofs.v
theories/ToyPairCtx.v
theories/ToyPair.v
theories/PropsSafety.v
theories/PropsLive.v
theories/PropsEvidence.v
theories/PropsArchive.v
theories/PropsSync.v
theories/SpecIssuance.v
theories/IssuanceProofs.v
theories/EpochIssuance.v
theories/PropsIssuance.v
theories/SpecAuthority.v
theories/AuthorityProofs.v
theories/PropsAuthority.v
theories/SpecEntry.v
theories/EntryProofs.v
theories/PropsEntry.v
theories/SpecDebit.v
theories/DebitProofs.v
theories/PropsDebit.v
theories/DebitEpoch.v
theories/PropsLoss.v
theories/SpecPayload.v
theories/PayloadProofs.v
theories/PropsPayload.v
theories/SpecBallots.v
theories/BallotProofs.v
theories/PropsBallots.v
theories/SpecCulprits.v
theories/CulpritProofs.v
theories/PropsCulprits.v
theories/SpecDepositLog.v
theories/DepositLogProofs.v
theories/PropsDepositLog.v
theories/SpecPayouts.v
theories/PayoutProofs.v
theories/PropsPayouts.v
theories/SpecWait.v
theories/WaitProofs.v
theories/PropsWait.v
theories/ChurnProofs.v
theories/PropsChurn.v
theories/SpecJoin.v
theories/JoinProofs.v
theories/PropsJoin.v
theories/SpecScore.v
theories/ScoreProofs.v
theories/PropsScore.v
theories/SpecWeight.v
theories/WeightProofs.v
theories/SpecCapped.v
theories/CappedProofs.v
theories/PropsWeight.v
theories/PropsCapped.v
theories/PropsGone.v
theories/PropsDuties.v
theories/SpecSampling.v
theories/PropsSampling.v
theories/JsonCodec.v
theories/JsonTable.v
theories/SpecCodec.v
theories/CodecProofs.v
theories/PropsCodec.v
theories/SpecIncentive.v
theories/PropsIncentive.v
theories/DepositProofs.v
theories/PropsDeposits.v
theories/PropsClock.v
theories/PropsExec.v
theories/PropsText.v
theories/Api.v
theories/SpecApi.v
theories/ApiProofs.v
theories/PropsApi.v
theories/PropsApi2.v
theories/PropsBlobs.v
theories/PropsGenesis.v
theories/PropsOrder.v
theories/PropsTrees.v
theories/PropsKeys.v
theories/PropsJson.v
theories/Access.v
theories/AccessTable.v
theories/SpecAccess.v
theories/PropsAccess.v
theories/PropsSigning.v
theories/Peer.v
theories/SpecPeer.v
theories/PeerProofs.v
theories/PropsPeer.v
