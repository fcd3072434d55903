-Q theories Verif

theories/Base.v
theories/SafeInt.v
theories/Zigzag.v
theories/Gve.v
theories/ErgoTree.v
theories/Address.v
theories/TxTable.v
theories/TxBox.v
theories/TxInput.v
theories/TxFull.v
theories/Amounts.v
theories/OutputInfo.v
theories/Env.v
theories/Bip32.v
theories/Base58.v
theories/Schnorr.v
theories/Format.v
theories/InputFrame.v
theories/UiFlow.v
theories/P2pkOp.v
theories/App.v
theories/Lib.v
theories/SpecVlq.v
theories/CodecProofs.v
theories/PropCodec.v
theories/SpecText.v
theories/TextProofs.v
theories/Base58Proofs.v
theories/PropText.v
theories/RwBuffer.v
theories/SpecBuffer.v
theories/RwBufferProofs.v
theories/PropBuffer.v
theories/SpecTree.v
theories/TreeProofs.v
theories/PropTree.v
theories/SpecTrace.v
theories/SpecTx.v
theories/SpecAmounts.v
theories/BoxProofs.v
theories/AmountProofs.v
theories/SignInv.v
theories/SignInput.v
theories/SignData.v
theories/SignOutput.v
theories/SignBox.v
theories/SignTree.v
theories/SignRest.v
theories/SpecApdu.v
theories/Moves.v
theories/SignShow.v
theories/TraceSign.v
theories/TraceAttest.v
theories/Toy.v
theories/AttestProofs.v
theories/SpecChunk.v
theories/ChunkProofs.v
theories/PropAttest.v
theories/SpecScreen.v
theories/TraceScreen.v
theories/NoUb.v
theories/SpecPages.v
theories/PageProofs.v
theories/TraceShow.v
theories/TraceUb.v
theories/SpecDispatch.v
theories/DispatchProofs.v
theories/FlowProofs.v
theories/PropDispatch.v
theories/SpecRequest.v
theories/RequestProofs.v
theories/PropRequest.v
theories/SpecSign.v
theories/SessionProofs.v
theories/PropSession.v
theories/SignedProofs.v
theories/PropSigned.v
theories/SpecRules.v
theories/RulesProofs.v
theories/OutputRules.v
theories/FrameRules.v
theories/RulesToy.v
theories/PropRules.v
theories/SpecLatch.v
theories/LatchProofs.v
theories/PropLatch.v
theories/SpecScript.v
theories/ScriptProofs.v
theories/PropScript.v
theories/SpecAccept.v
theories/AcceptInput.v
theories/AcceptFrame.v
theories/AcceptOutput.v
theories/AcceptProofs.v
theories/SpecAttest.v
theories/AttestAccept.v
theories/SpecStart.v
theories/SpecStatus.v
theories/StatusSign.v
theories/StatusFrame.v
theories/StatusOutput.v
theories/StatusProofs.v
theories/StatusAttest.v
theories/StatusStart.v
theories/StatusTrace.v
theories/PropStatus.v
theories/StartAccept.v
theories/OpenAccept.v
theories/AcceptToy.v
theories/PropAccept.v
theories/PropStart.v
theories/SpecHost.v
theories/HostAttest.v
theories/HostSign.v
theories/HostRun.v
theories/PropHost.v
theories/SpecNode.v
theories/NodeProofs.v
theories/PropNode.v
theories/SpecSeed.v
theories/BlindProofs.v
theories/SpecChance.v
theories/SeedProofs.v
theories/SeedToy.v
theories/PropSeed.v
theories/SpecCost.v
theories/CostProofs.v
theories/CostToy.v
theories/PropCost.v
theories/Secrets.v
theories/SpecSecrets.v
theories/SecretsProofs.v
theories/PropSecrets.v
theories/Buttons.v
theories/SpecButtons.v
theories/ButtonProofs.v
theories/ButtonRun.v
theories/ButtonOut.v
theories/ButtonToy.v
theories/PropButtons.v
theories/Restart.v
theories/SpecRestart.v
theories/RestartProofs.v
theories/PropRestart.v
theories/Fault.v
theories/LowTx.v
theories/LowOp.v
theories/LowApp.v
theories/SpecFault.v
theories/LowTxProofs.v
theories/LowOpProofs.v
theories/LowProofs.v
theories/FaultProofs.v
theories/PropFault.v
theories/ReadBuf.v
theories/ReadTx.v
theories/ReadApp.v
theories/ReadProofs.v
theories/ReadTxProofs.v
theories/ReadAppProofs.v
theories/SpecRaw.v
theories/RawProofs.v
theories/PropRaw.v
theories/Blake2b.v
theories/SpecBlake.v
theories/SpecHash.v
theories/Blake2bProofs.v
theories/PropBlake.v
theories/UnitTests.v
theories/Wire.v
theories/SpecWire.v
theories/WireProofs.v
theories/PropWire.v
theories/ChanceProofs.v
theories/ChanceToy.v
theories/PropChance.v
theories/Whole.v
theories/SpecWhole.v
theories/WholeProofs.v
theories/WholeAll.v
theories/WholeToy.v
theories/PropWhole.v
theories/FunctionalTests.v
theories/SpecWallet.v
theories/WalletPages.v
theories/WalletProofs.v
theories/WalletRun.v
theories/WalletToy.v
theories/PropWallet.v
theories/WholeOut.v
theories/PropOut.v
theories/SpecGrant.v
theories/WholeGrant.v
theories/PropGrant.v
theories/SpecRecover.v
theories/FaultServe.v
theories/PropRecover.v
theories/FaultButtons.v
theories/SpecFaultRun.v
theories/ButtonFault.v
theories/FaultToy.v
theories/PropFaultRun.v
theories/FaultWhole.v
theories/SpecFaultWhole.v
theories/FaultWholeProofs.v
theories/FaultWholeToy.v
theories/PropFaultWhole.v
theories/FaultGrant.v
theories/PropFaultGrant.v
theories/SpecTags.v
theories/TagBase.v
theories/TagProofs.v
theories/TagButtons.v
theories/TagToy.v
theories/PropTags.v
theories/SpecTagWhole.v
theories/TagWhole.v
theories/TagCable.v
theories/TagWholeToy.v
theories/PropTagWhole.v
theories/FaultCost.v
theories/FaultCostToy.v
theories/HandCost.v
theories/HandCostToy.v
theories/PropFaultCost.v
theories/SpecCableCost.v
theories/CableCost.v
theories/CableApprove.v
theories/CableCostToy.v
theories/PropCableCost.v
