-Q theories Verif
theories/Model/Account.v
theories/Model/AccountObjects.v
theories/Model/Accounts.v
theories/Model/Address.v
theories/Model/Base.v
theories/Model/Beserial.v
theories/Model/BeserialTypes.v
theories/Model/Blake2b.v
theories/Model/BlockExport.v
theories/Model/DecodeMemory.v
theories/Model/ErrorText.v
theories/Model/Genesis.v
theories/Model/GenesisFiles.v
theories/Model/InterlinkRefs.v
theories/Model/MarshalSlices.v
theories/Model/Messages.v
theories/Model/Nibbles.v
theories/Model/Policy.v
theories/Model/PolicyCost.v
theories/Model/PushSteps.v
theories/Model/Strings.v
theories/Model/Target.v
theories/Model/Tree.v
theories/Model/TreeCopy.v
theories/Model/TreeCrash.v
theories/Model/TreeSlices.v
theories/Model/TreeSteps.v
theories/Model/Wallet.v
theories/Model/WalletRace.v
theories/Model/Wire.v
theories/Proofs/AccountFacts.v
theories/Proofs/AccountsFacts.v
theories/Proofs/AddressFacts.v
theories/Proofs/AllocFacts.v
theories/Proofs/BaseFacts.v
theories/Proofs/BeserialFacts.v
theories/Proofs/BlockFacts.v
theories/Proofs/BufferFacts.v
theories/Proofs/CopyFacts.v
theories/Proofs/CutFacts.v
theories/Proofs/DecodeMemFacts.v
theories/Proofs/DecodeMemSim.v
theories/Proofs/ErrorFacts.v
theories/Proofs/FaultFacts.v
theories/Proofs/FloatFacts.v
theories/Proofs/HashFacts.v
theories/Proofs/InterlinkFacts.v
theories/Proofs/LayoutFacts.v
theories/Proofs/LedgerFacts.v
theories/Proofs/MessageFacts.v
theories/Proofs/NibblesFacts.v
theories/Proofs/ObjectSim.v
theories/Proofs/OutcomeFacts.v
theories/Proofs/PolicyCostFacts.v
theories/Proofs/PolicyFacts.v
theories/Proofs/PushCong.v
theories/Proofs/PushFacts.v
theories/Proofs/PushLog.v
theories/Proofs/RefsFacts.v
theories/Proofs/RulesFacts.v
theories/Proofs/SharedFacts.v
theories/Proofs/SliceSim.v
theories/Proofs/StepAgain.v
theories/Proofs/StepFacts.v
theories/Proofs/StepRepair.v
theories/Proofs/StepRetry.v
theories/Proofs/StepWalk.v
theories/Proofs/TargetFacts.v
theories/Proofs/TransferFacts.v
theories/Proofs/TreeCanon.v
theories/Proofs/TreeCollide.v
theories/Proofs/TreeCost.v
theories/Proofs/TreeHashes.v
theories/Proofs/TreeLocal.v
theories/Proofs/TreeReach.v
theories/Proofs/TreeRoot.v
theories/Proofs/TreeSim.v
theories/Proofs/TreeTrie.v
theories/Proofs/TreeUpdate.v
theories/Proofs/WireFacts.v
theories/Props/AccountProps.v
theories/Props/AccountsProps.v
theories/Props/AddressProps.v
theories/Props/AllocProps.v
theories/Props/BeserialProps.v
theories/Props/BlockProps.v
theories/Props/BlockWriteProps.v
theories/Props/BufferProps.v
theories/Props/ContractProps.v
theories/Props/CopyProps.v
theories/Props/CostProps.v
theories/Props/CrashProps.v
theories/Props/CutProps.v
theories/Props/EndToEnd.v
theories/Props/ExportProps.v
theories/Props/FaultProps.v
theories/Props/GenesisMain.v
theories/Props/GenesisProps.v
theories/Props/GrowthProps.v
theories/Props/IdentityProps.v
theories/Props/LocalProps.v
theories/Props/LossProps.v
theories/Props/MainNet.v
theories/Props/MessageProps.v
theories/Props/MessageTypes.v
theories/Props/NibblesProps.v
theories/Props/ObjectProps.v
theories/Props/OrderProps.v
theories/Props/OutcomeProps.v
theories/Props/OwnProps.v
theories/Props/PartyProps.v
theories/Props/PeerProps.v
theories/Props/PolicyProps.v
theories/Props/PushProps.v
theories/Props/PushStepProps.v
theories/Props/RaceProps.v
theories/Props/RefsProps.v
theories/Props/ReuseProps.v
theories/Props/RootProps.v
theories/Props/RulesProps.v
theories/Props/SharedProps.v
theories/Props/SliceProps.v
theories/Props/StepProps.v
theories/Props/SupplyCost.v
theories/Props/SupplyProps.v
theories/Props/TargetOrder.v
theories/Props/TestVectors.v
theories/Props/TextProps.v
theories/Props/TreeProps.v
theories/Props/TrialProps.v
theories/Props/TypesProps.v
theories/Props/WalletProps.v
theories/Props/WireProps.v
theories/Spec/AccountSpec.v
theories/Spec/AccountsSpec.v
theories/Spec/AddressSpec.v
theories/Spec/AllocSpec.v
theories/Spec/BeserialSpec.v
theories/Spec/BufferSpec.v
theories/Spec/ContractSpec.v
theories/Spec/CutSpec.v
theories/Spec/ExportSpec.v
theories/Spec/FaultSpec.v
theories/Spec/GenesisSpec.v
theories/Spec/HexSpec.v
theories/Spec/MessageSpec.v
theories/Spec/ObjectHistory.v
theories/Spec/OutcomeSpec.v
theories/Spec/OwnershipSpec.v
theories/Spec/PeerSpec.v
theories/Spec/PolicySpec.v
theories/Spec/PushSpec.v
theories/Spec/RulesSpec.v
theories/Spec/SharedHistory.v
theories/Spec/SliceHistory.v
theories/Spec/StepSpec.v
theories/Spec/TextSpec.v
theories/Spec/TreeHistory.v
theories/Spec/TreeSpec.v
theories/Spec/TypesSpec.v
theories/Spec/WalletSpec.v
theories/Spec/WireSpec.v
