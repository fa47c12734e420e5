-Q theories Verif
theories/Base.v
theories/ChainDataModel.v
theories/SparseChainModel.v
theories/BaseProofs.v
theories/SparseChainSpec.v
theories/ChainDataProofs.v
theories/MapProofs.v
theories/SparseChainProofs.v
theories/SparseChainProofs2.v
theories/SparseChainProofs3.v
theories/ChainExamples.v
theories/PropsChain.v
theories/TxGraphModel.v
theories/TxGraphSpec.v
theories/TxGraphProofs.v
theories/TxGraphProofs2.v
theories/TxGraphProofs3.v
theories/GraphExamples.v
theories/PropsGraph.v
theories/ChainGraphModel.v
theories/ChainGraphSpec.v
theories/ChainGraphProofs.v
theories/ChainGraphProofs2.v
theories/ChainGraphProofs3.v
theories/ChainGraphProofs4.v
theories/ChainGraphExamples.v
theories/PropsChainGraph.v
theories/SpkIndexModel.v
theories/SpkIndexSpec.v
theories/SpkIndexProofs.v
theories/SpkExamples.v
theories/PropsSpk.v
theories/KeychainIndexModel.v
theories/KeychainIndexSpec.v
theories/KeychainIndexProofs.v
theories/KeychainIndexProofs2.v
theories/KeychainIndexProofs3.v
theories/KeychainIndexProofs4.v
theories/KeychainIndexProofs5.v
theories/KeychainExamples.v
theories/PropsKeychain.v
theories/TrackerModel.v
theories/TrackerSpec.v
theories/TrackerProofs.v
theories/TrackerProofs2.v
theories/TrackerProofs3.v
theories/TrackerProofs4.v
theories/TrackerProofs5.v
theories/TrackerExamples.v
theories/PropsTracker.v
theories/CodecModel.v
theories/FileStoreModel.v
theories/CodecSpec.v
theories/FileStoreSpec.v
theories/CodecProofs.v
theories/FileStoreProofs.v
theories/FileStoreProofs2.v
theories/FileStoreProofs3.v
theories/FileStoreExamples.v
theories/PropsFileStore.v
theories/MachineModel.v
theories/CoinSelectModel.v
theories/MachineSpec.v
theories/F32Proofs.v
theories/CoinSelectSpec.v
theories/CoinSelectProofs.v
theories/CoinSelectProofs2.v
theories/CoinSelectProofs3.v
theories/CoinSelectProofs4.v
theories/CoinSelectProofs5.v
theories/CoinSelectExamples.v
theories/PropsCoinSelect.v
theories/BnbModel.v
theories/BnbSpec.v
theories/BnbProofs.v
theories/BnbProofs2.v
theories/BnbProofs3.v
theories/BnbExamples.v
theories/PropsBnb.v
theories/ClientModel.v
theories/ElectrumModel.v
theories/EsploraModel.v
theories/ScanSpec.v
theories/ElectrumProofs.v
theories/ElectrumProofs2.v
theories/ElectrumProofs3.v
theories/ElectrumProofs4.v
theories/ElectrumProofs5.v
theories/EsploraSpec.v
theories/ScanExamples.v
theories/PropsElectrum.v
theories/ElectrumProofs6.v
theories/ElectrumProofs7.v
theories/ReorgExamples.v
theories/PropsElectrum2.v
theories/SyncProofs.v
theories/SyncProofs2.v
theories/SyncExamples.v
theories/PropsSync.v
theories/EsploraProofs.v
theories/EsploraProofs2.v
theories/EsploraProofs3.v
theories/EsploraProofs4.v
theories/EsploraExamples.v
theories/PropsEsplora.v
theories/PlanModel.v
theories/ScriptSpec.v
theories/ScriptProofs.v
theories/PlanSpec.v
theories/PlanProofs.v
theories/PlanProofs2.v
theories/PlanProofs3.v
theories/PlanOrderSpec.v
theories/SignProofs.v
theories/PlanOrderProofs.v
theories/PlanExamples.v
theories/PropsPlan.v
theories/CliModel.v
theories/CliSpec.v
theories/CliProofs.v
theories/CliProofs2.v
theories/CliProofs3.v
theories/CliSelectProofs.v
theories/CliPlanProofs.v
theories/CliProofs4.v
theories/CliProofs5.v
theories/CliProofs6.v
theories/CliProofs7.v
theories/CliProofs8.v
theories/CliProofs9.v
theories/CliExamples.v
theories/CliExamples2.v
theories/PropsCli.v
theories/PropsCli2.v
theories/RestoreSpec.v
theories/RestoreProofs.v
theories/RestoreProofs2.v
theories/RestoreProofs3.v
theories/RestoreProofs4.v
theories/RestoreProofs5.v
theories/RestoreExamples.v
theories/RestoreProofs6.v
theories/RestoreProofs7.v
theories/AgainExamples.v
theories/PropsAgain.v
theories/RestoreExamples2.v
theories/PropsRestore.v
theories/PropsRestore2.v
theories/RestoreExamples3.v
theories/PropsRestore3.v
theories/RestoreExamples4.v
theories/PropsRestore4.v
theories/PowerModel.v
theories/PowerSpec.v
theories/PowerProofs.v
theories/PowerProofs2.v
theories/PowerCliSpec.v
theories/PowerProofs3.v
theories/PowerExamples.v
theories/PropsPower.v
theories/HashSpec.v
theories/HashProofs.v
theories/HashCliSpec.v
theories/HashCliProofs.v
theories/HashExamples.v
theories/PropsHash.v
theories/CliSyncModel.v
theories/CliSyncSpec.v
theories/CliSyncProofs.v
theories/CliEsploraProofs.v
theories/CliSyncExamples.v
theories/PropsCliSync.v
theories/CliEsploraExamples.v
theories/PropsCliEsplora.v
theories/CliLifeSpec.v
theories/CliLifeProofs.v
theories/CliLifeExamples.v
theories/PropsCliLife.v
theories/CliLifeExamples2.v
theories/PropsCliLife2.v
theories/CliSendSpec.v
theories/CliSendProofs.v
theories/CliSendExamples.v
theories/PropsCliSend.v
theories/CliPaySpec.v
theories/CliPaySelectProofs.v
theories/CliPayPlanProofs.v
theories/CliPayProofs.v
theories/CliPayExamples.v
theories/PropsCliPay.v
theories/CliPickSpec.v
theories/CliPickProofs.v
theories/CliPickExamples.v
theories/PropsCliPick.v
theories/CliMineSpec.v
theories/CliMineProofs.v
theories/CliMineExamples.v
theories/PropsCliMine.v
theories/CliLeafExamples.v
theories/PropsCliLeaf.v
theories/EndsSpec.v
theories/EndsProofs.v
theories/EndsProofs2.v
theories/EndsExamples.v
theories/PropsEnds.v
theories/TwiceSpec.v
theories/TwiceProofs.v
theories/TwiceFileProofs.v
theories/TwiceExamples.v
theories/PropsTwice.v
theories/ConformChain.v
theories/ConformGraph.v
theories/ConformKeychain.v
theories/ConformStore.v
theories/ConformSelect.v
theories/ConformDocs.v
theories/MoveSpec.v
theories/MoveProofs.v
theories/MoveExamples.v
theories/PropsMove.v
theories/SharedSpec.v
theories/SharedProofs.v
theories/SharedExamples.v
theories/PropsShared.v
theories/NewExamples.v
theories/PropsNew.v
theories/TrustSpec.v
theories/TrustProofs.v
theories/TrustExamples.v
theories/PropsTrust.v
theories/CliCalmSpec.v
theories/CliCalmProofs.v
theories/CliCalmExamples.v
theories/PropsCliCalm.v
theories/AgainCliProofs.v
theories/AgainCliExamples.v
theories/PropsCliAgain.v
theories/SettleSpec.v
theories/SettleProofs.v
theories/SettleExamples.v
theories/PropsCliSettle.v
theories/AgainEsploraSpec.v
theories/AgainEsploraProofs.v
theories/SettleEsploraProofs.v
theories/SettleEsploraExamples.v
theories/PropsCliAgain2.v
theories/ReportSpec.v
theories/ReportProofs.v
theories/ReportExamples.v
theories/PropsCliReport.v
theories/UsedProofs.v
theories/PropsUsed.v
