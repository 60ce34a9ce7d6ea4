-Q theories Verif
theories/Bytes.v
theories/Hex.v
theories/Base64.v
theories/Json.v
theories/Types.v
theories/Crypto.v
theories/Verify.v
theories/Prog.v
theories/Gossiper.v
theories/Toy.v
theories/SpecCodec.v
theories/SpecVerify.v
theories/CodecFacts.v
theories/Base64Facts.v
theories/JsonFacts.v
theories/CryptoFacts.v
theories/WireFacts.v
theories/VerifyFacts.v
theories/ToyFacts.v
theories/RefuteVerify.v
theories/ProgFacts.v
theories/GstFacts.v
theories/GWalk.v
theories/SpecGossiper.v
theories/GossiperInv.v
theories/GossiperSeq.v
theories/GossiperWalks.v
theories/GossiperEvidence.v
theories/GossiperLocal.v
theories/GossiperStep.v
theories/GossiperSeqInv.v
theories/GossiperConflict.v
theories/GossiperFrag.v
theories/GossiperMore.v
theories/RefuteGossiper.v
theories/RefuteCodec.v
theories/Merkle.v
theories/SpecMerkle.v
theories/MerkleFacts.v
theories/Cert.v
theories/CertPool.v
theories/CTngExt.v
theories/SpecCert.v
theories/CertFacts.v
theories/ExtFacts.v
theories/Clock.v
theories/Logger.v
theories/SpecLogger.v
theories/LoggerFacts.v
theories/RefuteLogger.v
theories/Props_Logger.v
theories/Props_Verify.v
theories/Props_Codec.v
theories/Props_Gossiper.v
theories/Bitset.v
theories/Revocation.v
theories/CA.v
theories/SpecCA.v
theories/BitsetFacts.v
theories/RevocationFacts.v
theories/CAFacts.v
theories/CARidFacts.v
theories/CAPoiFacts.v
theories/CAPoiPar.v
theories/RefuteCA.v
theories/Props_CA.v
theories/Monitor.v
theories/SpecMonitor.v
theories/MonitorFacts.v
theories/MonitorUpdate.v
theories/MonitorMore.v
theories/MonitorServe.v
theories/RefuteMonitor.v
theories/Props_Monitor.v
theories/Client.v
theories/SpecClient.v
theories/ClientFacts.v
theories/ClientMore.v
theories/RefuteClient.v
theories/Props_Client.v
theories/IndentFacts.v
theories/CryptoIO.v
theories/SpecCryptoIO.v
theories/CryptoIOFacts.v
theories/RefuteIO.v
theories/Props_CryptoIO.v
theories/Gen.v
theories/SpecGen.v
theories/GenFacts.v
theories/GenMore.v
theories/GenMap.v
theories/RefuteGen.v
theories/Props_Gen.v
theories/Network.v
theories/SpecNetwork.v
theories/NetworkNode.v
theories/NetworkFacts.v
theories/RefuteNetwork.v
theories/Overlap.v
theories/SpecOverlap.v
theories/Duty.v
theories/OverlapNode.v
theories/OverlapFacts.v
theories/Credit.v
theories/CreditNode.v
theories/OverlapSmall.v
theories/RefuteOverlap.v
theories/Props_Network.v
theories/SpecDetect.v
theories/DetectNode.v
theories/DetectStep.v
theories/DetectFacts.v
theories/RefuteDetect.v
theories/SpecAccuse.v
theories/AccuseNode.v
theories/AccuseStep.v
theories/AccuseFacts.v
theories/RefuteAccuse.v
theories/Props_Detect.v
theories/DutyMore.v
theories/SpecOverlapDetect.v
theories/OverlapDetectNode.v
theories/OverlapDetectNet.v
theories/RefuteOverlapDetect.v
theories/Props_OverlapDetect.v
theories/System.v
theories/SpecSystem.v
theories/SystemNode.v
theories/SystemFacts.v
theories/SystemHonest.v
theories/RefuteSystem.v
theories/Props_System.v
theories/Pem.v
theories/Disk.v
theories/Bundle.v
theories/Sample.v
theories/SpecDisk.v
theories/PemFacts.v
theories/DiskFacts.v
theories/BundleFacts.v
theories/SampleFacts.v
theories/RefuteDisk.v
theories/Props_Disk.v
theories/SpecSystemDetect.v
theories/SystemRuns.v
theories/SystemDetect.v
theories/RefuteSystemDetect.v
theories/Props_SystemDetect.v
theories/SpecSystemDeliver.v
theories/SystemDeliver.v
theories/RefuteSystemDeliver.v
theories/Props_SystemDeliver.v
theories/Schedule.v
theories/SpecSchedule.v
theories/ScheduleFacts.v
theories/RefuteSchedule.v
theories/Props_Schedule.v
theories/Extras.v
theories/SpecExtras.v
theories/ExtrasFacts.v
theories/RefuteExtras.v
theories/Props_Extras.v
theories/SpecObjects.v
theories/ObjectsFacts.v
theories/Props_Objects.v
theories/SpecOverlapAccuse.v
theories/OverlapAccuseNode.v
theories/OverlapAccuseNet.v
theories/RefuteOverlapAccuse.v
theories/Props_OverlapAccuse.v
theories/SpecStops.v
theories/RecordFacts.v
theories/ConvergeFacts.v
theories/StopsFacts.v
theories/RefuteStops.v
theories/Props_Stops.v
theories/SpecSystemAccuse.v
theories/SystemAccuse.v
theories/RefuteSystemAccuse.v
theories/Props_SystemAccuse.v
theories/SpecSystemCA.v
theories/SystemCA.v
theories/RefuteSystemCA.v
theories/Props_SystemCA.v
theories/BlsId.v
theories/SpecBlsId.v
theories/BlsIdFacts.v
theories/Props_BlsId.v
theories/SpecSystemSilent.v
theories/SystemSilent.v
theories/SystemAsk.v
theories/RefuteSystemSilent.v
theories/Props_SystemSilent.v
theories/SystemRevoke.v
theories/RefuteSystemRevoke.v
theories/Props_SystemRevoke.v
theories/SystemIssue.v
theories/RefuteSystemIssue.v
theories/Props_SystemIssue.v
theories/SpecSystemAccept.v
theories/SystemAccept.v
theories/RefuteSystemAccept.v
theories/Props_SystemAccept.v
theories/Locks.v
theories/SpecLocks.v
theories/LocksFacts.v
theories/LockUse.v
theories/LockUseFacts.v
theories/RefuteLocks.v
theories/Props_Locks.v
theories/Fetch.v
theories/RefuteFetch.v
theories/Props_Fetch.v
theories/Fine.v
theories/FineGossiper.v
theories/FineFacts.v
theories/FineGossiperFacts.v
theories/RefuteFine.v
theories/Props_Fine.v
theories/Routes.v
theories/SpecRoutes.v
theories/RoutesFacts.v
theories/Props_Routes.v
theories/FineNet.v
theories/SpecFineNet.v
theories/FineNetFacts.v
theories/RefuteFineNet.v
theories/Props_FineNet.v
theories/JsonPrefix.v
theories/JsonFile.v
theories/SpecJsonFile.v
theories/JsonFileFacts.v
theories/StoryFacts.v
theories/RefuteJsonFile.v
theories/Props_JsonFile.v
theories/FineMonitor.v
theories/SpecFineMonitor.v
theories/FineMonitorFacts.v
theories/FineMonitorMore.v
theories/FineMonitorRec.v
theories/RefuteFineMonitor.v
theories/Props_FineMonitor.v
theories/SpecFineMonitorAlone.v
theories/FineMonitorAlone.v
theories/FineMonitorTask.v
theories/Props_FineMonitorAlone.v
theories/FineLogger.v
theories/SpecFineLogger.v
theories/FineLoggerFacts.v
theories/FineLoggerMore.v
theories/RefuteFineLogger.v
theories/FineLoggerLate.v
theories/Props_FineLogger.v
theories/FineCA.v
theories/SpecFineCA.v
theories/FineCAFacts.v
theories/FineCAMore.v
theories/RefuteFineCA.v
theories/Props_FineCA.v
theories/FineCAPool.v
theories/SpecFineKept.v
theories/FineCAKept.v
theories/RefuteFineCAPool.v
theories/Props_FineCAPool.v
theories/SpecBase64.v
theories/Base64Spec.v
theories/Props_Base64.v
theories/SpecSigned.v
theories/FineCASigned.v
theories/Props_Signed.v
theories/SpecDetails.v
theories/Details.v
theories/Props_Details.v
theories/FineCAFinal.v
