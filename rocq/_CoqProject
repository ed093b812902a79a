-Q theories Verif
theories/Base.v
theories/BaseLemmas.v
theories/Types.v
theories/Crypto.v
theories/Encoding.v
theories/Base64.v
theories/Base64Proofs.v
theories/ClientProfile.v
theories/Messages.v
theories/SpecWire.v
theories/EncodingProofs.v
theories/ToyCrypto.v
theories/CryptoProofs.v
theories/ClientProfileProofs.v
theories/MessagesProofs.v
theories/WireLemmas.v
theories/Properties_Wire.v
theories/Fragment.v
theories/SpecFragment.v
theories/FragmentProofs.v
theories/AssemblerProofs.v
theories/FragmentLemmas.v
theories/Properties_Fragment.v
theories/KeyManager.v
theories/DataV3.v
theories/SpecData3.v
theories/KeyManagerProofs.v
theories/DataV3Proofs.v
theories/History3Proofs.v
theories/Conv3Proofs.v
theories/Data3Examples.v
theories/Data3Lemmas.v
theories/Properties_Data3.v
theories/SpecCurve.v
theories/EdGroup.v
theories/ToyGroup.v
theories/SpecData4.v
theories/DataV4Proofs.v
theories/History4Proofs.v
theories/Conv4Proofs.v
theories/Data4Examples.v
theories/Properties_Data4.v
theories/Ratchet.v
theories/DataV4.v
theories/AKE.v
theories/SpecAKE.v
theories/AKEProofs.v
theories/AKEConvProofs.v
theories/AKELemmas.v
theories/Properties_AKE.v
theories/SpecDAKE.v
theories/DAKE.v
theories/PointProofs.v
theories/RingProofs.v
theories/DAKEProofs.v
theories/DAKEConvProofs.v
theories/DAKELemmas.v
theories/DAKEExamples.v
theories/Properties_DAKE.v
theories/SMP.v
theories/SpecSMP.v
theories/SMPProofs.v
theories/SMPRunProofs.v
theories/SMPSafeProofs.v
theories/SMPHistProofs.v
theories/SMPLemmas.v
theories/Properties_SMP.v
theories/Protocol.v
theories/SMP4.v
theories/SpecSMP4.v
theories/SMP4Proofs.v
theories/SMP4HistProofs.v
theories/SMP4Lemmas.v
theories/Properties_SMP4.v
theories/Session.v
theories/SpecSession.v
theories/SessionProofs.v
theories/SessionPartyProofs.v
theories/SessionInvProofs.v
theories/SessionSendProofs.v
theories/SessionHistProofs.v
theories/SessionRecvProofs.v
theories/SessionLemmas.v
theories/SessionExamples.v
theories/SessionRefute.v
theories/Properties_Session.v
theories/Account.v
theories/SpecAccount.v
theories/EddsaProofs.v
theories/AccountProofs.v
theories/AccountLemmas.v
theories/Properties_Account.v
theories/SpecNet.v
theories/NetProofs.v
theories/NetAKEProofs.v
theories/NetDAKEProofs.v
theories/Net3Proofs.v
theories/Net4Proofs.v
theories/NetLemmas.v
theories/Net4Lemmas.v
theories/NetExamples.v
theories/Net4Examples.v
theories/Properties_Net.v
theories/SpecStart.v
theories/StartProofs.v
theories/StartLemmas.v
theories/CrossProofs.v
theories/StartExamples.v
theories/Properties_Start.v
theories/SpecFollow.v
theories/SpecSmpFollow.v
theories/SpecReport.v
theories/SMPTypeProofs.v
theories/FollowProofs.v
theories/FollowLemmas.v
theories/FollowExamples.v
theories/Properties_Follow.v
theories/ReportProofs.v
theories/ReportExamples.v
theories/Properties_Report.v
theories/SpecCrash.v
theories/CrashProofs.v
theories/CrashDataProofs.v
theories/CrashSmpProofs.v
theories/CrashKexProofs.v
theories/CrashInstProofs.v
theories/CrashSafeProofs.v
theories/CrashSessionProofs.v
theories/CrashPeerProofs.v
theories/SpecCallCrash.v
theories/CrashCallProofs.v
theories/CrashExamples.v
theories/Properties_Crash.v
theories/SpecOrigin.v
theories/OriginProofs.v
theories/OriginExamples.v
theories/Properties_Origin.v
theories/SpecVerify.v
theories/VerifyProofs.v
theories/Verify4Proofs.v
theories/VerifyLemmas.v
theories/VerifyExamples.v
theories/Properties_Verify.v
theories/SpecTexts.v
theories/Texts3Proofs.v
theories/Texts4Proofs.v
theories/TextsLemmas.v
theories/TextsExamples.v
theories/Properties_Texts.v
theories/SpecParting.v
theories/Parting3Proofs.v
theories/Parting4Proofs.v
theories/PartingLemmas.v
theories/PartingExamples.v
theories/Properties_Parting.v
theories/SpecEnded.v
theories/EndedLemmas.v
theories/EndedExamples.v
theories/Properties_Ended.v
theories/SpecDeny.v
theories/Deny3Proofs.v
theories/DenyLemmas.v
theories/DenyExamples.v
theories/Properties_Deny.v
theories/SpecSecrecy.v
theories/SecrecyLemmas.v
theories/ErasureLemmas.v
theories/SecrecyExamples.v
theories/Properties_Secrecy.v
theories/SpecStore.v
theories/StoreProofs.v
theories/StoreLemmas.v
theories/Properties_Store.v
theories/SpecNumber.v
theories/NumberProofs.v
theories/NumberExamples.v
theories/Properties_Number.v
theories/SpecParams.v
theories/ParamsProofs.v
theories/Properties_Params.v
theories/SpecFormat.v
theories/FormatProofs.v
theories/SpecSent.v
theories/SentProofs.v
theories/Properties_Format.v
theories/SpecSchedule.v
theories/ScheduleProofs.v
theories/ScheduleLemmas.v
theories/Properties_Schedule.v
theories/SpecCount.v
theories/CountProofs.v
theories/Properties_Count.v
theories/SpecReplies.v
theories/RepliesProofs.v
theories/RepliesExamples.v
theories/Properties_Replies.v
theories/SpecOrder.v
theories/OrderProofs.v
theories/Properties_Order.v
theories/SpecBind.v
theories/BindProofs.v
theories/Properties_Bind.v
theories/SpecBeside.v
theories/BesideProofs.v
theories/Properties_Beside.v
theories/SpecRecover.v
theories/RecoverProofs.v
theories/RecoverExamples.v
theories/Properties_Recover.v
theories/SpecRenew.v
theories/RenewProofs.v
theories/RenewExamples.v
theories/Properties_Renew.v
theories/SpecGreet.v
theories/GreetProofs.v
theories/GreetExamples.v
theories/Properties_Greet.v
theories/SpecForge.v
theories/ForgeProofs.v
theories/ForgeLemmas.v
theories/Properties_Forge.v
theories/SpecContrib.v
theories/ContribProofs.v
theories/ContribLemmas.v
theories/ContribExamples.v
theories/Properties_Contrib.v
theories/SpecParts.v
theories/PartsProofs.v
theories/PartsLemmas.v
theories/PartsRunProofs.v
theories/PartsCallProofs.v
theories/PartsExamples.v
theories/Properties_Parts.v
theories/SpecLongTerm.v
theories/LongTermProofs.v
theories/Properties_LongTerm.v
theories/SpecSize.v
theories/SizeProofs.v
theories/SizeCrashProofs.v
theories/Properties_Size.v
theories/SpecPolicy.v
theories/PolicyProofs.v
theories/Properties_Policy.v
theories/SpecSignature.v
theories/SignatureProofs.v
theories/Properties_Signature.v
theories/SpecDsa.v
theories/DsaProofs.v
theories/Properties_Dsa.v
