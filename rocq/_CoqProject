-Q theories Verif
theories/Base.v
theories/BaseProofs.v
theories/Spec.v
theories/Utils.v
theories/UtilsProofs.v
theories/HexProofs.v
theories/Framing.v
theories/SpecFraming.v
theories/FramingProofs.v
theories/CodecProofs.v
theories/FramingProps.v
theories/P_Codec.v
theories/P_Framing.v
theories/Text.v
theories/Crc24.v
theories/SpecCrc.v
theories/Crc24Proofs.v
theories/Armor.v
theories/SpecArmor.v
theories/TextProofs.v
theories/ArmorProofs.v
theories/ArmorProps.v
theories/P_Armor.v
theories/S2k.v
theories/SpecS2k.v
theories/S2kProofs.v
theories/P_S2k.v
theories/Cipher.v
theories/SpecCipher.v
theories/CipherProofs.v
theories/CipherCalls.v
theories/CipherStream.v
theories/CipherProps.v
theories/Idea.v
theories/SpecIdea.v
theories/IdeaProofs.v
theories/IdeaModel.v
theories/P_Cipher.v
theories/SymCipher.v
theories/SpecCfb.v
theories/CfbProofs.v
theories/SessionKeys.v
theories/SessionKeysProofs.v
theories/P_Session.v
theories/KeyPackets.v
theories/SpecKey.v
theories/KeyProofs.v
theories/P_Keys.v
theories/Utf8.v
theories/SpecUtf8.v
theories/Utf8Proofs.v
theories/DataPackets.v
theories/SpecData.v
theories/DataProofs.v
theories/P_Data.v
theories/SigPackets.v
theories/SpecSig.v
theories/SigProofs.v
theories/SigStable.v
theories/P_Sig.v
theories/UserAttr.v
theories/SpecAttr.v
theories/AttrProofs.v
theories/P_Attr.v
theories/Packets.v
theories/SpecPackets.v
theories/PacketsProofs.v
theories/P_Packets.v
theories/Message.v
theories/SpecMessage.v
theories/MsgEncProofs.v
theories/MsgProps.v
theories/CrlfProofs.v
theories/P_Message.v
theories/Signable.v
theories/SpecSigned.v
theories/SignedProofs.v
theories/P_Signed.v
theories/KeyOps.v
theories/SpecVerify.v
theories/VerifyProofs.v
theories/SignVerify.v
theories/DemoRsa.v
theories/P_Verify.v
theories/KeyLock.v
theories/SpecLock.v
theories/LockProofs.v
theories/P_Lock.v
theories/Compression.v
theories/SpecCompression.v
theories/CompressionProofs.v
theories/P_Compress.v
theories/Hkp.v
theories/SpecHkp.v
theories/HkpProofs.v
theories/P_Hkp.v
theories/UserId.v
theories/SpecUserId.v
theories/UserIdProofs.v
theories/UserIdForms.v
theories/P_UserId.v
theories/SigAttrs.v
theories/SpecAttrs.v
theories/AttrsProofs.v
theories/IssuerProofs.v
theories/P_Attrs.v
theories/SelfSig.v
theories/SpecSelf.v
theories/SelfProofs.v
theories/P_SelfSig.v
theories/P_SigCheck.v
theories/TransKey.v
theories/SpecTrans.v
theories/TransProofs.v
theories/TransRound.v
theories/P_Trans.v
theories/Keyring.v
theories/SpecRing.v
theories/RingProofs.v
theories/P_Ring.v
theories/Merge.v
theories/P_Merge.v
theories/Shortcuts.v
theories/SpecShort.v
theories/ShortProofs.v
theories/P_Short.v
theories/FileLock.v
theories/SpecFileLock.v
theories/FileLockProofs.v
theories/P_FileLock.v
theories/SharedRing.v
theories/P_Shared.v
theories/Regex.v
theories/SpecRegex.v
theories/RegexProofs.v
theories/P_Regex.v
theories/PubMsg.v
theories/SpecPubMsg.v
theories/PubMsgProofs.v
theories/P_PubMsg.v
theories/PktHash.v
theories/P_PktHash.v
theories/DumpKeys.v
theories/SpecDump.v
theories/DumpProofs.v
theories/DumpOrder.v
theories/P_Dump.v
theories/DumpSig.v
theories/DumpSigProofs.v
theories/SpecDumpSig.v
theories/DumpTells.v
theories/P_DumpSig.v
theories/Validate.v
theories/P_Validate.v
theories/Pinentry.v
theories/SpecPinentry.v
theories/P_Pinentry.v
theories/Agent.v
theories/SpecAgent.v
theories/P_Agent.v
theories/DbSearch.v
theories/SpecDb.v
theories/P_Db.v
theories/Commands.v
theories/SpecCommands.v
theories/CommandsProofs.v
theories/P_Commands.v
theories/SigLists.v
theories/SpecLists.v
theories/ListsProofs.v
theories/P_Lists.v
theories/UserIdSet.v
theories/SpecUserIdSet.v
theories/UserIdSetProofs.v
theories/P_UserIdSet.v
theories/AttrItem.v
theories/SpecAttrItem.v
theories/P_AttrItem.v
theories/PacketEq.v
theories/SpecPacketEq.v
theories/P_PacketEq.v
theories/BackSig.v
theories/SpecBackSig.v
theories/P_BackSig.v
theories/SecretV3.v
theories/P_SecretV3.v
theories/Url.v
theories/KeyServer.v
theories/SpecKeyServer.v
theories/KeyServerProofs.v
theories/P_KeyServer.v
theories/SignMessage.v
theories/SpecOnePass.v
theories/OnePassProofs.v
theories/P_SignMessage.v
theories/P_Gnupg.v
theories/P_Transparent.v
theories/IoHelper.v
theories/SpecIo.v
theories/IoProofs.v
theories/P_Io.v
theories/RingKeys.v
theories/P_RingKeys.v
theories/CommandLine.v
theories/SpecCommandLine.v
theories/P_CommandLine.v
theories/P_Stranger.v
theories/KeyCrypt.v
theories/SpecKeyCrypt.v
theories/P_Mail.v
theories/P_KeySearch.v
theories/P_Tight.v
theories/KeyGrip.v
theories/SpecGrip.v
theories/P_Grip.v
theories/SpecZone.v
theories/P_Zone.v
theories/P_ZoneSig.v
theories/SpecNest.v
theories/P_Nest.v
theories/P_SignedMail.v
theories/P_Tight2.v
theories/SpecErrors.v
theories/P_Errors.v
theories/SpecTight3.v
theories/P_Tight3.v
theories/SpecBound.v
theories/P_Bound.v
theories/Lifetime.v
theories/SpecLifetime.v
theories/P_Lifetime.v
theories/SpecTight4.v
theories/P_Tight4.v
theories/SpecSubValue.v
theories/P_SubValue.v
theories/KeyObj.v
theories/SpecKeyObj.v
theories/P_KeyObj.v
theories/SpecSecretOwn.v
theories/P_SecretOwn.v
theories/SpecCert.v
theories/CertAttrs.v
theories/P_Cert.v
theories/SpecSync.v
theories/P_Sync.v
theories/P_Octets.v
theories/P_Area.v
theories/SpecForeign.v
theories/P_Foreign.v
theories/SpecUnlock.v
theories/Unlock.v
theories/P_Unlock.v
theories/SpecStub.v
theories/P_Stub.v
theories/SpecEncrypted.v
theories/P_Encrypted.v
theories/SigEq.v
theories/SpecSigEq.v
theories/P_SigEq.v
