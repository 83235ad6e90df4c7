-Q theories Verif
theories/C_Accept.v
theories/C_AcceptEnc.v
theories/C_Aead.v
theories/C_Aes.v
theories/C_Causal.v
theories/C_CcSafe.v
theories/C_CcVerdict.v
theories/C_Codec.v
theories/C_Commit.v
theories/C_Dev.v
theories/C_Digest.v
theories/C_Field.v
theories/C_Garble.v
theories/C_GarbleView.v
theories/C_GcProc.v
theories/C_Gf128.v
theories/C_Handshake.v
theories/C_Hash.v
theories/C_Inter.v
theories/C_ItMac.v
theories/C_LabSess.v
theories/C_LabView.v
theories/C_Labels.v
theories/C_Live.v
theories/C_Offline.v
theories/C_Open.v
theories/C_ProofView.v
theories/C_ProveAes.v
theories/C_Rot.v
theories/C_Sched.v
theories/C_SessView.v
theories/C_Session.v
theories/C_Stream.v
theories/C_StreamView.v
theories/C_Switch.v
theories/C_View.v
theories/C_ViewCom.v
theories/C_ViewE2f.v
theories/C_Whole.v
theories/C_WholeSafe.v
theories/C_WholeView.v
theories/D_AesCuts.v
theories/D_AesEnc.v
theories/D_AesKs.v
theories/D_Toy.v
theories/L_Bits.v
theories/L_Group.v
theories/L_Modq.v
theories/L_PTree.v
theories/L_Res.v
theories/L_Str.v
theories/L_Xor.v
theories/M_Addmod.v
theories/M_Aead.v
theories/M_AeadProof.v
theories/M_Block.v
theories/M_Bn.v
theories/M_Bristol.v
theories/M_Causal.v
theories/M_CheatCc.v
theories/M_ComConv.v
theories/M_Commit.v
theories/M_Dev.v
theories/M_Digest.v
theories/M_E2f.v
theories/M_Ec.v
theories/M_EmpInteger.v
theories/M_Exch.v
theories/M_ExchCc.v
theories/M_ExchDh.v
theories/M_Final.v
theories/M_Garble.v
theories/M_GarbleTr.v
theories/M_GcProc.v
theories/M_Handshake.v
theories/M_Hmac.v
theories/M_Inter.v
theories/M_ItMac.v
theories/M_LabRec.v
theories/M_LabView.v
theories/M_Live.v
theories/M_Ole.v
theories/M_Ole2k.v
theories/M_ProveAes.v
theories/M_ProvePrf.v
theories/M_Session.v
theories/M_Sha256.v
theories/M_Shares.v
theories/M_Switch.v
theories/M_Sym.v
theories/M_SymOff.v
theories/M_SymOn.v
theories/M_SymSess.v
theories/M_Trace.v
theories/M_Unique.v
theories/M_Utils.v
theories/M_View.v
theories/M_Vope.v
theories/M_Whole.v
theories/P_Accept.v
theories/P_AcceptEnc.v
theories/P_Addmod.v
theories/P_Aead.v
theories/P_AeadInst.v
theories/P_AeadProof.v
theories/P_AeadProof2.v
theories/P_AesNet.v
theories/P_Bn.v
theories/P_Causal.v
theories/P_Causal2.v
theories/P_Causal3.v
theories/P_CcVerdict.v
theories/P_ComConv.v
theories/P_ComProps.v
theories/P_Commit.v
theories/P_Det.v
theories/P_Dev.v
theories/P_Dh.v
theories/P_Digest.v
theories/P_Digest2.v
theories/P_Digest3.v
theories/P_E2f.v
theories/P_Exch.v
theories/P_ExchAead.v
theories/P_ExchCc.v
theories/P_ExchDh.v
theories/P_ExchRef.v
theories/P_ExchSess.v
theories/P_Feed.v
theories/P_FeedCc.v
theories/P_Finalize.v
theories/P_FullHs.v
theories/P_Garble.v
theories/P_GarbleFeed.v
theories/P_GarbleOpt.v
theories/P_GarbleSat.v
theories/P_GarbleTr.v
theories/P_GarbleView.v
theories/P_GarbleView2.v
theories/P_GarbleView3.v
theories/P_GarbleView4.v
theories/P_GcProc.v
theories/P_GcProc2.v
theories/P_GcProc3.v
theories/P_GcProc4.v
theories/P_Gcm.v
theories/P_Gf128.v
theories/P_Handshake.v
theories/P_HandshakeZk.v
theories/P_Hmac.v
theories/P_Inter.v
theories/P_Inter2.v
theories/P_Inter3.v
theories/P_Inter4.v
theories/P_ItMac.v
theories/P_LabRec.v
theories/P_LabSess.v
theories/P_LabView.v
theories/P_LabView2.v
theories/P_LabView3.v
theories/P_LabView4.v
theories/P_LabView5.v
theories/P_LabView6.v
theories/P_Labels.v
theories/P_Live.v
theories/P_Live2.v
theories/P_LiveItems.v
theories/P_LiveOwn.v
theories/P_LiveRun.v
theories/P_LiveStep.v
theories/P_LiveStream.v
theories/P_LiveTwo.v
theories/P_Lower.v
theories/P_Misuse.v
theories/P_NetCheck.v
theories/P_Ole.v
theories/P_Ole2k.v
theories/P_OleHide.v
theories/P_Open.v
theories/P_Open2.v
theories/P_Open3.v
theories/P_Prf.v
theories/P_PrfHist.v
theories/P_PrfZk.v
theories/P_PrfZkC.v
theories/P_Prime256.v
theories/P_ProofView.v
theories/P_ProofView2.v
theories/P_ProveAes.v
theories/P_ProveAes2.v
theories/P_ProveAes3.v
theories/P_ProvePrf.v
theories/P_RevVerdict.v
theories/P_Rot.v
theories/P_Sched.v
theories/P_SessView.v
theories/P_Session.v
theories/P_Session2.v
theories/P_Session3.v
theories/P_Sha256.v
theories/P_Sha256Msg.v
theories/P_Sha256Opt.v
theories/P_Shares.v
theories/P_Stream.v
theories/P_StreamView.v
theories/P_Switch.v
theories/P_Switch2.v
theories/P_Sym.v
theories/P_SymGcm.v
theories/P_SymTls.v
theories/P_SymVal.v
theories/P_Tight.v
theories/P_Unique.v
theories/P_Utils.v
theories/P_View.v
theories/P_ViewAead.v
theories/P_ViewBob.v
theories/P_ViewCom.v
theories/P_ViewE2f.v
theories/P_ViewInv.v
theories/P_ViewMask.v
theories/P_ViewPriv.v
theories/P_ViewStep.v
theories/P_ViewTag.v
theories/P_Vope.v
theories/P_Whole.v
theories/P_WholeDh.v
theories/P_WholeSafe.v
theories/P_WholeTwo.v
theories/P_WholeView.v
theories/S_Aes.v
theories/S_Causal.v
theories/S_Circuit.v
theories/S_Cmp.v
theories/S_Codec.v
theories/S_Disclose.v
theories/S_Eat.v
theories/S_Ec.v
theories/S_Feed.v
theories/S_GarbleView.v
theories/S_Gcm.v
theories/S_HalfGate.v
theories/S_Heap.v
theories/S_Hmac.v
theories/S_Lower.v
theories/S_Netlist.v
theories/S_OleView.v
theories/S_Open.v
theories/S_Sched.v
theories/S_Sha256.v
theories/S_Talk.v
theories/S_Tls.v
theories/S_View.v
