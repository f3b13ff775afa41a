-Q theories Verif
theories/Bytes.v
theories/BytesLemmas.v
theories/Asm.v
theories/DspModel.v
theories/DspProofs.v
theories/P_Dsp.v
theories/RtpModel.v
theories/RtpSpec.v
theories/RtpProofs.v
theories/P_Rtp.v
theories/GoLib.v
theories/GoLibLemmas.v
theories/SdpModel.v
theories/SipText.v
theories/SipTypes.v
theories/SipAppend.v
theories/UtilModel.v
theories/SdpProofs.v
theories/P_Text.v
theories/P_Lists.v
theories/P_Sdp.v
theories/CopyHeap.v
theories/P_Copy.v
theories/P_CopyValue.v
theories/RtpCloseModel.v
theories/P_RtpClose.v
theories/AwgnModel.v
theories/P_Awgn.v
theories/Auto.v
theories/AutoRe.v
theories/UriTable.v
theories/UriModel.v
theories/UriGrammar.v
theories/UriSpec.v
theories/UriProofs.v
theories/UriMeaning.v
theories/P_Uri.v
theories/P_UriAmp.v
theories/MsgTable.v
theories/MsgModel.v
theories/MsgSafe.v
theories/MsgSpec.v
theories/MsgGrammar.v
theories/MsgReach.v
theories/MsgBlocks.v
theories/MsgVia.v
theories/MsgAddr.v
theories/MsgNames.v
theories/MsgMeaning.v
theories/P_Msg.v
theories/MsgLines.v
theories/P_MsgText.v
theories/P_MsgLength.v
theories/P_Cut.v
theories/MsgWf.v
theories/MsgRound.v
theories/P_MsgRound.v
theories/DialogMsg.v
theories/P_DialogMsg.v
theories/P_Response.v
theories/P_DialogWire.v
theories/P_Exact.v
theories/TransportModel.v
theories/P_Transport.v
theories/DialogModel.v
theories/P_DialogEnd.v
theories/P_Dialog.v
theories/P_DialogCount.v
theories/P_DialogSafe.v
theories/P_DialogFail.v
theories/P_DialogRuns.v
theories/CleanupModel.v
theories/P_Cleanup.v
theories/P_DialogPeer.v
theories/P_DialogCall.v
theories/P_TransportAt.v
theories/P_Received.v
theories/P_DialogTell.v
theories/P_DialogWhere.v
theories/MsgErrorAt.v
theories/MsgErrorModel.v
theories/P_MsgError.v
theories/AppModel.v
theories/P_App.v
theories/P_Written.v
theories/P_Call.v
theories/P_Append.v
theories/P_Talk.v
theories/P_CutSend.v
theories/P_CleanupSafe.v
theories/P_Audio.v
theories/FoneModel.v
theories/P_Fone.v
theories/P_FoneCall.v
theories/FoneOpenModel.v
theories/P_FoneOpen.v
theories/TraceModel.v
theories/P_Trace.v
theories/FoneSoundModel.v
theories/P_FoneSound.v
theories/P_Forward.v
theories/FrameModel.v
theories/P_Frame.v
theories/P_PassOn.v
theories/P_PassNeeds.v
theories/P_SdpNew.v
theories/P_SdpExact.v
theories/ListenModel.v
theories/P_Listen.v
theories/P_CallEnds.v
theories/P_FoneEnds.v
theories/AwgnFloat.v
theories/Orbit.v
theories/FloatLemmas.v
theories/P_Noise.v
theories/P_Invite.v
theories/P_Loss.v
theories/P_Detour.v
theories/P_PeerCall.v
theories/EchoModel.v
theories/P_Echo.v
theories/P_EchoResend.v
theories/ExamplesModel.v
theories/P_Examples.v
theories/P_EchoRaw.v
theories/Echo3Model.v
theories/P_Echo3.v
theories/P_Echo3Call.v
theories/LiveModel.v
theories/P_Live.v
theories/P_LiveCall.v
theories/P_LiveApps.v
theories/TimedModel.v
theories/P_Timed.v
theories/P_TimedCall.v
theories/P_TimedAnswer.v
theories/AnswerModel.v
theories/P_Answers.v
theories/P_Worn.v
theories/SendersModel.v
theories/P_Senders.v
theories/ReaderModel.v
theories/P_Reader.v
theories/P_Phrase.v
theories/RtpSendersModel.v
theories/P_RtpSenders.v
theories/RepoTests.v
