-Q theories Verif
theories/Ack2_proofs.v
theories/Ack_model.v
theories/Ack_proofs.v
theories/Ack_spec.v
theories/Amplify2_proofs.v
theories/Amplify_model.v
theories/Amplify_proofs.v
theories/Amplify_spec.v
theories/Base.v
theories/Bstream_model.v
theories/Bstream_proofs.v
theories/Bstream_spec.v
theories/Bstreamb_proofs.v
theories/Caps_model.v
theories/Caps_proofs.v
theories/Caps_spec.v
theories/Capsb_proofs.v
theories/Chal_model.v
theories/Chal_proofs.v
theories/Chal_spec.v
theories/Chalb_proofs.v
theories/Cids2_proofs.v
theories/Cids3_proofs.v
theories/Cids4_proofs.v
theories/Cids5_proofs.v
theories/Cids6_proofs.v
theories/Cids7_proofs.v
theories/Cids8_proofs.v
theories/Cids_model.v
theories/Cids_proofs.v
theories/Cids_spec.v
theories/Cneg2_proofs.v
theories/Cneg3_proofs.v
theories/Cneg_model.v
theories/Cneg_proofs.v
theories/Cneg_spec.v
theories/Crypto_model.v
theories/Crypto_proofs.v
theories/Crypto_spec.v
theories/Ctl_model.v
theories/Ctl_proofs.v
theories/Ctl_spec.v
theories/Ctlb_proofs.v
theories/Ctlc_proofs.v
theories/Delay2_proofs.v
theories/Delay3_proofs.v
theories/Delay4_proofs.v
theories/Delay5_proofs.v
theories/Delay6_proofs.v
theories/Delay_model.v
theories/Delay_proofs.v
theories/Delay_spec.v
theories/Dgram_model.v
theories/Dgram_proofs.v
theories/Dgram_spec.v
theories/Dgramb_proofs.v
theories/Frames2_proofs.v
theories/Frames3_proofs.v
theories/Frames4_proofs.v
theories/Frames5_proofs.v
theories/Frames6_proofs.v
theories/Frames_model.v
theories/Frames_proofs.v
theories/Frames_spec.v
theories/H3_model.v
theories/H3_proofs.v
theories/H3_spec.v
theories/H3b_proofs.v
theories/H3c_proofs.v
theories/H3d_proofs.v
theories/H3e_proofs.v
theories/H3f_proofs.v
theories/Hash_model.v
theories/Hash_proofs.v
theories/Hash_spec.v
theories/Header2_proofs.v
theories/Header3_proofs.v
theories/Header_model.v
theories/Header_proofs.v
theories/Header_spec.v
theories/Hexid_model.v
theories/Hexid_proofs.v
theories/Hexid_spec.v
theories/Hset_model.v
theories/Hset_proofs.v
theories/Hset_spec.v
theories/Keys2_proofs.v
theories/Keys3_proofs.v
theories/Keys4_proofs.v
theories/Keys5_proofs.v
theories/Keys_model.v
theories/Keys_proofs.v
theories/Keys_spec.v
theories/Lb2_proofs.v
theories/Lb3_proofs.v
theories/Lb4_proofs.v
theories/Lb_model.v
theories/Lb_proofs.v
theories/Lb_spec.v
theories/Lcid_model.v
theories/Lcid_proofs.v
theories/Lcid_spec.v
theories/Lcidb_proofs.v
theories/Life2_proofs.v
theories/Life3_proofs.v
theories/Life4_proofs.v
theories/Life_model.v
theories/Life_proofs.v
theories/Life_spec.v
theories/Loss2_proofs.v
theories/Loss3_proofs.v
theories/Loss4_proofs.v
theories/Loss5_proofs.v
theories/Loss6_proofs.v
theories/Loss7_proofs.v
theories/Loss_model.v
theories/Loss_proofs.v
theories/Loss_spec.v
theories/Mem.v
theories/Mem_proofs.v
theories/Misc_model.v
theories/Misc_proofs.v
theories/Misc_spec.v
theories/Needs2_proofs.v
theories/Needs3_proofs.v
theories/Needs4_proofs.v
theories/Needs5_proofs.v
theories/Needs6_proofs.v
theories/Needs7_proofs.v
theories/Needs_model.v
theories/Needs_proofs.v
theories/Needs_spec.v
theories/Net2_proofs.v
theories/Net3_proofs.v
theories/Net4_proofs.v
theories/Net5_proofs.v
theories/Net_model.v
theories/Net_proofs.v
theories/Net_spec.v
theories/P_Ack.v
theories/P_Amplify.v
theories/P_Bstream.v
theories/P_Caps.v
theories/P_Chal.v
theories/P_Cids.v
theories/P_Cneg.v
theories/P_Crypto.v
theories/P_Ctl.v
theories/P_Delay.v
theories/P_Dgram.v
theories/P_Frames.v
theories/P_H3.v
theories/P_Hash.v
theories/P_Header.v
theories/P_Hexid.v
theories/P_Hset.v
theories/P_Keys.v
theories/P_Lb.v
theories/P_Lcid.v
theories/P_Life.v
theories/P_Loss.v
theories/P_Misc.v
theories/P_Needs.v
theories/P_Net.v
theories/P_Pacing.v
theories/P_PacketNumber.v
theories/P_Pmtu.v
theories/P_Ports.v
theories/P_Protect.v
theories/P_Qpack.v
theories/P_Reno.v
theories/P_Repeat.v
theories/P_Rtoken.v
theories/P_Rtt.v
theories/P_Sack.v
theories/P_Sched.v
theories/P_Segment.v
theories/P_Send.v
theories/P_Spin.v
theories/P_Splay.v
theories/P_Stop.v
theories/P_Stream.v
theories/P_StreamLimits.v
theories/P_Token.v
theories/P_Tparam.v
theories/P_Uri.v
theories/P_Varint.v
theories/P_Wake.v
theories/Pacing2_proofs.v
theories/Pacing_model.v
theories/Pacing_proofs.v
theories/Pacing_spec.v
theories/PacketNumber_model.v
theories/PacketNumber_proofs.v
theories/Pmtu2_proofs.v
theories/Pmtu_model.v
theories/Pmtu_proofs.v
theories/Pmtu_spec.v
theories/Ports_model.v
theories/Ports_proofs.v
theories/Protect2_proofs.v
theories/Protect3_proofs.v
theories/Protect_model.v
theories/Protect_proofs.v
theories/Protect_spec.v
theories/Qpack2_proofs.v
theories/Qpack3_proofs.v
theories/Qpack4_proofs.v
theories/Qpack5_proofs.v
theories/Qpack_model.v
theories/Qpack_proofs.v
theories/Qpack_spec.v
theories/Reasm2_proofs.v
theories/Reasm_model.v
theories/Reasm_proofs.v
theories/Reasm_spec.v
theories/Reno2_proofs.v
theories/Reno_model.v
theories/Reno_proofs.v
theories/Reno_spec.v
theories/Repeat2_proofs.v
theories/Repeat3_proofs.v
theories/Repeat4_proofs.v
theories/Repeat5_proofs.v
theories/Repeat_model.v
theories/Repeat_proofs.v
theories/Repeat_spec.v
theories/Rtoken2_proofs.v
theories/Rtoken_model.v
theories/Rtoken_proofs.v
theories/Rtoken_spec.v
theories/Rtt2_proofs.v
theories/Rtt_model.v
theories/Rtt_proofs.v
theories/Rtt_spec.v
theories/Sack_model.v
theories/Sack_proofs.v
theories/Sack_spec.v
theories/Sched2_proofs.v
theories/Sched3_proofs.v
theories/Sched4_proofs.v
theories/Sched5_proofs.v
theories/Sched_proofs.v
theories/Sched_spec.v
theories/Segment2_proofs.v
theories/Segment3_proofs.v
theories/Segment4_proofs.v
theories/Segment5_proofs.v
theories/Segment6_proofs.v
theories/Segment_model.v
theories/Segment_proofs.v
theories/Segment_spec.v
theories/Send2_proofs.v
theories/Send3_proofs.v
theories/Send4_proofs.v
theories/Send5_proofs.v
theories/Send6_proofs.v
theories/Send7_proofs.v
theories/Send_model.v
theories/Send_proofs.v
theories/Send_spec.v
theories/Spin_model.v
theories/Spin_proofs.v
theories/Spin_spec.v
theories/Splay_model.v
theories/Splay_proofs.v
theories/Splay_spec.v
theories/Stop_spec.v
theories/Stream2_proofs.v
theories/Stream3_proofs.v
theories/Stream4_proofs.v
theories/Stream_model.v
theories/Stream_proofs.v
theories/Stream_spec.v
theories/Tac.v
theories/Token2_proofs.v
theories/Token_model.v
theories/Token_proofs.v
theories/Token_spec.v
theories/Tparam2_proofs.v
theories/Tparam3_proofs.v
theories/Tparam4_proofs.v
theories/Tparam5_proofs.v
theories/Tparam6_proofs.v
theories/Tparam7_proofs.v
theories/Tparam8_proofs.v
theories/Tparam9_proofs.v
theories/Tparam_model.v
theories/Tparam_proofs.v
theories/Tparam_spec.v
theories/Uri_model.v
theories/Uri_proofs.v
theories/Uri_spec.v
theories/Urib_proofs.v
theories/Varint_model.v
theories/Varint_proofs.v
theories/Varint_spec.v
theories/Wake_model.v
theories/Wake_proofs.v
theories/Wake_spec.v
