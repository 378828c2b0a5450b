-Q theories Verif
theories/Addr_Model.v
theories/Addr_Proofs.v
theories/Addr_Props.v
theories/Addr_Spec.v
theories/AmfAny_Proofs.v
theories/Amf_Model.v
theories/Amf_Proofs.v
theories/Amf_Props.v
theories/Amf_Spec.v
theories/Audio_Model.v
theories/Audio_Proofs.v
theories/Audio_Props.v
theories/Audio_Spec.v
theories/Av1_Model.v
theories/Av1_Proofs.v
theories/Av1_Props.v
theories/Av1_Spec.v
theories/Avc_Frames_Proofs.v
theories/Avc_Model.v
theories/Avc_Props.v
theories/Avc_Recv_Proofs.v
theories/Avc_Send_Proofs.v
theories/Avc_Spec.v
theories/Avc_Way_Proofs.v
theories/Avcc_Model.v
theories/Avcc_Proofs.v
theories/Avcc_Spec.v
theories/Bitfields_Model.v
theories/Bitfields_Proofs.v
theories/Bitfields_Props.v
theories/Bitfields_Spec.v
theories/Bits.v
theories/BitsFacts.v
theories/Bitstream_Model.v
theories/Bitstream_Proofs.v
theories/Bitstream_Props.v
theories/Bitstream_Spec.v
theories/Cmaf_Model.v
theories/Cmaf_Proofs.v
theories/Cmaf_Props.v
theories/Cmaf_Spec.v
theories/Common.v
theories/CommonFacts.v
theories/CommonMore.v
theories/Comms_Model.v
theories/Comms_Proofs.v
theories/Comms_Props.v
theories/Comms_Spec.v
theories/Crc_Model.v
theories/Crc_Proofs.v
theories/Crc_Props.v
theories/Crc_Spec.v
theories/Crc_Tables.v
theories/DtmiDec_Proofs.v
theories/DtmiScan_Proofs.v
theories/Dtmi_Model.v
theories/Dtmi_Proofs.v
theories/Dtmi_Props.v
theories/Dtmi_Spec.v
theories/DtscOps_Proofs.v
theories/Dtsc_Model.v
theories/Dtsc_Proofs.v
theories/Dtsc_Props.v
theories/Dtsc_Spec.v
theories/Ebml_Model.v
theories/Ebml_Proofs.v
theories/Ebml_Props.v
theories/Ebml_Spec.v
theories/Encode_Model.v
theories/Encode_Proofs.v
theories/Encode_Props.v
theories/Encode_Spec.v
theories/Fec_Model.v
theories/Fec_Packet_Proofs.v
theories/Fec_Props.v
theories/Fec_Run_Proofs.v
theories/Fec_Spec.v
theories/Fec_Xor_Proofs.v
theories/Flac_Model.v
theories/Flac_Proofs.v
theories/Flac_Props.v
theories/Flac_Spec.v
theories/Flv_Model.v
theories/Flv_Proofs.v
theories/Flv_Props.v
theories/Flv_Spec.v
theories/HashMd_Proofs.v
theories/HashSha_Proofs.v
theories/Hash_Model.v
theories/Hash_Proofs.v
theories/Hash_Props.v
theories/Hash_Spec.v
theories/HttpRun_Proofs.v
theories/HttpSend_Proofs.v
theories/HttpText_Proofs.v
theories/HttpVars_Proofs.v
theories/Http_Model.v
theories/Http_Props.v
theories/Http_Spec.v
theories/JsonTextAny_Proofs.v
theories/JsonText_Model.v
theories/JsonText_Proofs.v
theories/JsonText_Props.v
theories/JsonText_Spec.v
theories/JsonVal_Model.v
theories/Jwt_Model.v
theories/Jwt_Proofs.v
theories/Jwt_Props.v
theories/Jwt_Spec.v
theories/LiveHist_Proofs.v
theories/LiveLook_Proofs.v
theories/LiveRun_Proofs.v
theories/Live_Model.v
theories/Live_Proofs.v
theories/Live_Props.v
theories/Live_Spec.v
theories/Mem_Model.v
theories/Mem_Proofs.v
theories/MetaFind_Model.v
theories/MetaFind_Proofs.v
theories/MetaFind_Spec.v
theories/MetaLim_Proofs.v
theories/MetaMore_Proofs.v
theories/MetaRun_Proofs.v
theories/MetaUpd_Proofs.v
theories/MetaView_Proofs.v
theories/Meta_Model.v
theories/Meta_Proofs.v
theories/Meta_Props.v
theories/Meta_Spec.v
theories/Mp4_Model.v
theories/Mp4_Proofs.v
theories/Mp4_Props.v
theories/Mp4_Spec.v
theories/Nal_Model.v
theories/Nal_Proofs.v
theories/Nal_Props.v
theories/Nal_Spec.v
theories/Ogg_Model.v
theories/Ogg_Proofs.v
theories/Ogg_Props.v
theories/Ogg_Spec.v
theories/Outcome_Model.v
theories/PageRead_Proofs.v
theories/Page_Model.v
theories/Page_Proofs.v
theories/Page_Props.v
theories/Page_Spec.v
theories/Psi_Model.v
theories/Psi_Proofs.v
theories/Psi_Props.v
theories/Psi_Spec.v
theories/Psi_WProofs.v
theories/Psort_Model.v
theories/Psort_Proofs.v
theories/Psort_Props.v
theories/Psort_Spec.v
theories/RPtr_Model.v
theories/RPtr_Proofs.v
theories/RPtr_Props.v
theories/RPtr_Spec.v
theories/RelAccX_Hist_Proofs.v
theories/RelAccX_Model.v
theories/RelAccX_Proofs.v
theories/RelAccX_Props.v
theories/RelAccX_Spec.v
theories/Rtmp_Model.v
theories/Rtmp_Pack_Proofs.v
theories/Rtmp_Proofs.v
theories/Rtmp_Props.v
theories/Rtmp_Spec.v
theories/Rtmp_Stream_Proofs.v
theories/RtpFrame_Proofs.v
theories/RtpNal_Proofs.v
theories/RtpSortInv_Proofs.v
theories/RtpSortLive_Proofs.v
theories/RtpSort_Model.v
theories/RtpSort_Proofs.v
theories/RtpSort_Props.v
theories/RtpSort_Spec.v
theories/Rtp_Model.v
theories/Rtp_Proofs.v
theories/Rtp_Props.v
theories/Rtp_Spec.v
theories/ScanAny_Proofs.v
theories/Scan_Model.v
theories/SessId_Model.v
theories/SessId_Props.v
theories/SessId_Spec.v
theories/Session_Proofs.v
theories/SockBuf_Model.v
theories/SockBuf_Proofs.v
theories/SockBuf_Props.v
theories/SockBuf_Spec.v
theories/Str_Model.v
theories/Str_Proofs.v
theories/Str_Props.v
theories/Str_Spec.v
theories/Stun_Model.v
theories/Stun_Proofs.v
theories/Stun_Props.v
theories/Stun_Spec.v
theories/Tracks_Model.v
theories/Tracks_Proofs.v
theories/Tracks_Props.v
theories/Tracks_Spec.v
theories/Ts_Demux_Proofs.v
theories/Ts_Model.v
theories/Ts_Mux_Proofs.v
theories/Ts_Pes_Proofs.v
theories/Ts_Proofs.v
theories/Ts_Props.v
theories/Ts_Spec.v
theories/Ulp_Model.v
theories/Ulp_Props.v
theories/Ulp_Spec.v
theories/UrlLink_Proofs.v
theories/UrlRel_Proofs.v
theories/UrlRes_Proofs.v
theories/UrlText_Proofs.v
theories/Url_Model.v
theories/Url_Proofs.v
theories/Url_Props.v
theories/Url_Spec.v
theories/Wav_Model.v
theories/Wav_Proofs.v
theories/Wav_Props.v
theories/Wav_Spec.v
theories/Websocket_Model.v
theories/Websocket_Proofs.v
theories/Websocket_Props.v
theories/Websocket_Spec.v
theories/Window_Model.v
theories/Window_Proofs.v
theories/Window_Props.v
theories/Window_Spec.v
