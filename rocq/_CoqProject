-Q theories Verif
theories/Util.v
theories/Base64_model.v
theories/Base64_spec.v
theories/Base64_proofs.v
theories/Base64_props.v
theories/Bits_spec.v
theories/Bits_lemmas.v
theories/Bitstream_model.v
theories/Bitstream_proofs.v
theories/Bitstream_proofs2.v
theories/Bitstream_proofs3.v
theories/Bitstream_proofs4.v
theories/Bitstream_props.v
theories/FileOrder_model.v
theories/FileOrder_proofs.v
theories/FileOrder_props.v
theories/SignalEvent_model.v
theories/SignalEvent_proofs.v
theories/SignalEvent_props.v
theories/Promise_model.v
theories/Promise_proofs.v
theories/Promise_props.v
theories/CBuffer_model.v
theories/CBuffer_proofs.v
theories/CBuffer_props.v
theories/CResource_model.v
theories/CResource_proofs.v
theories/CResource_props.v
theories/Str_model.v
theories/Str_proofs.v
theories/Str_props.v
theories/CmdLine_model.v
theories/CmdLine_proofs.v
theories/CmdLine_props.v
theories/StrAlias_model.v
theories/StrAlias_proofs.v
theories/StrAlias_props.v
theories/Dec_spec.v
theories/Dec_lemmas.v
theories/HNano_model.v
theories/HNano_proofs.v
theories/HNano_props.v
theories/Crc_model.v
theories/Crc_proofs.v
theories/Crc_proofs2.v
theories/Crc_props.v
theories/FQueue_model.v
theories/FQueue_proofs.v
theories/FQueue_proofs2.v
theories/FQueue_props.v
theories/TsTime_model.v
theories/TsTime_proofs.v
theories/Ts_model.v
theories/Ts_proofs.v
theories/Ts_proofs2.v
theories/Ts_proofs3.v
theories/Ts_proofs4.v
theories/Ts_proofs5.v
theories/Ts_props.v
theories/TsSect_model.v
theories/TsSect_proofs.v
theories/TsSect_proofs2.v
theories/TsSect_proofs3.v
theories/TsSect_props.v
theories/Nal_model.v
theories/Nal_proofs.v
theories/Nal_props.v
theories/Edit_model.v
theories/Edit_proofs.v
theories/Edit_proofs2.v
theories/Edit_props.v
theories/Mpd_model.v
theories/Mpd_proofs.v
theories/Mpd_props.v
theories/Hls_model.v
theories/Hls_proofs.v
theories/Hls_props.v
theories/HlsCrypt_model.v
theories/HlsCrypt_proofs.v
theories/HlsCrypt_props.v
theories/Points_model.v
theories/Points_proofs.v
theories/Points_proofs2.v
theories/Points_props.v
theories/Publish_model.v
theories/Publish_proofs.v
theories/Publish_props.v
theories/RangeMap_model.v
theories/RangeMap_proofs.v
theories/RangeMap_props.v
theories/SampleTab_model.v
theories/SampleTab_proofs.v
theories/SampleTab_props.v
theories/Double_model.v
theories/TimeTab_model.v
theories/TimeTab_proofs.v
theories/TimeTab_proofs2.v
theories/TimeTab_proofs3.v
theories/TimeTab_proofs4.v
theories/Double_proofs.v
theories/TimeTab_props.v
theories/AutoDec_model.v
theories/AutoDec_proofs.v
theories/AutoDec_props.v
theories/MuxQueue_model.v
theories/MuxQueue_proofs.v
theories/MuxQueue_props.v
theories/Box_model.v
theories/Box_proofs.v
theories/Box_props.v
theories/Cenc_model.v
theories/Cenc_proofs.v
theories/Cenc_props.v
theories/Frag_model.v
theories/Frag_proofs.v
theories/Frag_proofs2.v
theories/Frag_proofs3.v
theories/Frag_proofs4.v
theories/Frag_props.v
theories/Level_model.v
theories/Level_proofs.v
theories/Level_props.v
theories/Walk_model.v
theories/Walk_proofs.v
theories/Walk_props.v
theories/Cut_model.v
theories/Cut_proofs.v
theories/Cut_props.v
theories/Es_model.v
theories/Es_proofs.v
theories/Es_proofs2.v
theories/Es_props.v
theories/TsDemux_model.v
theories/TsDemux_proofs.v
theories/TsDemux_proofs2.v
theories/TsDemux_proofs3.v
theories/TsDemux_props.v
theories/Seg_model.v
theories/Seg_proofs.v
theories/Seg_proofs2.v
theories/Seg_proofs3.v
theories/Seg_proofs4.v
theories/Seg_proofs5.v
theories/Seg_props.v
theories/Clock_model.v
theories/Clock_proofs.v
theories/Clock_props.v
theories/Movie_model.v
theories/Movie_proofs.v
theories/Movie_proofs2.v
theories/Movie_proofs3.v
theories/Movie_proofs4.v
theories/Movie_proofs5.v
theories/Movie_proofs6.v
theories/Movie_proofs7.v
theories/Movie_props.v
theories/Demux_model.v
theories/Demux_proofs.v
theories/Demux_proofs2.v
theories/Demux_props.v
theories/Open_model.v
theories/Open_proofs.v
theories/Open_props.v
theories/Sps_model.v
theories/Sps_proofs.v
theories/Sps_proofs2.v
theories/Sps_props.v
theories/Esds_model.v
theories/Esds_proofs.v
theories/Esds_proofs2.v
theories/Esds_props.v
theories/Seek_model.v
theories/Seek_proofs.v
theories/Seek_props.v
theories/Store_model.v
theories/Store_proofs.v
theories/Store_props.v
theories/Drm_model.v
theories/Drm_proofs.v
theories/Drm_props.v
theories/AacFix_model.v
theories/AacFix_proofs.v
theories/AacFix_proofs2.v
theories/AacFix_props.v
theories/TimeCode_model.v
theories/TimeCode_proofs.v
theories/TimeCode_proofs2.v
theories/TimeCode_proofs3.v
theories/TimeCode_props.v
theories/TrackTimes_model.v
theories/TrackTimes_proofs.v
theories/TrackTimes_props.v
theories/Pres_model.v
theories/Pres_proofs.v
theories/Pres_proofs2.v
theories/Pres_proofs3.v
theories/Pres_proofs4.v
theories/Pres_proofs5.v
theories/Pres_props.v
theories/HlsPres_model.v
theories/HlsPres_proofs.v
theories/HlsPres_proofs2.v
theories/HlsPres_proofs3.v
theories/HlsPres_props.v
theories/Date_model.v
theories/Date_proofs.v
theories/Date_props.v
theories/Smooth_model.v
theories/Smooth_proofs.v
theories/Smooth_proofs2.v
theories/Smooth_proofs3.v
theories/Smooth_props.v
theories/Fill_model.v
theories/Fill_proofs.v
theories/Fill_proofs2.v
theories/Fill_proofs3.v
theories/Fill_props.v
theories/Content_model.v
theories/Content_proofs.v
theories/Content_proofs2.v
theories/Content_props.v
theories/Copy_model.v
theories/Copy_proofs.v
theories/Copy_proofs2.v
theories/Copy_props.v
theories/Defrag_model.v
theories/Defrag_proofs.v
theories/Defrag_props.v
theories/Init_model.v
theories/Init_proofs.v
theories/Init_proofs2.v
theories/Init_proofs3.v
theories/Init_proofs4.v
theories/Init_proofs5.v
theories/Init_props.v
theories/Slice_model.v
theories/Slice_proofs.v
theories/Slice_props.v
theories/Gop_model.v
theories/Gop_proofs.v
theories/Gop_props.v
theories/Validate_model.v
theories/Validate_proofs.v
theories/Validate_props.v
theories/Pick_model.v
theories/Pick_proofs.v
theories/Pick_props.v
theories/Cfile_model.v
theories/Cfile_proofs.v
theories/Cfile_props.v
theories/MuxOpt_model.v
theories/MuxOpt_proofs.v
theories/MuxOpt_props.v
theories/Ltc_model.v
theories/Ltc_proofs.v
theories/Ltc_props.v
theories/Sync_model.v
theories/Sync_proofs.v
theories/Sync_props.v
theories/Foreign_model.v
theories/Foreign_proofs.v
theories/Foreign_props.v
theories/Sealed_model.v
theories/Sealed_proofs.v
theories/Sealed_props.v
theories/Conform_model.v
theories/Conform_proofs.v
theories/Conform_proofs2.v
theories/Conform_proofs3.v
theories/Conform_props.v
