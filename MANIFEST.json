{
 "claims": [
  {
   "property": "C01",
   "status": "proved",
   "theorems": [
    "C01_read_bits_value"
   ],
   "note": "Bits past the end of data are silently missing, as in the code; result modulo 2^64."
  },
  {
   "property": "C02",
   "status": "proved",
   "theorems": [
    "C02_write_bits_exact"
   ],
   "note": ""
  },
  {
   "property": "C03",
   "status": "proved",
   "theorems": [
    "C03_bits_writer_reader_round_trip"
   ],
   "note": "Covers Write/Read fields, Seek and byte-aligned WriteBytes/ReadBytes."
  },
  {
   "property": "C04",
   "status": "proved",
   "theorems": [
    "C04_cursor_matches_spec",
    "C04_cursor_never_leaves"
   ],
   "note": ""
  },
  {
   "property": "C05",
   "status": "partial",
   "theorems": [
    "C05_read_bytes_never_panics_refuted",
    "C05_read_bytes_never_panics_partial"
   ],
   "note": "False as stated: ReadBytes(-1) after reading 2 bytes panics (witness in _refuted). _partial: it panics exactly for negative sizes whose target offset is still inside the buffer."
  },
  {
   "property": "C06",
   "status": "proved",
   "theorems": [
    "C06_typed_round_trip"
   ],
   "note": ""
  },
  {
   "property": "C07",
   "status": "proved",
   "theorems": [
    "C07_uint24_round_trip"
   ],
   "note": ""
  },
  {
   "property": "C08",
   "status": "proved",
   "theorems": [
    "C08_golomb_fixed_width",
    "C08_golomb_read_bit",
    "C08_golomb_start"
   ],
   "note": ""
  },
  {
   "property": "C09",
   "status": "proved",
   "theorems": [
    "C09_ue_decodes",
    "C09_ue_total"
   ],
   "note": "C09_ue_total gives the exact value also for the 33-zero case."
  },
  {
   "property": "C10",
   "status": "partial",
   "theorems": [
    "C10_se_decodes_refuted",
    "C10_se_decodes_partial"
   ],
   "note": "False as stated for negative v: (-res)/2 is an unsigned division, so -k decodes to 2^63-k (witness in _refuted). _partial: exact value for every v, correct for v >= 0."
  },
  {
   "property": "C11",
   "status": "proved",
   "theorems": [
    "C11_ring_buffer_refines_list",
    "C11_ring_buffer_new"
   ],
   "note": ""
  },
  {
   "property": "C12",
   "status": "proved",
   "theorems": [
    "C12_queue_refines_list"
   ],
   "note": ""
  },
  {
   "property": "C13",
   "status": "proved",
   "theorems": [
    "C13_linked_list_refines_list"
   ],
   "note": ""
  },
  {
   "property": "C14",
   "status": "proved",
   "theorems": [
    "C14_reference_counter"
   ],
   "note": ""
  },
  {
   "property": "C15",
   "status": "proved",
   "theorems": [
    "C15_direct_buffer_refines_fifo"
   ],
   "note": ""
  },
  {
   "property": "C16",
   "status": "proved",
   "theorems": [
    "C16_direct_held_blocks_intact"
   ],
   "note": ""
  },
  {
   "property": "C17",
   "status": "proved",
   "theorems": [
    "C17_split_off_seals"
   ],
   "note": ""
  },
  {
   "property": "C18",
   "status": "partial",
   "theorems": [
    "C18_split_off_usable_refuted",
    "C18_split_off_usable_partial"
   ],
   "note": "False as stated: the new buffer keeps the old nextOffset although its data already starts there (witness in _refuted). _partial: it works for every history exactly when the old buffer was at most half full, otherwise every Write panics; after Clear it always works."
  },
  {
   "property": "C19",
   "status": "partial",
   "theorems": [
    "C19_rb_fetch_refuted",
    "C19_rb_fetch_partial"
   ],
   "note": "False as stated: a second growth overwrites discardBlockCount (witness in _refuted). _partial: every history without a second growth while dropped blocks still wait for their Pop, and without Fetch/PopBack/Size while only dropped blocks are left. The exact result for every history, without conditions, is C108."
  },
  {
   "property": "C20",
   "status": "partial",
   "theorems": [
    "C20_rb_held_intact_refuted",
    "C20_rb_held_intact_partial"
   ],
   "note": "False as stated: a write into an exactly full wrapped ring overwrites the oldest live block (witness in _refuted). _partial: the conditions of C19 plus no write into an exactly full ring. C112 covers histories with any growths and names the blocks concerned; C109 gives the exact memory effect of every Write."
  },
  {
   "property": "C21",
   "status": "partial",
   "theorems": [
    "C21_rb_pop_order_refuted",
    "C21_rb_pop_order_partial"
   ],
   "note": "False as stated: after two growths the second Pop releases the third block (witness in _refuted). _partial: under the conditions of C20. The exact account for every history, without conditions, is C111."
  },
  {
   "property": "C22",
   "status": "proved",
   "theorems": [
    "C22_streams_isolated",
    "C22_streams_slices_isolated"
   ],
   "note": "Histories in which no call panics; the streams share one heap in the model."
  },
  {
   "property": "C23",
   "status": "partial",
   "theorems": [
    "C23_first_write_refuted",
    "C23_first_write_partial",
    "C23_first_memory"
   ],
   "note": "False as stated: a first write on index 1 panics (witness in _refuted). _partial: succeeds after every history for every index up to the number of buffers created so far."
  },
  {
   "property": "C24",
   "status": "proved",
   "theorems": [
    "C24_direct_pipeline"
   ],
   "note": "The returned bytes are those at the moment of the return; the pipeline reuses the memory afterwards."
  },
  {
   "property": "C25",
   "status": "proved",
   "theorems": [
    "C25_find_start_code",
    "C25_find_start_code2"
   ],
   "note": ""
  },
  {
   "property": "C26",
   "status": "proved",
   "theorems": [
    "C26_split_lossless",
    "C26_split_units",
    "C26_split_short",
    "C26_split_cuts"
   ],
   "note": "For arbitrary data the pieces are also pinned down exactly: C26_split_cuts says where every piece begins."
  },
  {
   "property": "C27",
   "status": "partial",
   "theorems": [
    "C27_annexb2avcc_refuted",
    "C27_annexb2avcc_partial",
    "C27_annexb2avcc_exact"
   ],
   "note": "False as stated: AnnexB2AVCC skips zero bytes at the start of a unit, so a unit whose header byte is 0 (H.265 TRAIL_N) loses it. _partial: all lists of units whose header byte is not 0. C27_annexb2avcc_exact: the exact output for all units."
  },
  {
   "property": "C28",
   "status": "proved",
   "theorems": [
    "C28_annexb2avcc_wellformed",
    "C28_annexb2avcc_exact",
    "C28_found_units"
   ],
   "note": "C28_annexb2avcc_exact: the exact result for all bytes and all buffer sizes; C28_found_units: the units it finds are unique and, on well-formed streams, the stream's."
  },
  {
   "property": "C29",
   "status": "proved",
   "theorems": [
    "C29_avcc2annexb"
   ],
   "note": ""
  },
  {
   "property": "C30",
   "status": "proved",
   "theorems": [
    "C30_avcc2annexb_safe",
    "C30_avcc2annexb_prefix"
   ],
   "note": ""
  },
  {
   "property": "C31",
   "status": "partial",
   "theorems": [
    "C31_round_trip_refuted",
    "C31_annexb_avcc_annexb_partial",
    "C31_avcc_annexb_avcc_partial",
    "C31_annexb_avcc_annexb_exact",
    "C31_avcc_annexb_avcc_exact"
   ],
   "note": "False as stated for a unit with header byte 0 (see C27) and for SEI units. _partial: both directions for all SEI-free units with a non-zero header byte; _exact: what is left of arbitrary units in both directions."
  },
  {
   "property": "C32",
   "status": "partial",
   "theorems": [
    "C32_extra_once_refuted",
    "C32_avcc2annexb_extra_partial",
    "C32_one_idr_partial",
    "C32_count_partial",
    "C32_never_after_ps_partial"
   ],
   "note": "False as stated: with two IDR slices in the access unit the extra data is inserted twice. Proved: it is inserted before every IDR slice that has no SPS/PPS before it, hence exactly once for one IDR slice."
  },
  {
   "property": "C33",
   "status": "proved",
   "theorems": [
    "C33_mp4_to_annexb",
    "C33_mp4_every_unit",
    "C33_mp4_never_panics"
   ],
   "note": ""
  },
  {
   "property": "C34",
   "status": "proved",
   "theorems": [
    "C34_avc_key_frame_exact",
    "C34_avc_key_frame",
    "C34_avc_key_frame_total",
    "C34_dispatch"
   ],
   "note": ""
  },
  {
   "property": "C35",
   "status": "proved",
   "theorems": [
    "C35_hevc_key_frame_exact",
    "C35_hevc_key_frame",
    "C35_hevc_key_frame_total",
    "C35_dispatch"
   ],
   "note": ""
  },
  {
   "property": "C36",
   "status": "proved",
   "theorems": [
    "C36_avc_extra"
   ],
   "note": ""
  },
  {
   "property": "C37",
   "status": "proved",
   "theorems": [
    "C37_hevc_extra"
   ],
   "note": ""
  },
  {
   "property": "C38",
   "status": "partial",
   "theorems": [
    "C38_extra_never_panics_refuted",
    "C38_extra_no_panic_partial",
    "C38_extra_panics_iff"
   ],
   "note": "False as stated. C38_extra_panics_iff gives the exact condition: fewer than 3 bytes, or a blank unit (two start codes in a row, a bare start code, or three zero bytes before the first start code)."
  },
  {
   "property": "C39",
   "status": "proved",
   "theorems": [
    "C39_avc_record_round_trip",
    "C39_same_lists"
   ],
   "note": ""
  },
  {
   "property": "C40",
   "status": "proved",
   "theorems": [
    "C40_avc_record_total"
   ],
   "note": ""
  },
  {
   "property": "C41",
   "status": "partial",
   "theorems": [
    "C41_m4vc_refuted",
    "C41_m4vc_partial",
    "C41_m4vc_exact"
   ],
   "note": "False as stated: M4VCExtraDataToAnnexB panics on truncated records and skips the PPSs when there are two or more SPSs (refuted). Proved: what it returns on every well-formed record, hence equality for one SPS. C41_m4vc_exact: the result for all byte strings, including the errors and panics."
  },
  {
   "property": "C42",
   "status": "partial",
   "theorems": [
    "C42_hevc_record_refuted",
    "C42_hevc_record_partial"
   ],
   "note": "False as stated: SPSs are appended to PPSList (hevc/mp4.go:192), so only the last SPS survives (refuted). Proved: VPS and PPS lists come back whole and SPSList is the last SPS, so the round trip is exact for one SPS."
  },
  {
   "property": "C43",
   "status": "proved",
   "theorems": [
    "C43_hevc_fields",
    "C43_hevc_total",
    "C43_hevc_accepts",
    "C43_hevc_extra_exact"
   ],
   "note": "C43_hevc_accepts: exactly which slices are accepted; C43_hevc_extra_exact: the exact result of ExtraDataToAnnexB."
  },
  {
   "property": "C44",
   "status": "proved",
   "theorems": [
    "C44_hevc_mp4_units",
    "C44_extra_once",
    "C44_no_irap",
    "C44_hevc_mp4_total"
   ],
   "note": ""
  },
  {
   "property": "C45",
   "status": "proved",
   "theorems": [
    "C45_hevc_unescape",
    "C45_hevc_parse_escaped",
    "C45_escape_no_start_code"
   ],
   "note": "Escaping (with the final 03 after two trailing zeros) is inverted by nal2rbsp for every payload; ParseSPS on the escaped unit equals the parser body on the RBSP."
  },
  {
   "property": "C46",
   "status": "partial",
   "theorems": [
    "C46_avc_dimensions_refuted",
    "C46_avc_dimensions_partial",
    "C46_avc_fps"
   ],
   "note": "False in four ways (witnesses in _refuted): field-coded streams (crop unit 4), 4:4:4 (crop unit 1), profiles 128/138/139/134/135, 12 scaling lists in 4:4:4. _partial: for every other syntax structure all fields are read exactly and width/height are right iff the crop unit is 2 or nothing is cropped; C46_avc_fps: frame rate exact (uses the Reals axioms through Flocq)."
  },
  {
   "property": "C47",
   "status": "proved",
   "theorems": [
    "C47_avc_sps_total"
   ],
   "note": "At least 4 bytes; shorter all-zero slices panic in RemoveStartCode (C47_short)."
  },
  {
   "property": "C48",
   "status": "partial",
   "theorems": [
    "C48_hevc_dimensions_refuted",
    "C48_hevc_dimensions_partial",
    "C48_lost_fields"
   ],
   "note": "False: the conformance window is ignored (1920x1088 instead of 1080, witness in _refuted). _partial: for every syntax structure with up to 6 sub-layers the coded size and the profile fields are exact, and equal the displayed size iff the window is empty."
  },
  {
   "property": "C49",
   "status": "proved",
   "theorems": [
    "C49_adts_round_trip",
    "C49_read_exact"
   ],
   "note": ""
  },
  {
   "property": "C50",
   "status": "proved",
   "theorems": [
    "C50_adts_to_asc"
   ],
   "note": ""
  },
  {
   "property": "C51",
   "status": "partial",
   "theorems": [
    "C51_sample_rate_index_refuted",
    "C51_sample_rate_index_partial"
   ],
   "note": "False: the function looks the rate up as a map key, so 48000 gives index 0 (witness in _refuted). _partial: it returns 0 for every rate outside 0..15, is right for 96000 only; the table itself is exact and injective."
  },
  {
   "property": "C52",
   "status": "partial",
   "theorems": [
    "C52_extract_audio_refuted",
    "C52_extract_audio_partial"
   ],
   "note": "False as stated for channel configuration 7: AudioConfig.Channels is 7 while the AudioSpecificConfig means 8 channels (witness in _refuted). _partial: total, exact error condition, consistent rate for all headers and consistent channels for every other configuration."
  },
  {
   "property": "C53",
   "status": "proved",
   "theorems": [
    "C53_convert_monotone",
    "C53_no_timebase"
   ],
   "note": "Results that do not fit an int64 are implementation-dependent in Go and modelled as None."
  },
  {
   "property": "C54",
   "status": "partial",
   "theorems": [
    "C54_convert_accuracy_refuted",
    "C54_convert_accuracy_partial"
   ],
   "note": "False as stated (strictly below one tick): 390 @48000 -> 1000000 gives 8124 while the exact value is 8125 (witness in _refuted). _partial: general error bound, below 1.5 ticks in the stated range, at most one tick (reached only on exact divisions) while ts*dst < 2^52."
  },
  {
   "property": "C55",
   "status": "partial",
   "theorems": [
    "C55_convert_exact_refuted",
    "C55_convert_exact_partial"
   ],
   "note": "False in general: 735 @44100 -> 15360 is exactly 256 but gives 255 (witness in _refuted). _partial: exact whenever the float64 ratio is not rounded down (decidable), in particular 90000<->1000, 8000/16000 -> 1000 and integral factors."
  },
  {
   "property": "C56",
   "status": "partial",
   "theorems": [
    "C56_avcc_packet_refuted",
    "C56_avcc_packet_partial",
    "C56_avcc_packet_units",
    "C56_hevc_packet",
    "C56_hevc_packet_refuted",
    "C56_hevc_packet_exact"
   ],
   "note": "False for a stream without codec parameters (panic) and for SEI units, which are dropped (witnesses in _refuted). _partial: every packet of arbitrary bytes with codec parameters and any buffer returned by OnBufferAlloc; C56_hevc_packet is the H.265 analogue, with the exact bound on short length prefixes. C56_hevc_packet_exact: the result for every H.265 packet and every length size up to 4."
  },
  {
   "property": "C57",
   "status": "partial",
   "theorems": [
    "C57_annexb_packet_refuted",
    "C57_annexb_packet_partial",
    "C57_annexb_packet_units",
    "C57_annexb_packet_exact",
    "C57_codecs",
    "C57_other_packets"
   ],
   "note": "False: more than 256 units with 3-byte start codes overrun the buffer (witness in _refuted). _partial: arbitrary bytes with at most 256 start codes give well-formed AVCC; C57_annexb_packet_units: exactly the units. C57_annexb_packet_exact: the exact result for all bytes, including the panics."
  },
  {
   "property": "C58",
   "status": "partial",
   "theorems": [
    "C58_key_packet_refuted",
    "C58_key_packet_partial",
    "C58_other_packets",
    "C58_header",
    "C58_no_header"
   ],
   "note": "False when a NAL header is missing: panic (witness in _refuted). _partial and C58_other_packets/C58_no_header together characterise all cases."
  },
  {
   "property": "C59",
   "status": "partial",
   "theorems": [
    "C59_avc_any",
    "C59_hevc_any",
    "C59_codec_data_refuted",
    "C59_avc_codec_data_partial",
    "C59_hevc_codec_data_partial",
    "C59_parsed",
    "C59_avc_stream",
    "C59_hevc_stream",
    "C59_mp4",
    "C59_dispatch"
   ],
   "note": "False for sets given without start codes and for sets over 1024 bytes (witnesses in _refuted). _partial: all sets with 4-byte start codes that fit, including every stream made from a key frame (C59_avc_stream, C59_hevc_stream). C59_avc_any, C59_hevc_any: sets in any form that has an MP4 form come back bare with 4-byte start codes, with the same picture size."
  },
  {
   "property": "C60",
   "status": "partial",
   "theorems": [
    "C60_audio_refuted",
    "C60_recycled_partial",
    "C60_fields",
    "C60_extract_audio",
    "C60_once"
   ],
   "note": "False for audio packets: PacketType is 3 when recycled and 0 when new (witness in _refuted). _partial: nothing else differs, for every pool history; video packets are always equal."
  },
  {
   "property": "C61",
   "status": "proved",
   "theorems": [
    "C61_muxer_tracks",
    "C61_never_moves",
    "C61_write_header",
    "C61_not_completed"
   ],
   "note": ""
  },
  {
   "property": "C62",
   "status": "proved",
   "theorems": [
    "C62_buffer_index"
   ],
   "note": "Every history of all demuxer calls; the last conjunct fixes the result of the next FindBufferIndex call."
  },
  {
   "property": "C63",
   "status": "proved",
   "theorems": [
    "C63_callback_order"
   ],
   "note": "Every history and every choice of the runtime (map order, sort, pool), with no assumption on sort.Slice."
  },
  {
   "property": "C64",
   "status": "proved",
   "theorems": [
    "C64_conservation"
   ],
   "note": "Packets are compared without Duration, which the demuxer sets itself (that is C66). Assumes only that sort.Slice returns a sorted permutation."
  },
  {
   "property": "C65",
   "status": "partial",
   "theorems": [
    "C65_all_delivered_refuted",
    "C65_all_delivered_partial",
    "C65_lanes"
   ],
   "note": "False: the last packet of every stream stays buffered (witness in _refuted). _partial: after completion nothing else is undelivered. C65_lanes: what every list holds, for all histories."
  },
  {
   "property": "C66",
   "status": "partial",
   "theorems": [
    "C66_duration_refuted",
    "C66_duration_partial",
    "C66_driven",
    "C66_lanes"
   ],
   "note": "False for tracks announced through OnNew*Track when the packets of track 1 arrive before those of track 0: they share list 0 (witness in _refuted). _partial: exact for every history in which packets go to the list of their track; C66_driven: that is every packet-driven history. C66_lanes: the exact delivered packets and durations for all histories, in terms of the lists packets were put into."
  },
  {
   "property": "C67",
   "status": "partial",
   "theorems": [
    "C67_order_refuted",
    "C67_order_partial",
    "C67_batch_sorted",
    "C67_lanes"
   ],
   "note": "False for the same reason as C66 (witness in _refuted). _partial: exact delivered sequence; C67_batch_sorted: the released batch is sorted for every history. C67_lanes: order within each list for all histories."
  },
  {
   "property": "C68",
   "status": "partial",
   "theorems": [
    "C68_completion",
    "C68_milliseconds_partial",
    "C68_90khz_partial",
    "C68_not_later_refuted"
   ],
   "note": "False at 90 kHz: durations are truncated to milliseconds before they are summed (witness: 200.2 ms span, no completion). C68_completion is the exact criterion; exact elapsed time for the millisecond time base; at 90 kHz never early and late by less than 1 ms per packet (this last theorem uses the standard library's real-number axioms through Flocq)."
  },
  {
   "property": "C69",
   "status": "proved",
   "theorems": [
    "C69_accounting"
   ],
   "note": "Every history; the hook must not change Index or BufferIndex."
  },
  {
   "property": "C70",
   "status": "proved",
   "theorems": [
    "C70_tracks"
   ],
   "note": "Every history; the third conjunct is for packet-driven histories."
  },
  {
   "property": "C71",
   "status": "partial",
   "theorems": [
    "C71_rates_refuted",
    "C71_rates_partial"
   ],
   "note": "False: bytes per ms are truncated, over 96 bytes/ms the sampling rate becomes the sample size, and a G.726 rate over 40 kbit/s is not set (witnesses in _refuted). _partial: the exact value for every packet size and duration, and the claimed one when the size is a multiple of the duration. When nothing can be measured (no packet, or one shorter than a millisecond) the rates stay as they were."
  },
  {
   "property": "C72",
   "status": "partial",
   "theorems": [
    "C72_no_panic_refuted",
    "C72_audio_no_panic",
    "C72_video_no_panic_partial",
    "C72_video_panics_iff"
   ],
   "note": "False as stated. Audio: every payload. Video: C72_video_panics_iff gives the exact condition: a key frame that opens a track and is shorter than 3 bytes, has a blank unit, or holds a parameter set (not the last) ending in 00 00 01. Unknown formats panic for audio (witness in _refuted)."
  },
  {
   "property": "C73",
   "status": "proved",
   "theorems": [
    "C73_random_ranges"
   ],
   "note": ""
  },
  {
   "property": "C74",
   "status": "proved",
   "theorems": [
    "C74_names_unambiguous"
   ],
   "note": ""
  },
  {
   "property": "C75",
   "status": "proved",
   "theorems": [
    "C75_parse_nal_units_never_returns"
   ],
   "note": ""
  },
  {
   "property": "C76",
   "status": "partial",
   "theorems": [
    "C76_file_handler_refuted",
    "C76_file_handler_partial",
    "C76_one_unit"
   ],
   "note": "False: the parameter sets of an AVCC key packet are written twice (witness in _refuted). _partial: exact contents of every file for every history."
  },
  {
   "property": "C77",
   "status": "partial",
   "theorems": [
    "C77_rb_split_off_refuted",
    "C77_split_off_damage_partial"
   ],
   "note": "False: SplitOff is promoted from DirectBlockBuffer and hands over the whole array, live blocks included (C77_rb_split_off_refuted). C77_split_off_damage_partial is the exact effect after every history, also of writes in several pieces: the bytes written land on the ring from its first byte on until a write does not fit, every slice shows them where it overlaps them, and nothing else changes."
  },
  {
   "property": "C78",
   "status": "proved",
   "theorems": [
    "C78_start_code_reader"
   ],
   "note": ""
  },
  {
   "property": "C79",
   "status": "partial",
   "theorems": [
    "C79_hevc_lists_refuted",
    "C79_hevc_alias_refuted",
    "C79_hevc_lists_partial",
    "C79_sps_list_exact",
    "C79_sps_first"
   ],
   "note": "False for SPSList (same line): a record with PPSs before SPSs puts PPSs into SPSList and may overwrite SPSs through the shared array (refuted). Proved for VPSList and PPSList, for any growth policy. C79_sps_list_exact: what SPSList holds instead, for every record and every growth policy; C79_sps_first: the last SPS alone when no PPS comes before it."
  },
  {
   "property": "C80",
   "status": "partial",
   "theorems": [
    "C80_parse_asc_refuted",
    "C80_parse_asc_partial"
   ],
   "note": "False for both escapes (object type 31, frequency index 15), witnesses in _refuted. _partial: exact for every object type below 31 and frequency index below 13; panics exactly on slices shorter than 2 bytes."
  },
  {
   "property": "C81",
   "status": "partial",
   "theorems": [
    "C81_aac_duration_refuted",
    "C81_aac_duration_partial"
   ],
   "note": "False: the function returns rate/1024 instead of 1024/rate (witness in _refuted). _partial: exact value for every rate below 2^24; right only for rate 1024."
  },
  {
   "property": "C82",
   "status": "partial",
   "theorems": [
    "C82_avc_escape_refuted",
    "C82_avc_escape_partial"
   ],
   "note": "False: emulation prevention bytes are not removed (a real x264 SPS gives 174762 fps instead of 30, witness in _refuted). _partial: right when the parsed elements end before the first inserted byte. Which inputs are accepted at all, escaped or not: C113."
  },
  {
   "property": "C83",
   "status": "proved",
   "theorems": [
    "C83_hevc_sps_total"
   ],
   "note": ""
  },
  {
   "property": "C84",
   "status": "proved",
   "theorems": [
    "C84_avc_codec_data",
    "C84_hevc_codec_data"
   ],
   "note": "Totality of both and an iff characterisation; the HEVC one for every growth policy of append."
  },
  {
   "property": "C85",
   "status": "partial",
   "theorems": [
    "C85_no_retention_refuted",
    "C85_ring_no_retention_partial",
    "C85_queue_no_retention_partial",
    "C85_ring_retention",
    "C85_queue_retention",
    "C85_left_behind"
   ],
   "note": "False as stated: Queue.PopBack moves the tail back without clearing the slot (witness in _refuted), and Clear resets only the indices. _partial: holds for every RingBuffer history without Clear and every Queue history without PopBack and Clear. C85_ring_retention, C85_queue_retention, C85_left_behind: for every history, a slot holds nothing else than the contents and what PopBack or Clear took out, and right after the call the latter is still there."
  },
  {
   "property": "C86",
   "status": "partial",
   "theorems": [
    "C86_release_refuted",
    "C86_release_partial",
    "C86_release_driven",
    "C86_release_left",
    "C86_release_any_order"
   ],
   "note": "False as stated: the probe batch is sorted by dts, so a packet whose dts is below its predecessor's releases the predecessor's block (witness in _refuted). _partial: every history with ascending dts per track, one buffer per track and aligned lists; C86_release_driven: the last two hold when tracks are created from packets; C86_release_left: at most one block per track is left after the probe. Blocks are identified by content and position. C86_release_any_order, whatever the timestamps: no release meets an empty pipeline, the blocks released in a call are those of the packets delivered in it (perhaps in another order), and the blocks left are those of the waiting packets."
  },
  {
   "property": "C87",
   "status": "proved",
   "theorems": [
    "C87_file_names"
   ],
   "note": "Opening and writing are assumed to succeed (an error is a panic in the code)."
  },
  {
   "property": "C88",
   "status": "partial",
   "theorems": [
    "C88_session_refuted",
    "C88_session_partial",
    "C88_new_files",
    "C88_fails_only_on_data"
   ],
   "note": "False as stated: the file is opened without O_TRUNC, so the tail of a longer old file survives (witness in _refuted). _partial: exact contents of every file for every initial disk; C88_new_files: exactly the writes when the files are new; C88_fails_only_on_data: iff characterisation of failure for hooks that keep index and buffer."
  },
  {
   "property": "C89",
   "status": "proved",
   "theorems": [
    "C89_payload"
   ],
   "note": "Stated for histories without a preprocessing hook, since a hook may change any field."
  },
  {
   "property": "C90",
   "status": "proved",
   "theorems": [
    "C90_timebase"
   ],
   "note": ""
  },
  {
   "property": "C91",
   "status": "partial",
   "theorems": [
    "C91_same_codec_refuted",
    "C91_same_codec_partial",
    "C91_exact"
   ],
   "note": "False as stated: tracks are looked up by buffer index only, so a buffer that changes codec feeds the old track (witness in _refuted). _partial: holds when every buffer carries one codec of one media type and tracks are found from packets. C91_exact, with no condition on codecs: a packet has the media type and codec of its own call, its track those of a call for the same buffer."
  },
  {
   "property": "C92",
   "status": "partial",
   "theorems": [
    "C92_try_complete_refuted",
    "C92_try_complete_partial"
   ],
   "note": "False as stated: a track without any packet yet has no list and does not hold the probe back (witness in _refuted). _partial: exact condition."
  },
  {
   "property": "C93",
   "status": "proved",
   "theorems": [
    "C93_aac_track"
   ],
   "note": "Histories in which tracks are found from packets."
  },
  {
   "property": "C94",
   "status": "proved",
   "theorems": [
    "C94_avc_track",
    "C94_hevc_track"
   ],
   "note": "H.264 and H.265, histories in which tracks are found from packets; the dimensions are those of avc.ParseSPS / hevc.ParseSPS, see C46 and C48."
  },
  {
   "property": "C95",
   "status": "proved",
   "theorems": [
    "C95_announced_audio",
    "C95_announced_video"
   ],
   "note": "About calls that return; which calls panic is C72."
  },
  {
   "property": "C96",
   "status": "proved",
   "theorems": [
    "C96_half_full",
    "C96_half_is_best"
   ],
   "note": "The side condition mentions only the FIFO contents, so it also gives C19-C21 without conditions on block positions."
  },
  {
   "property": "C97",
   "status": "partial",
   "theorems": [
    "C97_seen_refuted",
    "C97_seen_partial",
    "C97_seen_driven",
    "C97_quarter"
   ],
   "note": "Refuted without a load bound: a block that fits into the buffer, written in two pieces, overwrites the first byte of a waiting packet. Proved, whatever the timestamps, when the packets waiting for a buffer and the new block fill at most half of it (after the probe: a quarter per packet), each track has its own buffer and lists are aligned with tracks; the last two hold by themselves when tracks come from packets (C97_seen_driven). C115 replaces the load bound by two conditions on the rings."
  },
  {
   "property": "C98",
   "status": "partial",
   "theorems": [
    "C98_exact",
    "C98_outside_panics_refuted",
    "C98_outside_panics_partial"
   ],
   "note": "False for negative indices: the last node keeps a pointer to an element removed from the end, a negative index returns it, and Remove then forgets another element. C98_outside_panics_partial says exactly when as long as no negative Remove succeeds (stale_spec); C98_exact gives every answer to every history (chain_spec). Indices of Size and above are covered by C13."
  },
  {
   "property": "C99",
   "status": "partial",
   "theorems": [
    "C99_marshal_refuted",
    "C99_marshal_partial",
    "C99_fits"
   ],
   "note": "False: Marshal panics on sets that are empty or only the beginning of a start code, on an H.264 SPS below 4 bytes and on an H.265 array starting with an empty unit. C99_marshal_partial gives the exact result for all lists of sets (record, error or panic, decided by the first set that has no bare form or no room); C99_fits derives the size claim for sets with content."
  },
  {
   "property": "C100",
   "status": "partial",
   "theorems": [
    "C100_without_handler_refuted",
    "C100_without_handler_partial",
    "C100_silent",
    "C100_new_and_closed",
    "C100_setters",
    "C100_no_error",
    "C100_no_autofree"
   ],
   "note": "False: calls that would reach the handler panic, so a closed demuxer panics on the next packet of a known track. C100_without_handler_partial says exactly what each call does without a handler; C100_silent and C100_new_and_closed: nothing is reported. C100_setters, C100_no_error and C100_no_autofree fix the rest of the life cycle."
  },
  {
   "property": "C101",
   "status": "proved",
   "theorems": [
    "C101_rb_panics",
    "C101_alloc"
   ],
   "note": "C101_rb_panics: exact condition for every method. C101_alloc: length of the result."
  },
  {
   "property": "C102",
   "status": "proved",
   "theorems": [
    "C102_streams_panics"
   ],
   "note": "C102_streams_panics: exact condition for every method."
  },
  {
   "property": "C103",
   "status": "partial",
   "theorems": [
    "C103_fetch_kept_refuted",
    "C103_fetch_exact",
    "C103_until_write_partial",
    "C103_value_model",
    "C103_panics"
   ],
   "note": "The claim is false (C103_fetch_kept_refuted). C103_fetch_exact gives the bytes of the slice after every history; C103_until_write_partial: unchanged until a non-empty Write. C103_value_model: results read at once are those of the value model of C24. C103_panics: exact panics."
  },
  {
   "property": "C104",
   "status": "partial",
   "theorems": [
    "C104_key_frame_stream",
    "C104_round_trip_refuted",
    "C104_avc_partial",
    "C104_same_bytes",
    "C104_avcc_first_partial",
    "C104_hevc_partial"
   ],
   "note": "The claim is false (C104_round_trip_refuted, and for every key frame and packet C104_key_frame_stream). C104_avc_partial, C104_same_bytes, C104_avcc_first_partial: H.264 both ways. C104_hevc_partial: H.265 through the record."
  },
  {
   "property": "C105",
   "status": "partial",
   "theorems": [
    "C105_direct_data",
    "C105_ring_available_refuted",
    "C105_ring_room"
   ],
   "note": "C105_direct_data: exact for DirectBlockBuffer. False for the ring (C105_ring_available_refuted); C105_ring_room gives the exact room."
  },
  {
   "property": "C106",
   "status": "partial",
   "theorems": [
    "C106_alloc_refuted",
    "C106_alloc_exact"
   ],
   "note": "False as stated (C106_alloc_refuted); C106_alloc_exact says when the store is seen and what is seen otherwise."
  },
  {
   "property": "C107",
   "status": "partial",
   "theorems": [
    "C107_safe_read_refuted",
    "C107_safe_read_exact",
    "C107_read_exact",
    "C107_write_exact",
    "C107_read_bytes_exact",
    "C107_write_bytes_exact"
   ],
   "note": "False for SafeRead (C107_safe_read_refuted, C107_safe_read_exact). The other methods exactly: C107_read_exact, C107_write_exact, C107_read_bytes_exact, C107_write_bytes_exact."
  },
  {
   "property": "C108",
   "status": "proved",
   "theorems": [
    "C108_fetch_exact"
   ],
   "note": "Proved for every history, without the conditions of C20."
  },
  {
   "property": "C109",
   "status": "proved",
   "theorems": [
    "C109_write_effect"
   ],
   "note": "Proved for every history. Says which held slices a Write can destroy (C20_refuted is one case)."
  },
  {
   "property": "C110",
   "status": "proved",
   "theorems": [
    "C110_no_spare",
    "C110_m4vc_exact",
    "C110_read_bytes_beyond",
    "C110_read_bytes_exact",
    "C110_packet_exact"
   ],
   "note": "Proved exactly for all inputs. C110_read_bytes_beyond is a witness that ReadBytes returns bytes beyond the slice's length. C110_no_spare ties the functions to the rest of the model."
  },
  {
   "property": "C111",
   "status": "proved",
   "theorems": [
    "C111_account",
    "C111_pop_exact"
   ],
   "note": "Proved with no side condition. This is the exact form of C21: the k-th Pop releases the k-th block exactly as long as no Pop was forgotten (l_lost = 0)."
  },
  {
   "property": "C112",
   "status": "proved",
   "theorems": [
    "C112_kept",
    "C112_none_gone",
    "C112_aside_untouched"
   ],
   "note": "Extends C20: the condition that no second growth happens while Pops are owed is gone; the blocks it concerns are named exactly. Writes into an exactly full ring remain excluded (C20 has the witness)."
  },
  {
   "property": "C113",
   "status": "proved",
   "theorems": [
    "C113_avc_exact",
    "C113_avc_rejects",
    "C113_avc_no_wrap"
   ],
   "note": "Proved as an equivalence with no side condition. The layout says which profiles have the high profile part and how many scaling lists there are as the code has it; C46 compares this with the standard."
  },
  {
   "property": "C114",
   "status": "proved",
   "theorems": [
    "C114_hevc_exact",
    "C114_hevc_rejects",
    "C114_hevc_no_wrap"
   ],
   "note": "Proved as an equivalence with no side condition."
  },
  {
   "property": "C115",
   "status": "proved",
   "theorems": [
    "C115_seen",
    "C115_driven",
    "C115_half"
   ],
   "note": "Proved under the two conditions of the statement, which are checked on the run of the system. Both are needed: C97_seen_refuted has a write into an exactly full ring, C115_forgotten_seen a second growth while a block waits."
  },
  {
   "property": "C116",
   "status": "partial",
   "theorems": [
    "C116_avc_exact",
    "C116_avc_extra",
    "C116_hevc_exact_partial",
    "C116_hevc_one_sps_partial",
    "C116_hevc_extra",
    "C116_hevc_refuted"
   ],
   "note": "H.264: C116_avc_exact and C116_avc_extra, an equivalence for all bytes. False for H.265 (C116_hevc_refuted): two SPSs give the size of the last one, and a record with its PPSs first is rejected because a PPS is parsed as the SPS. C116_hevc_exact_partial: the exact result for all bytes; C116_hevc_one_sps_partial: as claimed for one SPS with every PPS after it."
  },
  {
   "property": "C117",
   "status": "proved",
   "theorems": [
    "C117_stops_at_first",
    "C117_prefix",
    "C117_new_files",
    "C117_exact"
   ],
   "note": "C117_stops_at_first: for every session, exactly the first fault among its calls stops it. C117_prefix and C117_new_files: the disk then. C117_exact: also for sessions that would fail anyway."
  },
  {
   "property": "C118",
   "status": "partial",
   "theorems": [
    "C118_readable_refuted",
    "C118_mode_partial"
   ],
   "note": "False for every umask (C118_readable_refuted): the mode 132 is decimal, 0204 in octal. C118_mode_partial: the exact mode, owner write and others read minus the umask."
  },
  {
   "property": "C119",
   "status": "proved",
   "theorems": [
    "C119_rb",
    "C119_direct",
    "C119_streams",
    "C119_new"
   ],
   "note": "C119_rb, C119_direct (with all buffers split off), C119_streams: equal traces; C119_new: the constructors accept the same capacities. So the theorems about the list model of the buffers hold of the buffers on the queue."
  },
  {
   "property": "C120",
   "status": "proved",
   "theorems": [
    "C120_same",
    "C120_one_place"
   ],
   "note": "C120_same: simulation; C120_one_place: no packet is in two places. So the theorems about the list model (C62-C74 and those built on it) hold of the demuxer with pointers."
  },
  {
   "property": "C121",
   "status": "partial",
   "theorems": [
    "C121_keep_refuted",
    "C121_keep_partial",
    "C121_blank"
   ],
   "note": "False with AutoFree (C121_keep_refuted): the packet is blanked when OnPacket returns and used again (C121_blank). C121_keep_partial: without AutoFree it is true of every packet delivered, for ever, and no such packet gets into the pool."
  },
  {
   "property": "C122",
   "status": "partial",
   "theorems": [
    "C122_recorded_refuted",
    "C122_recorded",
    "C122_file_partial"
   ],
   "note": "False when a block meets an exactly full ring (C122_recorded_refuted). C122_recorded: under the conditions of C115 the recording equals that of the handler on by-value packets (C88), failures included, also for video; C122_file_partial: the contents of an audio file with ascending timestamps."
  },
  {
   "property": "C123",
   "status": "partial",
   "theorems": [
    "C123_avc_refuted",
    "C123_hevc_refuted",
    "C123_avc_exact",
    "C123_hevc_exact",
    "C123_same"
   ],
   "note": "False (C123_avc_refuted, C123_hevc_refuted): lists are appended to, a failing H.264 Unmarshal keeps the sets it read, an H.265 one also the new header, and an H.265 input without parameter sets is accepted into a used record. C123_avc_exact and C123_hevc_exact describe the record and the error for every record and input; C123_same ties this model to the one of C39-C43."
  },
  {
   "property": "C124",
   "status": "proved",
   "theorems": [
    "C124_suffix",
    "C124_all",
    "C124_step"
   ],
   "note": "Preprocessing hooks may rewrite packets, so they are excluded. C124_step is the same for a single call."
  },
  {
   "property": "C125",
   "status": "proved",
   "theorems": [
    "C125_file",
    "C125_h264",
    "C125_h264_all",
    "C125_h265_all"
   ],
   "note": "The calls are compared with the file directly, no model state in between; refused packets by C124. C125_h264 states the contents in NAL units."
  },
  {
   "property": "C126",
   "status": "proved",
   "theorems": [
    "C126_opened",
    "C126_avc",
    "C126_hevc"
   ],
   "note": "Sample rate of PCM and bit rate of G.726 are estimated later (C71) and excluded. C125_h264_all and C125_h265_all use it: the file follows from the calls alone."
  },
  {
   "property": "C127",
   "status": "proved",
   "theorems": [
    "C127_header",
    "C127_file",
    "C127_header_hevc",
    "C127_file_hevc",
    "C127_one_track"
   ],
   "note": "C127_header / C127_header_hevc: the record behind a track. C127_file / C127_file_hevc: the file as a function of the calls. C127_one_track discharges the order conditions for a demuxer with at most one track. That the parameter sets are there twice is what the code does (AVCCPacket2AnnexB puts them in front, the handler writes them before that, see C76)."
  },
  {
   "property": "C128",
   "status": "proved",
   "theorems": [
    "C128_demuxes",
    "C128_recording_iff",
    "C128_records",
    "C128_units",
    "C128_flv"
   ],
   "note": "C128_demuxes: the demuxer alone, for all names. C128_recording_iff: exact condition. C128_records: from the calls on. C128_units: NAL units behind start codes qualify. C128_flv: flv with H.264, any data; an announced AAC track without ADTS needs an AudioSpecificConfig of two bytes (C80). The example shows the key frame [0;0;1] that the demuxer accepts and the recording panics on."
  },
  {
   "property": "C129",
   "status": "proved",
   "theorems": [
    "C129_flv_streams",
    "C129_h264",
    "C129_h265",
    "C129_flv"
   ],
   "note": "C129_h264, C129_h265: containers with start codes, hypotheses only about the calls and the capacity of the buffers (sys_fits, decided by fitsb). C129_flv: one H.264 stream. C129_flv_streams: any announced tracks heard of in turn (C130), with the files of H.264 and audio tracks. Success is part of the conclusion (from C128). The last packet is never delivered (C65)."
  },
  {
   "property": "C130",
   "status": "proved",
   "theorems": [
    "C130_iff",
    "C130_announced"
   ],
   "note": "C130_iff: for every history. C130_announced: in terms of the calls, for announced tracks. Closes the hypothesis 'aligned' of C66, C67 and C127 for flv sessions; C129_flv_streams uses it for recordings of several streams."
  },
  {
   "property": "C131",
   "status": "proved",
   "theorems": [
    "C131_session",
    "C131_times",
    "C131_stream",
    "C131_driven",
    "C131_at_end",
    "C131_shared"
   ],
   "note": "C131_session relates two runs (results, panics included). C131_times, C131_stream: order of delivery. C131_driven, C131_at_end: when buffers are not shared. C131_shared: the condition is needed. The growth of append and the conversion of floats out of range are kept equal in both runs: they belong to the compiler, not to the run."
  },
  {
   "property": "C132",
   "status": "proved",
   "theorems": [
    "C132_clock",
    "C132_wrap"
   ],
   "note": "C132_clock. C132_wrap: the bound on the times is needed."
  },
  {
   "property": "C133",
   "status": "proved",
   "theorems": [
    "C133_flv",
    "C133_units"
   ],
   "note": "C133_flv: demuxer total, recording iff. C133_units: from units handed over to units in the file, H.265. Extends C128 and C129, which cover H.264."
  },
  {
   "property": "C134",
   "status": "proved",
   "theorems": [
    "C134_record",
    "C134_memory",
    "C134_ties"
   ],
   "note": "C134_record: outcome and files of two runs. C134_memory: on real stream buffers, any cutting. C134_ties: equal times within a stream are a counterexample. Joins C131 with C88 and C122."
  },
  {
   "property": "C135",
   "status": "proved",
   "theorems": [
    "C135_packets",
    "C135_record_avc",
    "C135_record_hevc",
    "C135_h264",
    "C135_h265"
   ],
   "note": "C135_packets: the sending side. C135_record_avc, C135_record_hevc: the record parses back. C135_h264, C135_h265: from the calls of the first session to the file of the second."
  },
  {
   "property": "C136",
   "status": "proved",
   "theorems": [
    "C136_packets_avc",
    "C136_packets_hevc",
    "C136_h264",
    "C136_h265",
    "C136_sets"
   ],
   "note": "C136_packets_avc, C136_packets_hevc: the sending side. C136_h264, C136_h265: from the calls of the flv session to the file of the second one. C136_sets: whose parameter sets are used."
  },
  {
   "property": "C137",
   "status": "proved",
   "theorems": [
    "C137_waiting",
    "C137_fits",
    "C137_quarter",
    "C137_safe",
    "C137_h264",
    "C137_h265",
    "C137_announced"
   ],
   "note": "C137_waiting: exactly what waits. C137_fits, C137_quarter: the bound. C137_safe, C137_h264, C137_h265: sessions without announced tracks, from the calls alone. C137_announced: flv."
  },
  {
   "property": "C138",
   "status": "proved",
   "theorems": [
    "C138_seen_differs",
    "C138_packets",
    "C138_seen_exact",
    "C138_same_size",
    "C138_moved",
    "C138_moves"
   ],
   "note": "The claim that the handler sees the bytes written is false (C138_seen_differs). C138_packets, C138_seen_exact: what is delivered and what is seen, exactly. C138_same_size, C138_moved, C138_moves: consequences."
  },
  {
   "property": "C139",
   "status": "proved",
   "theorems": [
    "C139_quiet",
    "C139_order_lost",
    "C139_conservation",
    "C139_in_order",
    "C139_close",
    "C139_depth",
    "C139_endless"
   ],
   "note": "The order claims of C63/C65 are false for such handlers (C139_order_lost). C139_quiet: with a handler that calls nothing the model is DemuxModel. C139_conservation, C139_in_order, C139_close, C139_depth, C139_endless."
  },
  {
   "property": "C140",
   "status": "proved",
   "theorems": [
    "C140_relabel",
    "C140_choices",
    "C140_from_start",
    "C140_files",
    "C140_one_track_matters"
   ],
   "note": "C140_relabel is an equation of whole results from any state; C140_choices, C140_from_start, C140_files. C140_one_track_matters: the same is false for moving one track alone."
  },
  {
   "property": "C141",
   "status": "proved",
   "theorems": [
    "C141_alone",
    "C141_indistinguishable",
    "C141_delivered",
    "C141_conditions_needed"
   ],
   "note": "C141_alone (existence of the restricted run and equality of the events of the buffer), C141_indistinguishable, C141_delivered. C141_conditions_needed: false during the probe, and after it for a track that has had no packet."
  },
  {
   "property": "C142",
   "status": "proved",
   "theorems": [
    "C142_after",
    "C142_found",
    "C142_two",
    "C142_two_after",
    "C142_callbacks",
    "C142_conditions_needed"
   ],
   "note": "C142_after, C142_found (equations of whole results), C142_two, C142_two_after, C142_callbacks. C142_conditions_needed: neither condition can be dropped."
  },
  {
   "property": "C143",
   "status": "proved",
   "theorems": [
    "C143_goes_on",
    "C143_no_tracks",
    "C143_left_over",
    "C143_files",
    "C143_during_probe",
    "C143_not_new"
   ],
   "note": "C143_goes_on (equation of whole runs), C143_no_tracks, C143_left_over, C143_files, C143_during_probe. C143_not_new: a used demuxer is not as good as a new one."
  },
  {
   "property": "C144",
   "status": "proved",
   "theorems": [
    "C144_file",
    "C144_two",
    "C144_stops"
   ],
   "note": "C144_file, C144_two, C144_stops (exact condition for the recorder to survive, with and without the other streams)."
  },
  {
   "property": "C145",
   "status": "proved",
   "theorems": [
    "C145_same",
    "C145_alone",
    "C145_one_place",
    "C145_kept"
   ],
   "note": "C145_same (simulation of all demuxers over one memory and one pool), C145_alone, C145_one_place, C145_kept. Calls are interleaved as wholes; C131_shared shows why C145_alone asks for separate buffers."
  },
  {
   "property": "C146",
   "status": "proved",
   "theorems": [
    "C146_before",
    "C146_batch",
    "C146_live"
   ],
   "note": "C146_before, C146_batch, C146_live: per call and exact; lists in terms of the packets put into them (lane of C65/C66)."
  },
  {
   "property": "C147",
   "status": "proved",
   "theorems": [
    "C147_search",
    "C147_convert",
    "C147_record",
    "C147_sps",
    "C147_packet",
    "C147_demuxer",
    "C147_recorder"
   ],
   "note": "C147_search, C147_convert, C147_record, C147_sps, C147_packet, C147_demuxer, C147_recorder: no budget of rounds in the model is ever used up. A handler that calls the demuxer again without end is C139_endless."
  },
  {
   "property": "C148",
   "status": "proved",
   "theorems": [
    "C148_state",
    "C148_next",
    "C148_session",
    "C148_track"
   ],
   "note": "C148_state, C148_next, C148_session, C148_track: equalities of whole states and of the events call by call."
  },
  {
   "property": "C149",
   "status": "proved",
   "theorems": [
    "C149_search",
    "C149_sps",
    "C149_record",
    "C149_audio"
   ],
   "note": "C149_search, C149_sps, C149_record, C149_audio. M4VCExtraDataToAnnexB is not among them: it looks at the number of bytes that follow (C149_example)."
  },
  {
   "property": "C150",
   "status": "proved",
   "theorems": [
    "C150_recorded",
    "C150_audio_succeeds",
    "C150_file",
    "C150_length",
    "C150_same_size",
    "C150_differs"
   ],
   "note": "C150_recorded, C150_file, C150_length, C150_same_size, C150_audio_succeeds; C150_differs is a session whose file holds 4 to 12 where 1 to 9 was delivered."
  },
  {
   "property": "C151",
   "status": "proved",
   "theorems": [
    "C151_log",
    "C151_log_iff",
    "C151_readable"
   ],
   "note": "C151_log, C151_log_iff, C151_readable. The formatting of fmt.Printf with %s and %d is concatenation of strings and decimal numbers."
  },
  {
   "property": "C152",
   "status": "proved",
   "theorems": [
    "C152_annexb2avcc",
    "C152_split",
    "C152_avcc2annexb"
   ],
   "note": "C152_annexb2avcc, C152_split, C152_avcc2annexb. C152_zero_end and C152_bare_end show that the two conditions on the end of a are needed."
  },
  {
   "property": "C153",
   "status": "proved",
   "theorems": [
    "C153_commute",
    "C153_overwrite",
    "C153_read_elsewhere",
    "C153_read_parts",
    "C153_write_parts",
    "C153_write_back"
   ],
   "note": "C153_commute, C153_overwrite, C153_read_elsewhere, C153_read_parts, C153_write_parts, C153_write_back."
  },
  {
   "property": "C154",
   "status": "proved",
   "theorems": [
    "C154_back",
    "C154_back_exact",
    "C154_back_90khz",
    "C154_durations"
   ],
   "note": "C154_back, C154_back_exact, C154_back_90khz, C154_durations; they rest on the axioms of the reals like C54 and C55."
  },
  {
   "property": "C155",
   "status": "proved",
   "theorems": [
    "C155_key_frame",
    "C155_parameter_sets",
    "C155_sets"
   ],
   "note": "C155_key_frame, C155_parameter_sets, C155_sets; the exact statement for all bytes is C34_avc_key_frame_exact / C35_hevc_key_frame_exact."
  },
  {
   "property": "C156",
   "status": "proved",
   "theorems": [
    "C156_reads",
    "C156_after_error",
    "C156_faithful",
    "C156_taken"
   ],
   "note": "C156_reads reduces any reader to C08-C10; C156_taken compares the bytes read with the data of the io.Reader."
  },
  {
   "property": "C157",
   "status": "proved",
   "theorems": [
    "C157_agrees",
    "C157_cut",
    "C157_examine",
    "C157_session",
    "C157_stuck",
    "C157_ends",
    "C157_never",
    "C157_lost"
   ],
   "note": "C157_cut gives the events and the state of an interrupted call, C157_examine and C157_session a session with a handler, C157_stuck, C157_ends and C157_never the packets left behind, C157_lost the call without a handler; C157_agrees ties the model to DemuxModel."
  },
  {
   "property": "C158",
   "status": "proved",
   "theorems": [
    "C158_agrees",
    "C158_direct",
    "C158_ring",
    "C158_pipe",
    "C158_streams",
    "C158_catch_up",
    "C158_negative",
    "C158_ring_negative",
    "C158_opened",
    "C158_split"
   ],
   "note": "C158_agrees ties the model to BlockModel; C158_direct, C158_ring and C158_pipe justify that co_step of C15-C21 keeps the state when a call panics; C158_streams and C158_catch_up are the StreamsBuffer; C158_negative, C158_ring_negative and C158_opened the negative Alloc; C158_split the buffer of C18."
  },
  {
   "property": "C159",
   "status": "proved",
   "theorems": [
    "C159_agrees",
    "C159_first",
    "C159_exact",
    "C159_idle",
    "C159_no_write_fault",
    "C159_stored",
    "C159_all_opened",
    "C159_shifted"
   ],
   "note": "C159_agrees and C159_first tie rx_session to C87 and C117; C159_exact is the whole session, with C159_stored and C159_no_write_fault for what a packet stores; C159_shifted and C159_all_opened place the packets; C159_idle covers sessions without tracks."
  },
  {
   "property": "C160",
   "status": "proved",
   "theorems": [
    "C160_call",
    "C160_exact",
    "C160_own_file"
   ],
   "note": "C160_call is one call, C160_exact the whole history, C160_own_file the consequence that files of tracks are never mixed."
  },
  {
   "property": "C161",
   "status": "proved",
   "theorems": [
    "C161_bytes",
    "C161_bits",
    "C161_bits_step",
    "C161_bits_offset",
    "C161_ring",
    "C161_queue",
    "C161_list"
   ],
   "note": "The containers are modelled again assignment by assignment (CollRecoverModel.v); that these models agree with the plain ones on every reachable state is the theorem."
  },
  {
   "property": "C162",
   "status": "proved",
   "theorems": [
    "C162_avc",
    "C162_hevc",
    "C162_hevc_lost",
    "C162_adts"
   ],
   "note": "C162_avc, C162_hevc, C162_hevc_lost, C162_adts. The type conditions stand in the statement because Marshal takes the type of an array from its first unit."
  },
  {
   "property": "C163",
   "status": "proved",
   "theorems": [
    "C163_hevc",
    "C163_avc",
    "C163_avc_extra"
   ],
   "note": "C163_hevc, C163_avc, C163_avc_extra. Enough room is |extra| + 2 |data| bytes for H.265, |data| bytes for H.264 without extra data, and the size of the two results with extra data."
  }
 ]
}