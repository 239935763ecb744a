{"id": "C01", "title": "ReadBits returns the big-endian value of the addressed bits", "statement": "For start>=0 and n>=0, bufio.ReadBits(data,start,n) returns the big-endian number formed by the bits start..start+n-1 of data (most significant bit of byte 0 is bit 0), stopping silently at the end of data, reduced modulo 2^64; it never panics.", "quantifier": "every byte slice, every non-negative start bit and bit length", "why_tests_cant": "the claim ranges over an infinite set of inputs; a test samples finitely many", "anchors": ["bufio/bits_reader.go:ReadBits"]}
{"id": "C02", "title": "WriteBits writes exactly the addressed bits", "statement": "After bufio.WriteBits(data,start,n,v) with start>=0, every bit of data outside [start,start+n) is unchanged, the slice keeps its length, and bit start+k is bit n-1-k of v, for every k<n that lies inside data; it never panics.", "quantifier": "every byte slice, start bit, bit length, 64-bit value and bit position", "why_tests_cant": "the claim ranges over an infinite set of inputs; a test samples finitely many", "anchors": ["bufio/bits_writer.go:WriteBits"]}
{"id": "C03", "title": "Bit fields written in sequence read back in sequence", "statement": "Any sequence of fields (width<=64, value) written with one BitsWriter into a buffer large enough to hold them is returned, each value reduced to its width, by a BitsReader performing reads of the same widths from the same offset.", "quantifier": "every list of widths and values, every start offset, every initial buffer content", "why_tests_cant": "round trip over unbounded sequences of mixed widths", "anchors": ["bufio/bits_writer.go:BitsWriter.Write", "bufio/bits_reader.go:BitsReader.Read"]}
{"id": "C04", "title": "BytesReader/BytesWriter cursor never leaves the buffer", "statement": "Under any sequence of Seek, SeekBack, Clear, Reset, ReadUint8/16/24/32/64, ReadBytes(size>=0) and Write* calls with arbitrary int arguments (including ones that overflow int64), the offset stays within [0,len(data)], an operation that returns an error changes neither offset nor data, a successful one moves the offset by exactly its size, and nothing panics.", "quantifier": "every history of calls and every 64-bit argument", "why_tests_cant": "histories and overflowing arguments are unbounded", "anchors": ["bufio/bytes_buffer.go:peekN,Seek,SeekBack", "bufio/bytes_reader.go", "bufio/bytes_wirter.go"]}
{"id": "C05", "title": "ReadBytes never panics", "statement": "BytesReader.ReadBytes(size) returns bytes or an error for every int size, including negative ones.", "quantifier": "every reader state and every int size", "why_tests_cant": "the claim ranges over an infinite set of inputs; a test samples finitely many", "anchors": ["bufio/bytes_reader.go:ReadBytes"]}
{"id": "C06", "title": "Typed values written by BytesWriter are read back by BytesReader", "statement": "Any sequence of WriteUint8/16/32/64 and Write calls that all succeed is read back by the corresponding ReadUint8/16/32/64/ReadBytes sequence on WrittenBytes(), value for value, big-endian, and the bytes beyond the written region are untouched.", "quantifier": "every sequence of typed writes, values and buffers", "why_tests_cant": "round trip over unbounded sequences", "anchors": ["bufio/bytes_wirter.go", "bufio/bytes_reader.go"]}
{"id": "C07", "title": "24-bit integers round-trip", "statement": "Uint24 after PutUint24 returns the low 24 bits of the value, PutUint24 changes only the first three bytes, and ReadUint24 agrees with Uint24.", "quantifier": "every 32-bit value and every slice of at least three bytes", "why_tests_cant": "2^32 values times every buffer", "anchors": ["bufio/util.go:PutUint24,Uint24", "bufio/bytes_reader.go:ReadUint24"]}
{"id": "C08", "title": "Golomb reader fixed-width reads", "statement": "GolombBitReader.ReadBit/ReadBits/ReadBits32/ReadBits64 return the next n bits of the stream most significant first (n within the result width), consume exactly n bits, and return an error exactly when fewer than n bits remain.", "quantifier": "every byte stream, every position in it and every width", "why_tests_cant": "the claim ranges over an infinite set of inputs; a test samples finitely many", "anchors": ["bufio/golomb_reader.go:ReadBit,ReadBits,ReadBits32,ReadBits64"]}
{"id": "C09", "title": "Exp-Golomb decoding inverts exp-Golomb encoding", "statement": "If the unread bits start with the ue(v) code of v (0<=v<2^33-1), ReadExponentialGolombCode returns v and leaves exactly the bits after the code; on any stream whatsoever it terminates with a value or an end-of-data error.", "quantifier": "every v, every bit suffix, every alignment inside a byte", "why_tests_cant": "the claim ranges over an infinite set of inputs; a test samples finitely many", "anchors": ["bufio/golomb_reader.go:ReadExponentialGolombCode"]}
{"id": "C10", "title": "Signed exp-Golomb decoding", "statement": "If the unread bits start with the se(v) code of v, ReadSE returns v as a two's complement uint.", "quantifier": "every signed value v and every bit suffix", "why_tests_cant": "the claim ranges over an infinite set of inputs; a test samples finitely many", "anchors": ["bufio/golomb_reader.go:ReadSE"]}
{"id": "C11", "title": "RingBuffer is a bounded drop-oldest FIFO", "statement": "For every capacity c>0 and every sequence of Push, Pop, Head, Tail, Size, IsEmpty, IsFull, Data and Clear, a RingBuffer behaves like a list holding the last c pushed and not yet popped elements: Push on a full buffer drops exactly the oldest, Pop returns the oldest (the zero value on empty), Head/Tail return oldest/newest (panic on empty), the two slices of Data concatenate to the contents in order, and Capacity stays c.", "quantifier": "every capacity and every history of operations", "why_tests_cant": "wrap-around states depend on unbounded histories", "anchors": ["collections/ring_buffer.go"]}
{"id": "C12", "title": "Queue is an unbounded double-ended FIFO", "statement": "For every initial capacity c>0 and every sequence of Push, Pop, PopBack, Peek, Head, Tail, Size, Clear, a Queue behaves like an unbounded list: growth never loses, duplicates or reorders elements, Pop takes from the front, PopBack from the back, and Peek(i) is the i-th element, panicking exactly when i is outside [0,size).", "quantifier": "every initial capacity, every history of operations, every index", "why_tests_cant": "growth at every possible wrap position", "anchors": ["collections/queue.go", "collections/ring_buffer.go"]}
{"id": "C13", "title": "LinkedList behaves as a list", "statement": "For every sequence of Add, Remove(i), Get(i), Size with 0<=i, a LinkedList behaves like a plain list: Add appends, Remove(i) deletes and returns the i-th element and keeps the others in order, Get(i) returns it, and out-of-range i panics, whatever stale next pointers earlier removals left behind.", "quantifier": "every history of operations", "why_tests_cant": "pointer shapes depend on unbounded histories", "anchors": ["collections/linked_list.go"]}
{"id": "C14", "title": "ReferenceCounter releases exactly once under every interleaving", "statement": "For any number of goroutines that only Refer/Release while they own a reference (references may be handed over), under every interleaving of the atomic steps UseCount equals the number of outstanding references, and Release returns true exactly for the one release that drops the last reference (fewer than 2^31 outstanding references).", "quantifier": "every number of goroutines and every schedule", "why_tests_cant": "schedules cannot be enumerated by tests", "anchors": ["collections/reference_counter.go"]}
{"id": "C15", "title": "DirectBlockBuffer groups writes into blocks", "statement": "For every history of Write, Fetch, Pop, PopBack and Clear on an unsealed DirectBlockBuffer, Fetch returns exactly the concatenation of the bytes written since the current block was started, PendingBlockSize is the length of the unfetched block, Size is the number of blocks not yet popped, and growth loses nothing.", "quantifier": "every initial capacity and every history", "why_tests_cant": "growth and reset points depend on unbounded histories", "anchors": ["collections/buffer_direct.go:Alloc,Write,Fetch,Pop,PopBack,PendingBlockSize"]}
{"id": "C16", "title": "DirectBlockBuffer does not overwrite fetched blocks that are still held", "statement": "A slice returned by DirectBlockBuffer.Fetch keeps its bytes, across any later Write/Fetch/Pop/PopBack, as long as its block has not been popped.", "quantifier": "every history and every held slice", "why_tests_cant": "aliasing is only visible across unbounded histories", "anchors": ["collections/buffer_direct.go"]}
{"id": "C17", "title": "SplitOff seals the old buffer and hands over only free memory", "statement": "After SplitOff the old buffer panics on Alloc/Write/Fetch/Pop/PopBack, and whatever is done with the new buffer, the bytes the old buffer already holds (Data()) never change.", "quantifier": "every state at the split and every later history of the new buffer", "why_tests_cant": "aliasing of two slices over unbounded histories", "anchors": ["collections/buffer_direct.go:SplitOff"]}
{"id": "C18", "title": "The buffer returned by SplitOff is usable", "statement": "The buffer returned by SplitOff accepts any Write without panicking and reports a non-negative AvailableBytes.", "quantifier": "every buffer state at the split and every write size", "why_tests_cant": "the claim ranges over an infinite set of inputs; a test samples finitely many", "anchors": ["collections/buffer_direct.go:SplitOff,Alloc,AvailableBytes"]}
{"id": "C19", "title": "RBBlockBuffer returns what was written", "statement": "For every history of Write, Fetch, Pop, PopBack and Clear on an RBBlockBuffer, Fetch returns exactly the concatenation of the bytes written to the current block, also when the block was moved by a wrap-around or a growth in between.", "quantifier": "every initial capacity and every history", "why_tests_cant": "wrap-around and growth at every position", "anchors": ["collections/buffer_rb.go:Alloc,Write", "collections/buffer_direct.go:Fetch"]}
{"id": "C20", "title": "RBBlockBuffer never overwrites a live block", "statement": "A slice returned by RBBlockBuffer.Fetch keeps its bytes as long as its block has not been popped, whatever is written afterwards.", "quantifier": "every history and every held slice", "why_tests_cant": "aliasing is only visible across unbounded histories", "anchors": ["collections/buffer_rb.go:Alloc,Pop"]}
{"id": "C21", "title": "RBBlockBuffer Pop releases blocks oldest first", "statement": "The k-th Pop releases exactly the k-th fetched block, also when growths happened in between: after n fetched blocks and k<n pops, the blocks k+1..n are still held.", "quantifier": "every history with any number of growths", "why_tests_cant": "needs histories with several growths", "anchors": ["collections/buffer_rb.go:Alloc,Pop"]}
{"id": "C22", "title": "StreamsBuffer isolates streams", "statement": "An operation on stream index i of a StreamsBuffer never changes what any other stream j<>i returns or the slices fetched from it.", "quantifier": "every history over any number of streams", "why_tests_cant": "cross-stream interference over unbounded histories", "anchors": ["streams_buffer.go"]}
{"id": "C23", "title": "Any allocated stream index can be written first", "statement": "Whatever order BaseDemuxer.FindBufferIndex handed out indices in, the first StreamsBuffer.Write on any of these indices succeeds.", "quantifier": "every order of first writes", "why_tests_cant": "the claim ranges over an infinite set of inputs; a test samples finitely many", "anchors": ["streams_buffer.go:findOrCreateStreamBuffer", "demuxer.go:FindBufferIndex"]}
{"id": "C24", "title": "DirectDataPipeline accumulates until Fetch", "statement": "For every history of Write, Seek(offset<=0), Fetch and PendingBlockSize, Fetch returns the bytes written since the previous Fetch minus what Seek dropped from the end, PendingBlockSize is their number, and Write returns it.", "quantifier": "every history", "why_tests_cant": "growth points depend on unbounded histories", "anchors": ["direct_pipeline.go"]}
{"id": "C25", "title": "FindStartCode finds exactly the first start code", "statement": "avc.FindStartCode(p) returns (k+3, n) where k is the first position at which the bytes 00 00 01 are followed by at least one more byte and n is 4 if the byte before k exists and is 0, else 3; it returns (-1,-1) if there is no such k; it never panics.", "quantifier": "every byte slice", "why_tests_cant": "the skipping search has data dependent strides", "anchors": ["avc/util.go:FindStartCode,FindStartCode2"]}
{"id": "C26", "title": "SplitNalU is lossless and splits at start codes", "statement": "For every data of length >= 3 the pieces passed to the callback by avc.SplitNalU concatenate to data and every piece but the first begins with a start code; for data made of well-formed NAL units each preceded by a 3- or 4-byte start code the pieces are exactly start code plus NAL unit, in order. For shorter data it panics.", "quantifier": "every byte slice; every list of well-formed NAL units and start code lengths", "why_tests_cant": "the claim ranges over an infinite set of inputs; a test samples finitely many", "anchors": ["avc/util.go:SplitNalU"]}
{"id": "C27", "title": "AnnexB2AVCC converts every NAL unit", "statement": "For data made of well-formed NAL units with 3- or 4-byte start codes and a large enough dst, avc.AnnexB2AVCC writes exactly, for each NAL unit in order, its 4-byte big-endian length and its bytes, and returns the number of bytes written.", "quantifier": "every non-empty list of well-formed NAL units, every choice of start codes", "why_tests_cant": "the claim ranges over an infinite set of inputs; a test samples finitely many", "anchors": ["avc/util.go:AnnexB2AVCC"]}
{"id": "C28", "title": "AnnexB2AVCC output is always well-formed AVCC", "statement": "For every byte slice shorter than 2^32 and every large enough dst, avc.AnnexB2AVCC terminates without panic and its output is a sequence of non-empty length-prefixed units; dst of length len(annexB)+number of start codes suffices.", "quantifier": "every byte slice", "why_tests_cant": "the claim ranges over an infinite set of inputs; a test samples finitely many", "anchors": ["avc/util.go:AnnexB2AVCC"]}
{"id": "C29", "title": "AVCC2AnnexB converts every unit except SEI", "statement": "For a sequence of non-empty 4-byte-length-prefixed units, avc.AVCC2AnnexB without extra data writes, in order, every unit that is not SEI (type 6), the first preceded by 00000001 and the others by 000001.", "quantifier": "every list of units", "why_tests_cant": "the claim ranges over an infinite set of inputs; a test samples finitely many", "anchors": ["avc/util.go:AVCC2AnnexB,copyNalUWithBytes"]}
{"id": "C30", "title": "AVCC2AnnexB is memory safe on arbitrary input", "statement": "For every byte slice avcc (valid or not) and every dst with len(dst)>=len(avcc), avc.AVCC2AnnexB without extra data does not panic, returns at most len(avcc) and leaves the rest of dst untouched.", "quantifier": "every byte slice, every dst", "why_tests_cant": "the claim ranges over an infinite set of inputs; a test samples finitely many", "anchors": ["avc/util.go:AVCC2AnnexB"]}
{"id": "C31", "title": "AnnexB -> AVCC -> AnnexB round trip", "statement": "For well-formed SEI-free NAL units, converting Annex-B to AVCC and back yields the same NAL units in the same order (with normalised start codes), and AVCC -> AnnexB -> AVCC is the identity.", "quantifier": "every list of well-formed NAL units", "why_tests_cant": "the claim ranges over an infinite set of inputs; a test samples finitely many", "anchors": ["avc/util.go:AnnexB2AVCC,AVCC2AnnexB"]}
{"id": "C32", "title": "Parameter sets are inserted once per access unit", "statement": "With extra data given, AVCC2AnnexB and avc.Mp4ToAnnexB insert it exactly once, before the first IDR slice, when the unit carries no SPS/PPS before it.", "quantifier": "every list of units", "why_tests_cant": "the claim ranges over an infinite set of inputs; a test samples finitely many", "anchors": ["avc/util.go:AVCC2AnnexB,Mp4ToAnnexB"]}
{"id": "C33", "title": "avc.Mp4ToAnnexB writes every unit", "statement": "With a large enough writer, avc.Mp4ToAnnexB writes every unit (including SEI) of a well-formed AVCC access unit with a 4-byte start code for the first output and 3-byte ones for the rest; on arbitrary input it never panics.", "quantifier": "every list of units; every byte slice", "why_tests_cant": "the claim ranges over an infinite set of inputs; a test samples finitely many", "anchors": ["avc/util.go:Mp4ToAnnexB,copyNalU"]}
{"id": "C34", "title": "H.264 key-frame detection", "statement": "avc.IsKeyFrame on data made of well-formed NAL units returns true exactly when the first unit that is not SEI/AUD/SPS/PPS is an IDR slice; on arbitrary data it terminates without panic.", "quantifier": "every list of NAL units; every byte slice", "why_tests_cant": "the scan loop is data dependent", "anchors": ["avc/util.go:IsKeyFrame"]}
{"id": "C35", "title": "H.265 key-frame detection", "statement": "hevc.IsKeyFrame on data made of well-formed NAL units returns true exactly when the first unit that is not VPS/SPS/PPS/SEI/AUD has a type in 16..23; on arbitrary data it terminates without panic.", "quantifier": "every list of NAL units; every byte slice", "why_tests_cant": "the scan loop is data dependent", "anchors": ["hevc/util.go:IsKeyFrame"]}
{"id": "C36", "title": "H.264 parameter set extraction", "statement": "avc.ParseExtraDataFromKeyNALU on well-formed NAL units returns the last SPS and the last PPS, each with a 4-byte start code, and an error exactly when one is missing.", "quantifier": "every list of well-formed NAL units", "why_tests_cant": "the claim ranges over an infinite set of inputs; a test samples finitely many", "anchors": ["avc/util.go:ParseExtraDataFromKeyNALU,RemoveStartCode"]}
{"id": "C37", "title": "H.265 parameter set extraction", "statement": "hevc.ParseExtraDataFromKeyNALU on well-formed NAL units returns the last VPS, SPS and PPS, each with a 4-byte start code, and an error exactly when one is missing.", "quantifier": "every list of well-formed NAL units", "why_tests_cant": "the claim ranges over an infinite set of inputs; a test samples finitely many", "anchors": ["hevc/util.go:ParseExtraDataFromKeyNALU"]}
{"id": "C38", "title": "Parameter set extraction never panics", "statement": "avc.ParseExtraDataFromKeyNALU and hevc.ParseExtraDataFromKeyNALU return a result or an error on every byte slice.", "quantifier": "every byte slice", "why_tests_cant": "the claim ranges over an infinite set of inputs; a test samples finitely many", "anchors": ["avc/util.go:ParseExtraDataFromKeyNALU,SplitNalU,RemoveStartCode", "hevc/util.go:ParseExtraDataFromKeyNALU"]}
{"id": "C39", "title": "AVC decoder configuration record round trip", "statement": "Unmarshal(Marshal(spsList,ppsList)) succeeds and yields the same SPS and PPS lists (4-byte start codes), version 1, profile/compatibility/level bytes of the SPS and 4-byte NAL lengths, whenever Marshal succeeds with 1..31 SPS and 1..255 PPS.", "quantifier": "every list of SPS and PPS NAL units", "why_tests_cant": "the claim ranges over an infinite set of inputs; a test samples finitely many", "anchors": ["avc/mp4.go:Marshal,Unmarshal"]}
{"id": "C40", "title": "AVC record parsing is total", "statement": "AVCDecoderConfigurationRecord.Unmarshal and avc.ExtraDataToAnnexB return a result or an error, never panic, on every byte slice; when Unmarshal succeeds the SPS/PPS lists are non-empty and each entry is 00000001 followed by a contiguous part of the input; ExtraDataToAnnexB returns their concatenation or an error.", "quantifier": "every byte slice", "why_tests_cant": "the claim ranges over an infinite set of inputs; a test samples finitely many", "anchors": ["avc/mp4.go:Unmarshal,ExtraDataToAnnexB"]}
{"id": "C41", "title": "M4VCExtraDataToAnnexB agrees with ExtraDataToAnnexB", "statement": "For every record both functions accept, avc.M4VCExtraDataToAnnexB returns the same Annex-B bytes as avc.ExtraDataToAnnexB, and it never panics.", "quantifier": "every byte slice", "why_tests_cant": "the claim ranges over an infinite set of inputs; a test samples finitely many", "anchors": ["avc/util.go:M4VCExtraDataToAnnexB", "avc/mp4.go:ExtraDataToAnnexB"]}
{"id": "C42", "title": "HEVC decoder configuration record round trip", "statement": "Unmarshal(Marshal(vps,sps,pps)) succeeds and yields the same VPS, SPS and PPS lists whenever Marshal succeeds.", "quantifier": "every list of VPS, SPS and PPS NAL units", "why_tests_cant": "the claim ranges over an infinite set of inputs; a test samples finitely many", "anchors": ["hevc/mp4.go:Marshal,Unmarshal"]}
{"id": "C43", "title": "HEVC record parsing is total", "statement": "HEVCDecoderConfigurationRecord.Unmarshal and hevc.ExtraDataToAnnexB return a result or an error, never panic, on every byte slice, and on success every header field equals the corresponding bit field of the ISO/IEC 14496-15 layout (LengthSizeMinusOne holds the bit field plus one).", "quantifier": "every byte slice", "why_tests_cant": "the claim ranges over an infinite set of inputs; a test samples finitely many", "anchors": ["hevc/mp4.go:Unmarshal,ExtraDataToAnnexB"]}
{"id": "C44", "title": "hevc.Mp4ToAnnexB converts every NAL unit", "statement": "For NAL units (>=2 bytes) with lengthSize-byte length prefixes (1..4) and a large enough dst, hevc.Mp4ToAnnexB writes 00000001 plus each unit in order, inserting extra exactly once, before the first IRAP unit if there is one; truncated or undersized lengths give an error, never a panic.", "quantifier": "every list of NAL units, every length size, every byte slice", "why_tests_cant": "the claim ranges over an infinite set of inputs; a test samples finitely many", "anchors": ["hevc/util.go:Mp4ToAnnexB"]}
{"id": "C45", "title": "Emulation prevention is undone before parsing an HEVC SPS", "statement": "hevc.ParseSPS gives the same answer on an SPS whose payload was escaped with emulation prevention bytes as on the unescaped RBSP; removing the bytes inverts the standard escaping for every payload.", "quantifier": "every payload", "why_tests_cant": "the claim ranges over an infinite set of inputs; a test samples finitely many", "anchors": ["hevc/sps.go:nal2rbsp,ParseSPS"]}
{"id": "C46", "title": "H.264 SPS dimensions", "statement": "For every SPS syntax structure, avc.ParseSPS of its bit encoding returns its profile, level, id and the cropped width and height defined by H.264 7.4.2.1.1, whatever optional parts (scaling lists, POC type, VUI) are present.", "quantifier": "every SPS syntax structure and every trailing bits", "why_tests_cant": "the claim ranges over an infinite set of inputs; a test samples finitely many", "anchors": ["avc/sps.go:ParseSPS"]}
{"id": "C47", "title": "H.264 SPS parsing is total", "statement": "avc.ParseSPS terminates with a value or an error on every byte slice of at least 4 bytes, without panic.", "quantifier": "every byte slice", "why_tests_cant": "loop counts come from the data", "anchors": ["avc/sps.go:ParseSPS"]}
{"id": "C48", "title": "HEVC SPS dimensions", "statement": "For every HEVC SPS syntax structure (any number of temporal sub-layers) hevc.ParseSPS returns pic_width_in_luma_samples and pic_height_in_luma_samples minus the conformance window.", "quantifier": "every SPS syntax structure", "why_tests_cant": "the claim ranges over an infinite set of inputs; a test samples finitely many", "anchors": ["hevc/sps.go:ParseSPS,parsePTL"]}
{"id": "C49", "title": "ADTS header round trip", "statement": "ReadADtsFixedHeader after SetADtsHeader succeeds and its accessors return the MPEG id, profile, frequency index, channel configuration and frame length that were set (reduced to their widths), with 0xFFF sync word, layer 0, no CRC, fullness 0x7FF.", "quantifier": "every combination of int arguments and every buffer of at least seven bytes", "why_tests_cant": "the argument space is unbounded", "anchors": ["utils/aac_util.go:SetADtsHeader,ReadADtsFixedHeader,ADtsHeader"]}
{"id": "C50", "title": "ADTS header to AudioSpecificConfig", "statement": "For every ADTS header, ParseMpeg4AudioConfig(ADtsHeader2MpegAudioConfigData(h)) succeeds with object type profile+1, the same frequency index, the sampling rate of that index and the channel count of that configuration.", "quantifier": "every 56-bit header", "why_tests_cant": "2^56 headers", "anchors": ["utils/aac_util.go:ADtsHeader2MpegAudioConfigData,ParseMpeg4AudioConfig"]}
{"id": "C51", "title": "Sampling rate index lookup inverts the rate table", "statement": "GetSampleRateIndex(r) returns the MPEG-4 frequency index of r, i.e. GetSampleRateFromFrequency(GetSampleRateIndex(r)) = r for every standard rate.", "quantifier": "every standard rate", "why_tests_cant": "the claim ranges over an infinite set of inputs; a test samples finitely many", "anchors": ["utils/aac_util.go:GetSampleRateIndex,GetSampleRateFromFrequency"]}
{"id": "C52", "title": "ExtractAudioExtraData is total and consistent", "statement": "ExtractAudioExtraData returns a result or error on every byte slice; for AAC its AudioSpecificConfig parses back to the same sampling rate and the same number of channels as the AudioConfig it returns.", "quantifier": "every codec id and byte slice", "why_tests_cant": "the claim ranges over an infinite set of inputs; a test samples finitely many", "anchors": ["video_stream.go:ExtractAudioExtraData", "utils/aac_util.go"]}
{"id": "C53", "title": "Timestamp conversion preserves order", "statement": "For positive time bases and results within int64, ts1<=ts2 implies ConvertTs(ts1,src,dst)<=ConvertTs(ts2,src,dst), and a non-negative ts converts to a non-negative value.", "quantifier": "every pair of int64 timestamps and positive time bases", "why_tests_cant": "floating-point rounding over 2^128 cases", "anchors": ["packet_utils.go:ConvertTs", "av_packet.go:ConvertDts,ConvertPts"]}
{"id": "C54", "title": "Timestamp conversion is accurate to one tick", "statement": "For positive time bases below 2^53, ConvertTs differs from the exact rational ts*dst/src by less than one destination tick, for |ts|,|ts*dst/src| < 2^50.", "quantifier": "every timestamp and pair of time bases in range", "why_tests_cant": "floating-point rounding over an astronomically large domain", "anchors": ["packet_utils.go:ConvertTs"]}
{"id": "C55", "title": "Timestamp conversion is exact", "statement": "When ts*dst is divisible by src, ConvertTs returns the exact quotient; conversions 90kHz<->1kHz used by the library are exact (truncated).", "quantifier": "every timestamp", "why_tests_cant": "floating-point rounding", "anchors": ["packet_utils.go:ConvertTs"]}
{"id": "C56", "title": "AVCC packet to Annex-B", "statement": "AVCCPacket2AnnexB on an H.264 AVCC packet returns (parameter sets first if key frame) the Annex-B form of its units, never overruns the buffer it allocates, leaves packet.Data unchanged, and a second call returns the same bytes.", "quantifier": "every packet and stream", "why_tests_cant": "the claim ranges over an infinite set of inputs; a test samples finitely many", "anchors": ["packet_utils.go:AVCCPacket2AnnexB"]}
{"id": "C57", "title": "Annex-B packet to AVCC", "statement": "AnnexBPacket2AVCC returns the AVCC form of every NAL unit of the packet, never panics, leaves packet.Data unchanged, and a second call returns the same bytes.", "quantifier": "every packet", "why_tests_cant": "the claim ranges over an infinite set of inputs; a test samples finitely many", "anchors": ["packet_utils.go:AnnexBPacket2AVCC"]}
{"id": "C58", "title": "Annex-B key frames start with parameter sets", "statement": "For an Annex-B key packet whose first NAL header differs from that of the stream's extra data, AVCCPacket2AnnexB returns extra data followed by the packet data; otherwise it returns the data unchanged.", "quantifier": "every packet and stream", "why_tests_cant": "the claim ranges over an infinite set of inputs; a test samples finitely many", "anchors": ["packet_utils.go:AVCCPacket2AnnexB"]}
{"id": "C59", "title": "Codec data is consistent between its two forms", "statement": "For codec data built from sps/pps (vps/sps/pps) NAL units, parsing MP4ExtraData() gives back codec data with the same AnnexBExtraData(), width and height; for codec data parsed from a record, MP4ExtraData() is that record.", "quantifier": "every parameter set accepted", "why_tests_cant": "the claim ranges over an infinite set of inputs; a test samples finitely many", "anchors": ["codec_paraments.go"]}
{"id": "C60", "title": "Recycled packets carry no residue", "statement": "A packet obtained from NewAudioPacket/NewVideoPacket has the same field values whether it is freshly allocated or was recycled through FreePacket, whatever it was used for before.", "quantifier": "every previous packet content and every history of the pool", "why_tests_cant": "pool reuse is schedule dependent", "anchors": ["av_packet.go:NewAudioPacket,NewVideoPacket,FreePacket"]}
{"id": "C61", "title": "Muxer tracks are unique per media type", "statement": "For any sequence of AddTrack calls a BaseMuxer holds at most one track per media type, returns consecutive indices starting from 0 for accepted tracks, rejects exactly the duplicates, and never moves an accepted track.", "quantifier": "every sequence of AddTrack calls", "why_tests_cant": "histories are unbounded", "anchors": ["muxer.go:AddTrack", "tracks.go"]}
{"id": "C62", "title": "Buffer indices are stable and injective", "statement": "FindBufferIndex returns the same index for the same marker forever, different indices for different markers, and indices are handed out densely from 0.", "quantifier": "every history of markers", "why_tests_cant": "histories are unbounded", "anchors": ["demuxer.go:FindBufferIndex,FindBufferIndexByMediaType"]}
{"id": "C63", "title": "Demuxer callback order", "statement": "For every history of demuxer inputs the handler sees: no callback before the probe completes; then either exactly one OnTrackNotFind, or OnNewTrack once per track in index order followed by exactly one OnTrackComplete; then only OnPacket. Tracks never appear after completion.", "quantifier": "every history of inputs, every sort and map iteration behaviour", "why_tests_cant": "histories are unbounded", "anchors": ["demuxer.go:OnProbeComplete,processBufferedPacket,AddTrack"]}
{"id": "C64", "title": "Demuxer neither loses nor duplicates packets", "statement": "At every point the accepted packets are exactly the packets passed to OnPacket plus those still buffered, each once; after completion at most one packet per buffered list is pending.", "quantifier": "every history of inputs", "why_tests_cant": "histories are unbounded", "anchors": ["demuxer.go:processBufferedPacket,OnProbeComplete"]}
{"id": "C65", "title": "Every accepted packet is eventually delivered", "statement": "After ProbeComplete every accepted packet is passed to OnPacket.", "quantifier": "every history", "why_tests_cant": "the claim ranges over an infinite set of inputs; a test samples finitely many", "anchors": ["demuxer.go:processBufferedPacket,OnProbeComplete"]}
{"id": "C66", "title": "Packet duration is the distance to the next packet of the same stream", "statement": "Every packet passed to OnPacket has Duration equal to the Dts of the next packet of its stream minus its own Dts.", "quantifier": "every history of inputs", "why_tests_cant": "histories are unbounded", "anchors": ["demuxer.go:processBufferedPacket"]}
{"id": "C67", "title": "Per-stream order is preserved", "statement": "If the Dts of each stream are strictly increasing, packets of the same stream are delivered in arrival order, and the packets released at probe completion are delivered in ascending Dts order.", "quantifier": "every history of inputs and every sorting behaviour of sort.Slice", "why_tests_cant": "histories and unstable sort outcomes", "anchors": ["demuxer.go:OnProbeComplete"]}
{"id": "C68", "title": "Probe completes at the configured duration", "statement": "The probe completes by itself at the first packet that makes the buffered duration of its stream reach max(ProbeDuration,200) ms, not earlier and not later.", "quantifier": "every history and probe duration", "why_tests_cant": "histories are unbounded", "anchors": ["demuxer.go:processBufferedPacket,SetProbeDuration"]}
{"id": "C69", "title": "Every input block is accounted for exactly once", "statement": "Each OnAudioPacket/OnVideoPacket call either buffers/delivers its packet or issues exactly one DiscardBackPacket for its buffer index; with AutoFree each delivered packet issues exactly one DiscardHeadPacket for the buffer it came from.", "quantifier": "every history of inputs", "why_tests_cant": "histories are unbounded", "anchors": ["demuxer.go:OnAudioPacket,OnVideoPacket,forwardPacket"]}
{"id": "C70", "title": "Track indices", "statement": "Track i of a demuxer has stream index i, is never replaced, and in the packet-driven modes two tracks never share a buffer index.", "quantifier": "every history of inputs", "why_tests_cant": "histories are unbounded", "anchors": ["demuxer.go:createAudioTrack,createVideoTrack,findTrackByBufferIndex"]}
{"id": "C71", "title": "PCM sampling rate and G.726 bit rate estimation", "statement": "At probe completion a PCM S16LE track gets the smallest of 8/16/32/48 kHz that covers its bytes per millisecond, and a G.726 track the smallest of 16/24/32/40 kbit/s that covers its bit rate.", "quantifier": "every packet size and duration", "why_tests_cant": "the claim ranges over an infinite set of inputs; a test samples finitely many", "anchors": ["demuxer.go:calculatePCMFrequency,calculateG726BitRate"]}
{"id": "C72", "title": "The demuxer never panics on packet data", "statement": "OnVideoPacket and OnAudioPacket return normally for every packet payload.", "quantifier": "every payload", "why_tests_cant": "the claim ranges over an infinite set of inputs; a test samples finitely many", "anchors": ["demuxer.go:OnVideoPacket,OnAudioPacket", "video_stream.go"]}
{"id": "C73", "title": "Random helpers stay in range", "statement": "RandomIntInRange(min,max) returns a value in [min,max] for min<=max (max-min+1 within int) and panics for min>max; RandStringBytes(n) returns n characters of the alphabet.", "quantifier": "every range, every n and every outcome of the random source", "why_tests_cant": "random outcomes cannot be enumerated", "anchors": ["utils/random_util.go"]}
{"id": "C74", "title": "Codec and media type names are unambiguous", "statement": "AVCodecID.String() never returns the same string for two different codec ids; AVMediaType.String() returns distinct names for the seven media types and panics on any other value.", "quantifier": "every int codec id", "why_tests_cant": "the id space is unbounded", "anchors": ["utils/codec_id.go:String", "utils/av_util.go:String"]}
{"id": "C75", "title": "ParseNalUnits never returns", "statement": "avc.ParseNalUnits never returns a value: on every input it either panics (no start code) or loops forever.", "quantifier": "every byte slice", "why_tests_cant": "non-termination cannot be observed by a test", "anchors": ["avc/util.go:ParseNalUnits"]}
{"id": "C76", "title": "The file handler writes each access unit once", "statement": "For an H.264 AVCC key packet OnUnpackStream2FileHandler writes the parameter sets once followed by the Annex-B access unit; other packets are written as one Annex-B access unit, in arrival order, each to the file of its track.", "quantifier": "every history of packets", "why_tests_cant": "the claim ranges over an infinite set of inputs; a test samples finitely many", "anchors": ["handler.go:OnUnpackStream2FileHandler.OnPacket"]}
{"id": "C77", "title": "SplitOff of a ring block buffer hands over only free memory", "statement": "After SplitOff on an RBBlockBuffer, writes to the returned buffer never change the bytes of blocks the old buffer still holds.", "quantifier": "every history before the split and every write after it", "why_tests_cant": "aliasing of two buffers over unbounded histories", "anchors": ["collections/buffer_direct.go:SplitOff", "collections/buffer_rb.go"]}
{"id": "C78", "title": "FindStartCodeWithReader positions the reader after the NAL header", "statement": "avc.FindStartCodeWithReader on a reader returns the byte after the first start code of the remaining bytes and leaves the reader just after that byte; with no start code it returns -1 and does not move.", "quantifier": "every reader position and contents", "why_tests_cant": "the claim ranges over an infinite set of inputs; a test samples finitely many", "anchors": ["avc/util.go:FindStartCodeWithReader"]}
{"id": "C79", "title": "HEVC record lists hold the units of their type", "statement": "After a successful HEVCDecoderConfigurationRecord.Unmarshal, VPSList, SPSList and PPSList hold exactly the units of the arrays of type 32, 33 and 34, in order, with 4-byte start codes.", "quantifier": "every byte slice and every growth policy of append", "why_tests_cant": "the claim ranges over all records and over the unspecified capacity growth of append", "anchors": ["hevc/mp4.go:Unmarshal"]}
{"id": "C80", "title": "ParseMpeg4AudioConfig decodes AudioSpecificConfig", "statement": "For every AudioSpecificConfig (object type 0..94 with the escape for types above 31, frequency index 0..12 or an explicit 24-bit rate, channel configuration 0..13) ParseMpeg4AudioConfig returns its object type, sampling rate and channel configuration; it panics only on slices shorter than two bytes.", "quantifier": "every configuration and every byte slice", "why_tests_cant": "the claim ranges over all configurations and all byte slices", "anchors": ["utils/aac_util.go:ParseMpeg4AudioConfig"]}
{"id": "C81", "title": "AAC frame duration", "statement": "ComputeAACFrameDuration(rate) is the duration of a frame of 1024 samples, 1024/rate, up to float32 rounding.", "quantifier": "every positive sample rate below 2^24", "why_tests_cant": "the claim ranges over all rates and depends on float32 rounding", "anchors": ["utils/aac_util.go:ComputeAACFrameDuration"]}
{"id": "C82", "title": "Emulation prevention in an H.264 SPS", "statement": "avc.ParseSPS gives the same answer on an SPS NAL unit with emulation prevention bytes as on its unescaped RBSP.", "quantifier": "every SPS syntax structure and every trailing bytes", "why_tests_cant": "the claim ranges over an infinite set of inputs; a test samples finitely many", "anchors": ["avc/sps.go:ParseSPS"]}
{"id": "C83", "title": "HEVC SPS parsing is total", "statement": "hevc.ParseSPS terminates with a value or an error on every byte slice of at least 4 bytes, without panic.", "quantifier": "every byte slice", "why_tests_cant": "the claim ranges over an infinite set of inputs; a test samples finitely many", "anchors": ["hevc/sps.go:ParseSPS,parsePTL,nal2rbsp"]}
{"id": "C84", "title": "Codec data from a decoder configuration record", "statement": "NewCodecDataFromAVCDecoderConfigurationRecord and NewCodecDataFromHEVCDecoderConfigurationRecord never panic; they succeed exactly when the record unmarshals and its first SPS parses, and return these two results.", "quantifier": "every byte slice and every growth policy of append", "why_tests_cant": "the claim ranges over an infinite set of inputs; a test samples finitely many", "anchors": ["avc/sps.go:NewCodecDataFromAVCDecoderConfigurationRecord", "hevc/sps.go:NewCodecDataFromHEVCDecoderConfigurationRecord"]}
{"id": "C85", "title": "Popped elements are not retained", "statement": "A RingBuffer or Queue keeps no reference to an element after it was removed (popped, overwritten or cleared): its backing array holds only zero values and elements of the current contents.", "quantifier": "every initial capacity and every sequence of operations", "why_tests_cant": "the claim ranges over every operation history and every array slot, and the retained references are not observable through the public methods", "anchors": ["collections/ring_buffer.go:Pop,Clear", "collections/queue.go:Push,PopBack"]}
{"id": "C86", "title": "AutoFree releases the block of the delivered packet", "statement": "With AutoFree on and one block written per call, the block that DiscardHeadPacket releases after OnPacket(p) is the block holding p's data, and at any time the blocks left in a buffer are exactly those of the packets waiting for that buffer, in arrival order.", "quantifier": "every history of demuxer calls, every payload, every timestamp and every choice of the runtime", "why_tests_cant": "a wrong release only shows as corrupted data of a later packet, and depends on the order of calls over several tracks and on timestamps", "anchors": ["demuxer.go:processBufferedPacket,forwardPacket,OnProbeComplete", "demuxer.go:OnAudioPacket,OnVideoPacket,OnNewAudioTrack,OnNewVideoTrack"]}
{"id": "C87", "title": "File names are unambiguous", "statement": "Two tracks get the same file name from OnUnpackStream2FileHandler only if their media type, index and codec agree; hence the tracks of one demuxer are written to different files.", "quantifier": "every path, every pair of tracks and every history of demuxer calls", "why_tests_cant": "the claim ranges over all pairs of tracks and all integers printed in the name", "anchors": ["handler.go:OnUnpackStream2FileHandler.OnNewTrack", "utils/av_util.go:AVMediaType.String", "utils/codec_id.go:AVCodecID.String"]}
{"id": "C88", "title": "A demuxing session leaves each track in its own file", "statement": "After a demuxer has run with OnUnpackStream2FileHandler as its handler, the file of every track holds exactly what is written for the packets delivered for that track, in delivery order, and no other file has changed; the handler panics only on a packet that cannot be converted.", "quantifier": "every history of demuxer calls, every initial content of the disk and every choice of the runtime", "why_tests_cant": "the claim ranges over all interleavings of tracks and all earlier file contents", "anchors": ["handler.go:OnUnpackStream2FileHandler.OnNewTrack,OnPacket", "demuxer.go:OnProbeComplete,forwardPacket"]}
{"id": "C89", "title": "Packets carry what the calls handed over", "statement": "Without a preprocessing hook, every accepted packet has the media type, buffer index, codec id, data, key flag, dts and pts of the OnAudioPacket/OnVideoPacket call that made it, in call order; the packets delivered and still buffered are exactly the accepted ones, so no delivered packet carries data no call handed over.", "quantifier": "every history of demuxer calls and every choice of the runtime (pool, sort, map order)", "why_tests_cant": "the claim ranges over all interleavings, payloads and recycled packets", "anchors": ["demuxer.go:OnAudioPacket,OnVideoPacket,processBufferedPacket,OnProbeComplete", "av_packet.go:NewAudioPacket,NewVideoPacket"]}
{"id": "C90", "title": "Packets use the time base of their track and the packing of their container", "statement": "Every accepted or delivered packet has the time base of its track; tracks found from packets use 1000 ticks per second for flv and jt1078 and 90000 for ps and ts, and none is found in a container of another name; video packets are marked AVCC for flv and Annex-B for ps, ts and jt1078.", "quantifier": "every container name and every history of demuxer calls without a preprocessing hook", "why_tests_cant": "the claim ranges over all histories, names and tracks", "anchors": ["demuxer.go:GetTimebase,GetPackType,OnAudioPacket,OnVideoPacket,createAudioTrack,createVideoTrack"]}
{"id": "C91", "title": "Packets have the codec of their track", "statement": "Every accepted or delivered packet has the codec id and the media type of the track it is delivered for.", "quantifier": "every history of demuxer calls", "why_tests_cant": "the claim ranges over all interleavings of codecs and buffers", "anchors": ["demuxer.go:OnAudioPacket,OnVideoPacket,findTrackByBufferIndex"]}
{"id": "C92", "title": "TryCompleteProbe waits for the tracks whose rate is estimated", "statement": "TryCompleteProbe does nothing while a PCM S16LE or G.726 track has fewer than two buffered packets, and is ProbeComplete otherwise.", "quantifier": "every reachable demuxer state", "why_tests_cant": "the claim ranges over all track lists and buffer fills", "anchors": ["demuxer.go:TryCompleteProbe"]}
{"id": "C93", "title": "AAC tracks describe their stream", "statement": "A track created for AAC packets holds the sampling rate and channel configuration of the ADTS header of a frame received for its buffer, and an AudioSpecificConfig with the same rate, channels and object type; probe completion does not change them.", "quantifier": "every history of packet calls with arbitrary payload bytes", "why_tests_cant": "the claim ranges over all payloads and histories", "anchors": ["demuxer.go:OnAudioPacket,createAudioTrack,prepareTracks", "video_stream.go:ExtractAudioExtraData"]}
{"id": "C94", "title": "Video tracks hold the parameter sets of a key frame", "statement": "A video track created from packets holds as extra data the last parameter sets, with 4-byte start codes, of one key frame of its codec, and codec data with the dimensions parsed from that SPS.", "quantifier": "every history of packet calls whose key frames are made of NAL units", "why_tests_cant": "the claim ranges over all key frames and histories", "anchors": ["demuxer.go:OnVideoPacket,createVideoTrack", "video_stream.go:ExtractVideoExtraDataFromKeyFrame,generateVideoCodecData"]}
{"id": "C95", "title": "Announced tracks", "statement": "OnNewAudioTrack and OnNewVideoTrack add exactly one track, with the announced codec id, time base and extra data, the next index and the given buffer index, when the probe is running, the container has no track of that type yet or is a transport stream, and the extra data parse; otherwise they change nothing. The extra data block is discarded exactly when it is non-empty. An AAC track without ADTS headers takes its rate and channels from the AudioSpecificConfig.", "quantifier": "every demuxer state and every announcement", "why_tests_cant": "the claim ranges over all states, codecs and extra data", "anchors": ["demuxer.go:OnNewAudioTrack,createAudioTrack,OnNewVideoTrack,createVideoTrack,AddTrack"]}
{"id": "C96", "title": "Ring block buffer at most half full", "statement": "If the blocks waiting in an RBBlockBuffer (including the pending one) plus the bytes being written never exceed half of its initial capacity, it behaves as a FIFO of blocks for every history of Write, Fetch, Pop, PopBack, PendingBlockSize, Size and Clear: every result is the FIFO's, every fetched and not yet popped slice still shows its bytes, and the backing array is never replaced. Half is the best bound: with one byte more the array can be replaced, for every even capacity.", "quantifier": "every capacity and every history of operations that respects the bound", "why_tests_cant": "histories are unbounded; whether a write wraps, grows or overwrites depends on all earlier writes and pops", "anchors": ["collections/buffer_rb.go:alloc,Write,Pop,Clear", "collections/buffer_direct.go:Fetch,PopBack,Size"]}
{"id": "C97", "title": "The handler sees the bytes that were written", "statement": "A demuxer with AutoFree on top of a StreamsBuffer: every call writes its block in pieces, fetches it and hands the fetched slice to the demuxer, which keeps the slice (not a copy) until delivery. At the moment of OnPacket the slice shows exactly the bytes written for that packet, no call fails, and the slices of all packets still waiting show theirs.", "quantifier": "every history of calls, every payload, every split of a block into writes, every timestamp and every choice of the runtime", "why_tests_cant": "whether a slice still shows its bytes depends on the whole history of writes and releases over several shared arrays, interleaved with the buffering of the probe", "anchors": ["demuxer.go:processBufferedPacket,forwardPacket,OnProbeComplete,OnAudioPacket,OnVideoPacket", "streams_buffer.go:Write,Fetch,DiscardHead,DiscardBack", "collections/buffer_rb.go:alloc,Write,Pop"]}
{"id": "C98", "title": "Indices outside a LinkedList", "statement": "Get and Remove panic for every index outside 0..Size-1 and leave the list as it was.", "quantifier": "every history of operations, every index", "why_tests_cant": "which element a stale pointer leads to depends on the whole history of removals", "anchors": ["collections/linked_list.go:Remove,Get"]}
{"id": "C99", "title": "Marshal for all parameter sets", "statement": "Marshal of an avcC or hvcC record returns a record or an error for every list of parameter sets: a record of exactly the size of its header and the length-prefixed sets without start codes when that is at most 1024 bytes, otherwise an error, and it never panics.", "quantifier": "all lists of parameter sets, all contents, with and without start codes", "why_tests_cant": "the result depends on the contents of every set, on the sum of all sizes and on the set that crosses the limit", "anchors": ["avc/mp4.go:Marshal", "hevc/mp4.go:Marshal", "avc/util.go:RemoveStartCode", "bufio/bytes_wirter.go:WriteUint8,WriteUint16,Write"]}
{"id": "C100", "title": "Use of a demuxer without a handler", "statement": "A demuxer whose handler is not set yet, or has been removed by Close, accepts every call that it accepts with a handler, and reports nothing.", "quantifier": "every state, every call, every choice of the runtime; every history before SetHandler and after Close", "why_tests_cant": "whether a call reaches the handler depends on the tracks, the waiting packets, their durations and the state of the probe", "anchors": ["demuxer.go:OnProbeComplete,forwardPacket,processBufferedPacket,SetHandler,SetOnPreprocessPacketHandler,Close,SetProbeDuration"]}
{"id": "C101", "title": "Panics of RBBlockBuffer", "statement": "After every history of RBBlockBuffer calls that did not panic, Write, PendingBlockSize, Size, Clear and SplitOff succeed; Alloc panics exactly for a negative size and otherwise returns a slice of the requested length; Pop panics exactly between SplitOff and Clear; Fetch and PopBack panic exactly then or when Size() is 0.", "quantifier": "every capacity, every history of all methods (with stores by the caller in between), every next call", "why_tests_cant": "the slice bounds depend on where blocks lie after arbitrary wraps, growths and removals", "anchors": ["collections/buffer_rb.go", "collections/buffer_direct.go:Fetch,Pop,PopBack,SplitOff"]}
{"id": "C102", "title": "Panics of StreamsBuffer", "statement": "After every history of StreamsBuffer calls that did not panic, Write and PendingBlockSize panic exactly for an index that is negative or above the number of buffers, DiscardHeadPacket exactly for an index without a buffer, Fetch and DiscardBackPacket exactly when there is no buffer or it holds no block.", "quantifier": "every history over any number of streams, every next call and index", "why_tests_cant": "the condition depends on unbounded histories", "anchors": ["streams_buffer.go"]}
{"id": "C103", "title": "Slices returned by DirectDataPipeline.Fetch", "statement": "A slice returned by DirectDataPipeline.Fetch keeps its bytes whatever is called afterwards. (False: the next Write goes over its start.) Exactly: every later Write lays its data over the slice at the position where it is written, until a Write does not fit and moves to a new array, after which the slice never changes again; and Write and Fetch panic exactly when Seek moved the fill level past the array.", "quantifier": "every history of Write, Fetch, Seek, PendingBlockSize and Discard before and after the Fetch, every data", "why_tests_cant": "which Writes reach an earlier slice depends on the whole history of sizes and growths", "anchors": ["direct_pipeline.go"]}
{"id": "C104", "title": "Packets converted to the other form and back", "statement": "The units of an Annex-B packet converted with AnnexBPacket2AVCC come back when the result is converted with AVCCPacket2AnnexB. (False for H.265 on a stream made with CreateHevcStreamFromKeyFrame: its length size stays 0 and every non-empty length-prefixed packet panics.) It holds for H.264 units other than SEI, in both orders, and for H.265 when the codec data was parsed from the record the library writes, with the parameter sets in front of key packets.", "quantifier": "every list of units (valid, header byte not zero, up to 256 three-byte start codes), every start code choice, every stream, every key frame", "why_tests_cant": "the result depends on the codec data that an earlier call left in the stream; unit lists and start codes are unbounded", "anchors": ["packet_utils.go:14-96", "codec_paraments.go:123-206", "video_stream.go:12-39", "hevc/mp4.go"]}
{"id": "C105", "title": "Data and AvailableBytes describe the memory of a block buffer", "statement": "DirectBlockBuffer.Data returns exactly the bytes written since the buffer was last without blocks (those of popped blocks included), and a Write moves to a new array exactly if it is longer than AvailableBytes. The same for RBBlockBuffer is false: AvailableBytes always returns 0 and Data returns nothing; the largest Alloc the ring serves without growing is the gap between the newest and the oldest block when the blocks have wrapped, otherwise the space behind the newest block or the space in front of the oldest one less the open block.", "quantifier": "every capacity, every history of calls, every size", "why_tests_cant": "the room depends on wraps, growths and on which blocks are still open; histories are unbounded", "anchors": ["collections/buffer_direct.go:111-117", "collections/buffer_rb.go:24-94", "collections/buffer_rb.go:118-137"]}
{"id": "C106", "title": "Bytes from DirectBlockBuffer.Alloc may be filled in later", "statement": "Bytes stored later through the slice that Alloc returned become part of the block. (False when the buffer has grown in between: the block then shows what the memory held before.) Exactly: after further writes and fetches the stored bytes appear in Data if what was written meanwhile was at most AvailableBytes right after Alloc; otherwise the old bytes of the memory appear and the store is lost.", "quantifier": "every capacity, every history before, every size, every sequence of Write, Fetch, PendingBlockSize and Size in between, all bytes", "why_tests_cant": "whether the store is lost depends on the history of growths", "anchors": ["collections/buffer_direct.go:18-67"]}
{"id": "C107", "title": "Bit cursors outside their data", "statement": "SafeRead returns the value Read returns if all its bits exist and an error otherwise. (False: it returns 0 without an error, and does not move.) Read and Write panic exactly for a positive length at an offset of -8 or less; otherwise they leave out the bits that do not exist and always move on by the length. ReadBytes panics exactly if the bytes do not all exist, WriteBytes exactly if it starts outside the data, and drops what does not fit; both round an offset inside a byte towards zero.", "quantifier": "all data, every offset (also negative), every length, every value", "why_tests_cant": "offsets and lengths are unbounded and combine with rounding towards zero of negative offsets", "anchors": ["bufio/bits_reader.go:31-49", "bufio/bits_writer.go:31-43"]}
{"id": "C108", "title": "Fetch of the ring buffer returns what was written since the last Fetch", "statement": "After any calls on an RBBlockBuffer, PendingBlockSize is the number of bytes written since the last Fetch, PopBack or Clear (or since a Pop that left no block), and Fetch returns exactly those bytes, even when other blocks have been overwritten. With no block open Fetch returns nil, and panics if there is no block at all.", "quantifier": "every capacity, every history of Write, Fetch, Pop, PopBack, PendingBlockSize, Size and Clear, with no condition on how the calls are ordered", "why_tests_cant": "an open block can be extended in place, moved to the front or moved to a new array at every write; the histories are unbounded", "anchors": ["collections/buffer_rb.go:24-116", "collections/buffer_direct.go:69-109"]}
{"id": "C109", "title": "The bytes of memory that a Write to the ring buffer changes", "statement": "A Write to an RBBlockBuffer after any calls either puts one stretch of bytes into the array, or makes a new array. In the first case the stretch is the written bytes behind the newest block (if they fit before the oldest block when the blocks have wrapped, before the end otherwise), or the whole open block at the front of the array (if it fits before the oldest block), and no other byte of any array changes. In the second case the new array begins with the whole open block and no byte of any existing array changes.", "quantifier": "every capacity, every history, all written bytes", "why_tests_cant": "the position depends on the history of wraps, pops and growths", "anchors": ["collections/buffer_rb.go:24-94"]}
{"id": "C110", "title": "Slices with spare capacity", "statement": "A Go slice expression is bounded by the capacity of the slice, not by its length. When the argument has spare capacity: M4VCExtraDataToAnnexB returns an error instead of panicking on a record whose last unit is cut off, if the spare capacity covers the missing bytes, and is otherwise unchanged; it never returns bytes from beyond the record. BitsReader.ReadBytes returns whatever lies between its two offsets in the data followed by the spare memory, so it can return bytes that do not belong to the data; it panics only beyond the capacity. AnnexBPacket2AVCC with an allocator that returns slices with spare capacity gives a result that does not fit the slice instead of panicking; its end is the old contents of the spare memory.", "quantifier": "all bytes, all cursor positions and sizes, all spare contents of any length", "why_tests_cant": "tests use slices made to size; the difference shows only with sub-slices of larger buffers, for all sizes of the missing part", "anchors": ["avc/util.go:255-299", "bufio/bits_reader.go:41-45", "packet_utils.go:77-96"]}
{"id": "C111", "title": "Account of the blocks of an RBBlockBuffer", "statement": "After every history of calls, with any number of growths, the blocks the ring still has are the newest of the blocks the user holds (entered by Write, left by Pop in order), in the same order, with the sizes written and the slices handed out. The number of older blocks is the number of Pops the buffer still owes to blocks set aside by its last growth plus the number of Pops it forgot at further growths. A Pop releases no block of the ring while Pops are owed, and otherwise the block with exactly as many older held blocks as Pops were forgotten.", "quantifier": "every initial capacity and every history of Write, Fetch, Pop, PopBack, PendingBlockSize, Size and Clear; no side condition", "why_tests_cant": "the counts go wrong only after several growths with Pops outstanding; the account holds for all histories", "anchors": ["collections/buffer_rb.go:24-116", "collections/buffer_direct.go:47-109"]}
{"id": "C112", "title": "Which blocks of an RBBlockBuffer keep their bytes", "statement": "If no Write meets an exactly full ring, every fetched block that the user holds shows the bytes it was fetched with, with any number of growths, unless the buffer released the block before the user's Pop reached it; and no block is released so early as long as no growth found Pops still owed. A block set aside by a growth is not changed by any later call, with no condition at all.", "quantifier": "every initial capacity, every history, every held block", "why_tests_cant": "aliasing over unbounded histories with several growths", "anchors": ["collections/buffer_rb.go:24-116"]}
{"id": "C113", "title": "Inputs accepted by avc.ParseSPS", "statement": "avc.ParseSPS succeeds exactly if the bits after the start code begin with the layout of an H.264 SPS, with any values in it: any picture order count type, any number of offsets, any chroma format, exp-Golomb codes of up to 32 leading zeros (33 zeros count as 32 and a one). It then returns the elements of that layout; width and height are 16*(mbs+1) minus twice the crops, as integers, with no wraparound for any input. All other inputs of at least 4 bytes are errors. Emulation prevention bytes count as data, and the size may be negative.", "quantifier": "every byte slice", "why_tests_cant": "an equivalence over all bit strings, with loops bounded by values read from the input", "anchors": ["avc/sps.go:29-344", "bufio/golomb_reader.go:1-89"]}
{"id": "C114", "title": "Inputs accepted by hevc.ParseSPS", "statement": "hevc.ParseSPS succeeds exactly if there are two header bytes after the start code and the bits that follow, with 00 00 03 replaced by 00 00, begin with the layout of an H.265 SPS, with any values in it and up to 8 sub-layers. It then returns the elements of that layout, with no wraparound for any input. All other inputs of at least 4 bytes are errors.", "quantifier": "every byte slice", "why_tests_cant": "an equivalence over all bit strings, with optional parts depending on values read from the input", "anchors": ["hevc/sps.go:32-245", "bufio/golomb_reader.go:1-89"]}
{"id": "C115", "title": "The handler sees the bytes that were written also when stream buffers grow", "statement": "As C97, without a bound on the load: if no piece of a block is written into an exactly full ring, and no piece makes a stream buffer grow while blocks set aside by an earlier growth of that buffer still wait for their release, then at the moment of OnPacket every slice shows exactly the bytes written for its packet, no call fails, and the slices of all waiting packets show theirs. The half load bound of C97 implies both conditions.", "quantifier": "every history of calls within the two conditions, every payload, every split of a block into writes, every timestamp, any number of streams and of growths", "why_tests_cant": "slices in replaced arrays, the count of releases that are spent on them, and the ring in use interact over the whole history of several streams in one memory", "anchors": ["demuxer.go:processBufferedPacket,forwardPacket,OnProbeComplete,OnAudioPacket,OnVideoPacket", "streams_buffer.go:Write,Fetch,DiscardHead,DiscardBack", "collections/buffer_rb.go:alloc,Write,Pop"]}
{"id": "C116", "title": "Codec parameters from a decoder configuration record", "statement": "ParseAVCDecoderConfigurationRecord and ParseHEVCDecoderConfigurationRecord return parameters or an error, never panic. When they succeed, the width and height are those of the record's first SPS, AnnexBExtraData is the parameter sets of the record with 4-byte start codes (VPSs, SPSs, PPSs), and MP4ExtraData is the record.", "quantifier": "every byte slice and every growth policy of append", "why_tests_cant": "the claim ranges over all byte slices and, for H.265, over the unspecified capacity growth of append", "anchors": ["codec_paraments.go:ParseAVCDecoderConfigurationRecord,ParseHEVCDecoderConfigurationRecord,AnnexBExtraData,MP4ExtraData"]}
{"id": "C117", "title": "The file handler on a failing file system", "statement": "When an OpenFile or a Write of OnUnpackStream2FileHandler returns an error, the session panics at that call and makes no further one. At that moment every file holds the beginning of what it would have held without the error, followed by what an older file had beyond that.", "quantifier": "every history of demuxer calls, every set of failing system calls, every number of bytes stored by a failing Write, every earlier disk content", "why_tests_cant": "the claim ranges over every point of every session at which the file system can fail", "anchors": ["handler.go:OnUnpackStream2FileHandler.OnNewTrack,OnPacket"]}
{"id": "C118", "title": "Recorded files are readable", "statement": "A file created by OnUnpackStream2FileHandler can be read by the user who recorded it.", "quantifier": "every umask", "why_tests_cant": "tests run by a privileged user ignore the mode; the claim ranges over every umask", "anchors": ["handler.go:OnUnpackStream2FileHandler.OnNewTrack"]}
{"id": "C119", "title": "The block buffers on the real ring queue", "statement": "DirectBlockBuffer, RBBlockBuffer and StreamsBuffer keep pointers to their blocks in a collections.Queue. For every history of calls they show the same results, failures and memory as with a plain list of blocks: no block is lost or reordered when the queue grows or wraps, and a change through a pointer changes no other block.", "quantifier": "every history of calls, every capacity, every initial memory, every number of blocks", "why_tests_cant": "the claim ranges over every history, including those where the queue of 64 slots grows or wraps around", "anchors": ["collections/buffer_direct.go:DirectBlockBuffer.Alloc,Fetch,Pop,PopBack,SplitOff", "collections/buffer_rb.go:RBBlockBuffer.Alloc,Pop,Clear", "streams_buffer.go:StreamsBuffer", "collections/queue.go:Queue", "collections/ring_buffer.go"]}
{"id": "C120", "title": "The demuxer over linked lists of packet pointers", "statement": "BaseDemuxer keeps pointers to packets in linked lists, takes packets from PacketPool and with AutoFree puts them back. For every history the handler and the pipeline see the same as if the lists held the packets themselves, and a call panics in one exactly if in the other. A packet that waits in a list is in one place only and not in the pool: no packet is used again while it is still waiting.", "quantifier": "every history of demuxer calls, every choice of sort.Slice and of the pool, every change of AutoFree", "why_tests_cant": "use after free shows only when the pool returns a particular object at a particular moment; the claim ranges over every choice of the pool", "anchors": ["demuxer.go:BaseDemuxer.processBufferedPacket,forwardPacket,OnProbeComplete,TryCompleteProbe", "av_packet.go:NewAudioPacket,NewVideoPacket,FreePacket", "collections/linked_list.go:LinkedList"]}
{"id": "C121", "title": "A packet given to the handler stays as it is", "statement": "The packet passed to OnPacket keeps its fields after the callback.", "quantifier": "every history of demuxer calls, every choice of the pool", "why_tests_cant": "a change shows only when the object is used again; the claim ranges over all later calls", "anchors": ["demuxer.go:BaseDemuxer.forwardPacket", "av_packet.go:FreePacket,PacketPool"]}
{"id": "C122", "title": "A recording holds the bytes that were written", "statement": "A parser writes blocks into a StreamsBuffer, gives the slices it fetches to a BaseDemuxer with AutoFree, and OnUnpackStream2FileHandler records the packets. The file of an audio track then holds the data of the packets accepted for the track (all but the last, which waits for its duration), byte for byte and in order.", "quantifier": "every history of demuxer calls, every splitting of blocks into pieces, every path, every earlier disk content, every choice of sort.Slice", "why_tests_cant": "the bytes in a file depend on what later blocks overwrite in the ring before a packet is delivered; the claim ranges over all histories and sizes of blocks", "anchors": ["handler.go:OnUnpackStream2FileHandler", "demuxer.go:BaseDemuxer", "streams_buffer.go:StreamsBuffer", "collections/buffer_rb.go:RBBlockBuffer"]}
{"id": "C123", "title": "Unmarshal leaves in the record what its input says", "statement": "After Unmarshal of an AVCDecoderConfigurationRecord or HEVCDecoderConfigurationRecord the fields of the record are those of the input, whatever the record held before, and after an error the record is as it was.", "quantifier": "every record (used or fresh, with any sharing between its H.265 lists), every input", "why_tests_cant": "tests decode one record into a fresh value; the claim ranges over all earlier contents and over every point at which the input can end", "anchors": ["avc/mp4.go:AVCDecoderConfigurationRecord.Unmarshal", "hevc/mp4.go:HEVCDecoderConfigurationRecord.Unmarshal"]}
{"id": "C124", "title": "Packets are refused only before their buffer has a track", "statement": "OnAudioPacket and OnVideoPacket may drop a packet (its block is discarded). For every stream buffer the accepted packets are the last ones handed over for it: once a buffer has a track nothing more is refused, and once probing is over a buffer without a track stays refused. If the first packet of a buffer describes a track (any audio but AAC without ADTS header, or a video key frame with readable parameter sets), no packet of that buffer is lost unless probing was over before.", "quantifier": "every history of demuxer calls without preprocessing hook, every buffer index, every choice of sort.Slice and packet pool", "why_tests_cant": "a test shows some dropped packets; that none is dropped after the track exists needs all histories", "anchors": ["demuxer.go:OnAudioPacket", "demuxer.go:OnVideoPacket", "demuxer.go:createAudioTrack", "demuxer.go:createVideoTrack", "demuxer.go:findTrackByBufferIndex"]}
{"id": "C125", "title": "The recorded file of a track is the stream of its buffer", "statement": "A packet driven session of a container with start codes is recorded by OnUnpackStream2FileHandler, with real stream buffers. The file of every track with ascending timestamps then holds what was handed over for its buffer from the first accepted packet on, in order and without the last packet: the data of every call, and in front of a key frame of an H.264 or H.265 track its parameter sets unless the frame starts with a unit of the same header byte. For H.264 the file is the start code stream of these units.", "quantifier": "every history of demuxer calls that fits the buffers, every splitting of blocks into pieces, every path, every earlier disk content, every choice of sort.Slice", "why_tests_cant": "combines probing, sorting, ring buffer reuse and file writing over histories of any length", "anchors": ["handler.go:OnUnpackStream2FileHandler", "demuxer.go:BaseDemuxer", "streams_buffer.go:StreamsBuffer", "packet_utils.go:AVCCPacket2AnnexB"]}
{"id": "C126", "title": "A track is what the first packet of its buffer describes", "statement": "In a session without announced tracks every track is made from the first packet accepted for its buffer: media type and codec are those of the packet; audio parameters and AudioSpecificConfig come from its ADTS header; the extra data of a video track are the parameter sets in that packet, and only when it has none (or is no key frame) those of the first older track with the same codec. For H.264 and H.265 given as NAL units: the last SPS, PPS (and VPS) of the packet, in start code form, with width and height of that SPS.", "quantifier": "every history of demuxer calls without announced tracks and preprocessing hook, every buffer, every choice of sort.Slice and packet pool", "why_tests_cant": "which of several packets and tracks the parameters come from depends on the whole history", "anchors": ["demuxer.go:OnVideoPacket", "demuxer.go:OnAudioPacket", "demuxer.go:createVideoTrack", "demuxer.go:createAudioTrack", "video_stream.go:ExtractVideoExtraDataFromKeyFrame"]}
{"id": "C127", "title": "Recording of an flv stream", "statement": "When an flv stream is demuxed and recorded by OnUnpackStream2FileHandler, the parameters of a video track come from a decoder configuration record announced with OnNewVideoTrack for its buffer. The file of that track then holds, for every accepted video packet but the last one, the units of the packet with start codes instead of length prefixes: for H.264 with SEI units left out and the usual start code lengths, for H.265 with all units and four byte start codes. Every key frame stands behind the parameter sets of the record, which the file holds twice. What the file held before stays behind the new content if it was longer.", "quantifier": "All histories of calls without hooks, with packets of increasing dts in the buffer and packets in track order (with one track: always); all unit lists; all paths and old disk contents; prefix lengths 1 to 4 for H.265.", "why_tests_cant": "The content is fixed by three layers: the announcement that makes the track, the probe queue with its held last packet, and the conversion with the parameter sets; a test records one stream with one record.", "anchors": ["handler.go:OnUnpackStream2FileHandler", "packet_utils.go:AVCCPacket2AnnexB", "demuxer.go:OnNewVideoTrack"]}
{"id": "C128", "title": "Whether a recording runs to its end", "statement": "In the containers with start codes, the demuxer accepts every sequence of packets whose key frames are NAL units behind start codes (more generally: whose key frames hold a unit header and do not hit the panics of C72), and the recording with OnUnpackStream2FileHandler then ends without an error or a panic. Once the demuxer is through, the recording fails if and only if a key frame without any NAL unit is delivered for an H.264/H.265 track with parameter sets: such a packet passes the demuxer and panics in AVCCPacket2AnnexB. In flv with H.264 video, no packet data and no decoder configuration record, however broken, stops the demuxer or the recording.", "quantifier": "All histories of calls without hooks, all packet data (in flv any bytes), all containers, paths and old disk contents; the recording part for packets written into the buffers in track order.", "why_tests_cant": "The absence of panics is a statement about every packet sequence through four layers (stream buffers, demuxer, conversion, file handler); a test can only find one failing packet, and the failing one passes the demuxer without a sign.", "anchors": ["handler.go:OnUnpackStream2FileHandler", "packet_utils.go:AVCCPacket2AnnexB", "demuxer.go:OnVideoPacket"]}
{"id": "C129", "title": "Units handed over, units in the file", "statement": "A session starts with an H.264 or H.265 key frame that carries its parameter sets (or, in flv, with a decoder configuration record), its packets consist of NAL units with ascending decoding times, and the probe is completed at some point. Then the recording into a fresh directory succeeds, the file of that stream is called <path>.video.0.<codec>, and taken apart by SplitNalU it yields exactly the units handed over, in order, except for those of the last packet; in front of each key frame that lacks them stand the parameter sets (in flv: in front of each key frame, twice, and SEI units are left out).", "quantifier": "All sequences of such calls, any number of packets, units and further streams (in flv: streams announced before the first packet and heard of in the order of the announcements), all containers, paths and interleavings that fit the stream buffers.", "why_tests_cant": "The claim joins every layer (block buffers, demuxer, conversion, file handler, start code search) for sessions of any length; a test fixes one session and one set of units.", "anchors": ["demuxer.go:BaseDemuxer", "handler.go:OnUnpackStream2FileHandler", "packet_utils.go:AVCCPacket2AnnexB", "avc/util.go:SplitNalU", "streams_buffer.go:StreamsBuffer"]}
{"id": "C130", "title": "Streams heard of in turn", "statement": "The demuxer keeps the packets of every stream in a list of its own (on which the durations and the order of C66 and C67 depend) exactly if the first packets of the streams arrive in the order of the track numbers. For tracks announced before the first packet (flv headers): every packet handed over is taken, no further track is opened, and the lists are separate exactly if the first packets of the announced buffers arrive in the order of the announcements. Otherwise packets of two streams share a list and the durations are distances between different streams.", "quantifier": "All histories of calls (with any preprocessing hook for the first part), all containers, any number of tracks and packets.", "why_tests_cant": "The lists go wrong only for particular orders of first packets; the equivalence covers every interleaving of every number of streams.", "anchors": ["demuxer.go:processBufferedPacket", "demuxer.go:OnNewVideoTrack", "demuxer.go:OnNewAudioTrack"]}
{"id": "C131", "title": "A session is fixed by its calls", "statement": "If no two tracks share a buffer, what a demuxer does is fixed by its name and the calls made to it. The order in which Go walks the track map, the order in which sort.Slice leaves packets of equal time and the packets that come out of the packet pool make no difference: the same call fails or panics, the same events happen (tracks, completion, discards, packets taken and delivered), and the demuxer is left in the same state. Packets are delivered at the same times; only packets of equal time may change places, and only the packet type of sound may differ. A stream whose times increase is delivered packet by packet in the same way. Buffers are not shared when tracks are opened by packets. When two tracks share a buffer (a second announcement in ts), the order of the map decides which track gets a packet.", "quantifier": "All containers, all histories of calls, any two sets of choices of the runtime for every call; for the stream part all aligned histories with increasing times.", "why_tests_cant": "Map order, sort ties and pool contents vary between runs of the same test; a relation between two arbitrary runs covers all of them.", "anchors": ["demuxer.go:findTrackByBufferIndex", "demuxer.go:OnProbeComplete", "demuxer.go:processBufferedPacket", "av_packet.go:NewAudioPacket", "av_packet.go:NewVideoPacket"]}
{"id": "C132", "title": "Durations add up to times", "statement": "In a session whose streams are heard of in turn, a stream with increasing Dts that span less than 2^63 is delivered with positive durations, and the Dts of every packet is the Dts of the first one plus the durations of the packets delivered before it; this includes the last packet, which the demuxer still keeps. One packet fewer is delivered than was taken. With times further apart the int64 subtraction wraps and a duration becomes negative.", "quantifier": "All containers, all histories of calls with streams heard of in turn (C130), all streams, any number of packets, any choices of the runtime.", "why_tests_cant": "A player that adds up durations drifts by any single wrong one; the sum is proved for every prefix of every stream.", "anchors": ["demuxer.go:processBufferedPacket", "demuxer.go:OnProbeComplete", "demuxer.go:forwardPacket"]}
{"id": "C133", "title": "When an flv recording runs to its end", "statement": "For flv with video of any codec and sound, no decoder configuration record and no packet data, however broken, makes the demuxer fail. The recording fails (a panic in AVCCPacket2AnnexB) exactly if a delivered H.265 packet lies in an H.264 track, does not consist of whole length-prefixed units, or needs more than 256 extra bytes for its start codes. If every H.265 packet consists of whole units and the announced streams are heard of in turn, the recording succeeds and the video file, taken apart at its start codes, is the units handed over (parameter sets twice before every key frame) except for the last packet; the audio file is the data handed over except for the last packet.", "quantifier": "All flv call histories (sessions that fit into their buffers, C97), all records and packet bytes, any codecs, any number of packets, any choices of the runtime.", "why_tests_cant": "Which of all byte strings stop a recording cannot be found by samples; the theorem is an equivalence over all of them, from the calls to the file.", "anchors": ["packet_utils.go:AVCCPacket2AnnexB", "hevc/util.go:Mp4ToAnnexB", "demuxer.go:OnNewVideoTrack", "demuxer.go:OnVideoPacket", "handler.go:OnUnpackStream2FileHandler.OnPacket"]}
{"id": "C134", "title": "A recording is fixed by the calls", "statement": "Two sessions that make the same calls, with no two tracks on one buffer, are recorded by OnUnpackStream2FileHandler with the same outcome: one recording runs to its end exactly if the other does, and the file of every stream with increasing times is the same. The order in which Go walks maps, the order in which sort.Slice leaves packets of equal time and the packets from the pool do not show in the files; with real stream buffers that do not overflow, neither do the pieces in which the data of a packet was written into its buffer. For packets of one stream with equal times this is false: their order in the file is left to sort.Slice.", "quantifier": "All pairs of call histories with equal calls and any choices of the runtime on each side; any cutting of the data; any previous contents of the files; any number of streams and packets.", "why_tests_cant": "Map order, unstable sorting and pool reuse cannot be forced from a test; a test sees one combination per run.", "anchors": ["demuxer.go:OnProbeComplete", "demuxer.go:findTrackByBufferIndex", "av_packet.go:NewAudioPacket", "handler.go:OnUnpackStream2FileHandler.OnPacket", "streams_buffer.go:StreamsBuffer.Write"]}
{"id": "C135", "title": "Units survive the way from a start code container into an flv recording", "statement": "A first session with start codes (ts, ps) delivers a stream whose first packet is a key frame with its parameter sets. Every packet delivered for the stream can be turned into AVCC form by AnnexBPacket2AVCC, and that form holds the units handed over. The decoder configuration record of the track (MP4ExtraData) parses back to the same parameter sets, width and height. A second session of type flv that announces the record and hands over the converted packets is recorded without a panic, and its file taken apart at the start codes gives the units of the first session: every key frame behind the parameter sets (twice), H.264 without SEI units, H.265 with all of them, and without the last packet of each session.", "quantifier": "All first sessions and all second sessions that hand over these packets, with any number of other streams in the first, any number and size of packets and units, any choices of the runtime; parameter sets that fit the 1024 bytes reserved for the record, at most 256 bytes of growth per packet, H.265 units of at least two bytes.", "why_tests_cant": "The claim spans extraction of parameter sets, the writing and reading of the record, both conversions, two demuxers with their sorting and the file handler; a test follows a few fixed frames through them.", "anchors": ["packet_utils.go:AnnexBPacket2AVCC", "packet_utils.go:AVCCPacket2AnnexB", "video_stream.go:ExtractVideoExtraDataFromKeyFrame", "codec_paraments.go:AVCCodecData.MP4ExtraData", "codec_paraments.go:HEVCCodecData.MP4ExtraData", "demuxer.go:OnNewVideoTrack", "handler.go:OnUnpackStream2FileHandler.OnPacket"]}
{"id": "C136", "title": "Units survive the way from flv into a recording of a start code container", "statement": "An flv session whose tracks are announced before the first packet and heard of in this order delivers packets that AVCCPacket2AnnexB turns into start code form: the parameter sets of the record in front of key frames, then the units of the packet, H.264 without SEI units and H.265 with all of them. A ts or ps session that is handed these packets finds the parameter sets in its first key frame, opens a track and is recorded without a panic, and its file taken apart at the start codes gives those units without the last packet of each session. If the key frames bring no parameter sets of their own, the second session uses those of the record and writes every packet as it was sent.", "quantifier": "All flv sessions with any announced tracks, all second sessions that hand over these packets among safe calls for other streams, any number and size of packets and units, any choices of the runtime; length prefixes of one to four bytes for H.265 within the spare 256 bytes, four for H.264.", "why_tests_cant": "The claim spans reading the record, conversion, the search for parameter sets in the converted frame, two demuxers and the file handler; a test follows a few fixed frames through them.", "anchors": ["packet_utils.go:AVCCPacket2AnnexB", "video_stream.go:ExtractVideoExtraDataFromKeyFrame", "codec_paraments.go:ParseAVCDecoderConfigurationRecord", "codec_paraments.go:ParseHEVCDecoderConfigurationRecord", "demuxer.go:OnVideoPacket", "handler.go:OnUnpackStream2FileHandler.OnPacket"]}
{"id": "C137", "title": "Sessions that fit the stream buffers", "statement": "The packets waiting in the demuxer for a buffer, whose bytes must stay in the memory of that buffer, are all accepted packets of the buffer before the probe completes and the last one afterwards. So with AutoFree on, a session needs no growth and overwrites nothing if up to the end of the probe all packets of a buffer together, and afterwards every packet with the one before it, fill at most half of the memory of the buffer (1 MiB for video, 288000 bytes otherwise); packets of at most a quarter of the memory do, however many follow. Then C129 needs no condition on memory: the calls alone decide that a ts or ps recording runs to its end and what its files hold. The same for flv sessions with announced tracks.", "quantifier": "All sessions, any number of streams, packets and bytes, any cutting of the blocks into pieces, any choices of the runtime; tracks found from packets or announced.", "why_tests_cant": "Memory is overwritten only when the amount waiting in one of several ring buffers meets a size of hundreds of kilobytes at an unlucky moment; a test sees the sizes it sends.", "anchors": ["demuxer.go:processBufferedPacket", "demuxer.go:OnProbeComplete", "streams_buffer.go:StreamsBuffer.Write", "collections/buffer_rb.go:RBBlockBuffer.Write", "handler.go:OnUnpackStream2FileHandler.OnPacket"]}
{"id": "C138", "title": "Packets on a DirectDataPipeline show the bytes of later packets", "statement": "A DirectDataPipeline has one array for all streams, writes every block from its start, and its Discard methods do nothing, while the demuxer delivers a packet only when a later one of its track has arrived. So the handler does not see the bytes written: OnPacket is called for the right packets in the right order, with the right sizes, timestamps and tracks, but the data of a packet has every block written since lying on top of it, up to the first block (or piece of a block) that does not fit the array the packet lies in. If all blocks have the same size, the handler is always given the bytes of the newest block. A block is spared only by a move to a new array, and with blocks of at most M bytes there are at most log2(M+1) moves, however long the session. The demuxer's own state (tracks, codec data, probe) does not depend on the overwritten memory.", "quantifier": "All sessions of demuxer calls with any number of streams, packets and bytes, any cutting of the blocks into pieces, any choices of the runtime, AutoFree on or off.", "why_tests_cant": "A test of the pipeline alone sees the fetched bytes before the next Write, and one with a demuxer and constant filler data sees nothing wrong; the damage depends on the sizes and the order of all later blocks of all streams.", "anchors": ["direct_pipeline.go:DirectDataPipeline.Write", "direct_pipeline.go:DirectDataPipeline.Fetch", "direct_pipeline.go:DirectDataPipeline.DiscardHeadPacket", "demuxer.go:processBufferedPacket", "demuxer.go:OnProbeComplete"]}
{"id": "C139", "title": "A handler that calls the demuxer from its callbacks", "statement": "The demuxer does not protect itself against a handler that calls it from OnNewTrack, OnTrackComplete, OnTrackNotFind or OnPacket. The order OnNewTrack, OnTrackComplete, OnPacket and the dts order of a track are lost if the handler inputs a packet before the packets of the probe are delivered. But for every handler, calling whatever it likes from whichever callback and however deep, no accepted packet is lost or duplicated, and after completion at most one packet waits in each list; and once the probe is complete, every track keeps its order and its durations. Close from the last callback of a call is harmless, from an earlier one it is a nil pointer panic in the next callback. A handler that makes calls during its first n callbacks is at most n calls deep; one that inputs a packet in every callback never returns (in Go the stack overflows).", "quantifier": "All handlers (any list of demuxer calls at each callback), all histories, container names, packet contents, timestamps, all choices of the runtime.", "why_tests_cant": "Each callback can be interrupted by any sequence of calls which again cause callbacks; the number of nestings is infinite.", "anchors": ["demuxer.go:processBufferedPacket", "demuxer.go:forwardPacket", "demuxer.go:OnProbeComplete", "demuxer.go:OnAudioPacket", "demuxer.go:OnVideoPacket", "demuxer.go:Close"]}
{"id": "C140", "title": "Only differences of times and equality of buffer numbers matter", "statement": "Moving all decoding times of a session by one amount, the presentation times of pictures by another, and renaming the buffers by a permutation, with times that still fit an int64, changes nothing else: the same calls succeed, fail or panic, the same tracks are found, the probe ends at the same call, the same callbacks come in the same order, and packet by packet bytes, key flag, stream index and duration are the same; a FileHandler writes the same bytes. The amount must be the same for all tracks: moving one track alone can change the order in which the packets of the probe are delivered.", "quantifier": "All states, histories of calls with any contents, container names, hooks, all choices of the runtime (sort.Slice, map iteration, pools), all amounts, all permutations of the buffer numbers.", "why_tests_cant": "It relates two runs for every history and every shift; a test compares finitely many pairs.", "anchors": ["demuxer.go:processBufferedPacket", "demuxer.go:OnAudioPacket", "demuxer.go:OnVideoPacket", "demuxer.go:ProbeComplete", "handler.go:OnPacket"]}
{"id": "C141", "title": "After the probe the streams do not influence each other", "statement": "After the probe, take a track that has had a packet and shares its buffer with no other track. In any further session, leaving out the packets of all other buffers changes nothing for it: the rest of the calls still succeeds, and the same packets are accepted, delivered with the same durations and freed, in the same order, and the same packet waits at the end. Hence two sessions that differ only in the packets of other buffers look the same to it. Without the two conditions this is false: during the probe the packets of another stream can end the probe, and after the probe a track without a packet can get its packets into the list of another track.", "quantifier": "All sessions up to the end of the probe, all continuations (any calls, contents, timestamps, hooks that keep index and buffer), all choices of the runtime.", "why_tests_cant": "It relates every session to its restriction to one buffer; interference would need one particular interleaving.", "anchors": ["demuxer.go:processBufferedPacket", "demuxer.go:forwardPacket", "demuxer.go:OnAudioPacket", "demuxer.go:OnVideoPacket", "demuxer.go:findTrackByBufferIndex"]}
{"id": "C142", "title": "The demuxer does not look at the bytes of streams it knows", "statement": "After the probe, replacing the bytes of all packets (also of the waiting ones) by any others, even of other lengths, changes nothing but these bytes: the same calls succeed, the same callbacks come in the same order with the same times, durations and indices. Before the end of the probe the same holds for packets of tracks that have been found, if the lengths stay the same. Hence two continuations that differ in the bytes alone cannot be told apart by anything but the bytes. The conditions are needed: the bytes of the first packet decide on a new track (or panic), and the lengths decide on the estimated rate of PCM and G726.", "quantifier": "All sessions, all continuations, all replacements of the bytes, all choices of the runtime in which the sort and the hook do not look at the bytes.", "why_tests_cant": "It relates every session to every other session with different payloads.", "anchors": ["demuxer.go:OnAudioPacket", "demuxer.go:OnVideoPacket", "demuxer.go:processBufferedPacket", "demuxer.go:OnProbeComplete", "demuxer.go:calculatePCMFrequency"]}
{"id": "C143", "title": "Close does not end a session", "statement": "Close only takes the handler and the hook away. With a new handler set, the demuxer goes on exactly where it was, so it cannot be used for a second session: if the probe was complete, the new handler is never told of a track and gets packets only, no track is ever added, packets of buffers without a track are dropped, and the first packet of every track is the one left over from the first session, with the distance to the first new packet as its duration. A new OnUnpackStream2FileHandler panics on the first packet it is given. If the probe was not complete, the first handler has heard nothing, and the second one gets the tracks and packets of both sessions.", "quantifier": "All first sessions, all second sessions, all choices of the runtime; the left-over packet for tracks with a list of their own.", "why_tests_cant": "It is about all pairs of sessions on one demuxer.", "anchors": ["demuxer.go:Close", "demuxer.go:SetHandler", "demuxer.go:processBufferedPacket", "demuxer.go:OnProbeComplete", "handler.go:OnPacket"]}
{"id": "C144", "title": "The recorded file of a track does not depend on the other streams", "statement": "Let OnUnpackStream2FileHandler record a session. After the probe, take a track that has had a packet and shares its buffer with no other track. If the rest of the session is recorded, then without the packets of all other buffers it is recorded too, the file of this track gets the same bytes, and the files of the other tracks stay as they were. Hence two recorded sessions that differ after the probe only in the packets of other buffers leave the same file of this track. The other streams can only stop the recorder, and that is when one of their delivered packets cannot be converted.", "quantifier": "All sessions, all continuations, all initial contents of the disk, all choices of the runtime (hooks that keep index and buffer).", "why_tests_cant": "It compares every session with all sessions that differ in the other streams.", "anchors": ["handler.go:OnPacket", "handler.go:OnNewTrack", "demuxer.go:OnAudioPacket", "demuxer.go:OnVideoPacket", "demuxer.go:processBufferedPacket"]}
{"id": "C145", "title": "Demuxers that share the packet pool do not influence each other", "statement": "PacketPool is global, so a packet freed by one demuxer is used again by another. However the calls of any number of demuxers are interleaved, each of them does what it does alone: it has a history with its own calls and no pool at all that gives the same events and the same waiting packets, and a common session fails only in a way in which one demuxer fails alone. Alone with a pool of its own it gives the same events too, provided no two of its tracks share a buffer; only the order of packets of equal time and the packet type of sound may differ. A packet that waits in one demuxer is in no other demuxer and not in the pool, and a packet delivered by a demuxer without AutoFree is never changed by another one.", "quantifier": "Any number of demuxers, all interleavings of whole calls, all arguments, all choices of the runtime (map order, sort.Slice, which packet the pool returns).", "why_tests_cant": "sync.Pool decides what is used again, and a test fixes the number of demuxers and one interleaving.", "anchors": ["av_packet.go:PacketPool", "av_packet.go:NewAudioPacket", "av_packet.go:NewVideoPacket", "av_packet.go:FreePacket", "demuxer.go:processBufferedPacket", "demuxer.go:forwardPacket"]}
{"id": "C146", "title": "What each call of the demuxer delivers", "statement": "A call that leaves the probe open delivers nothing. The call that completes the probe delivers all packets accepted so far except the last of each list, each with the distance to the next packet of its list as Duration, in the order of their Dts. After that a call delivers at most one packet: if it puts a packet into a list, the one put there before, with the distance as Duration, and if it puts no packet anywhere, nothing. The packet of a call is never delivered by the call itself, and the other lists stay as they are.", "quantifier": "All sessions, all further calls, all choices of the runtime.", "why_tests_cant": "It fixes the output of every call after every session.", "anchors": ["demuxer.go:processBufferedPacket", "demuxer.go:OnProbeComplete", "demuxer.go:OnAudioPacket", "demuxer.go:OnVideoPacket"]}
{"id": "C147", "title": "Every call returns", "statement": "No call runs forever, whatever bytes it gets and whatever state it starts in: searching start codes, detecting key frames, splitting and extracting parameter sets, converting between AVCC and Annex-B, reading and writing decoder configuration records, reading Golomb codes and sequence parameter sets, converting packets, every call of the demuxer and every callback of the file handler return or panic. A loop over its input makes at most one round more than the input has bytes (or unread bits), M4VCExtraDataToAnnexB at most 1000 rounds and the count of leading zeros at most 33. The one exception in the library is ParseNalUnits (C75).", "quantifier": "All byte slices, all buffers, readers, records, packets, demuxer states and calls.", "why_tests_cant": "A test can only observe that some inputs are processed in time.", "anchors": ["avc/util.go:FindStartCode", "avc/util.go:AVCC2AnnexB", "avc/util.go:AnnexB2AVCC", "avc/util.go:SplitNalU", "avc/util.go:M4VCExtraDataToAnnexB", "hevc/util.go:Mp4ToAnnexB", "avc/sps.go:ParseSPS", "bufio/golomb_reader.go:ReadExponentialGolombCode", "packet_utils.go:AVCCPacket2AnnexB", "demuxer.go:OnVideoPacket", "handler.go:OnPacket"]}
{"id": "C148", "title": "Refused packets leave no trace", "statement": "A packet call that puts no packet into a list discards its input block, reports nothing and leaves the demuxer as it was. Leaving such calls out of a session changes nothing for the other calls: each of them has the same events, and the demuxer ends in the same state. A call of OnNewAudioTrack or OnNewVideoTrack either adds one track or leaves the demuxer as it was.", "quantifier": "All states, all calls, all sessions, all choices of the runtime.", "why_tests_cant": "It compares every session with every session without its refused calls.", "anchors": ["demuxer.go:OnAudioPacket", "demuxer.go:OnVideoPacket", "demuxer.go:OnNewAudioTrack", "demuxer.go:OnNewVideoTrack"]}
{"id": "C149", "title": "Bytes after the part that is read do not matter", "statement": "If FindStartCode finds a start code, IsKeyFrame (H.264 or H.265) reports a key frame, ParseSPS (H.264 or H.265), Unmarshal or ExtraDataToAnnexB (AVC or HEVC record), ParseMpeg4AudioConfig, ReadADtsFixedHeader or ExtractAudioExtraData succeed on a slice, then they give the same result on the slice followed by any further bytes.", "quantifier": "All slices, all further bytes (slices shorter than 2^63 bytes for the records), all growth policies of append.", "why_tests_cant": "It relates the results of every two inputs of which one is a prefix of the other.", "anchors": ["avc/util.go:FindStartCode", "avc/util.go:IsKeyFrame", "hevc/util.go:IsKeyFrame", "avc/sps.go:ParseSPS", "hevc/sps.go:ParseSPS", "avc/mp4.go:Unmarshal", "hevc/mp4.go:Unmarshal", "avc/mp4.go:ExtraDataToAnnexB", "hevc/mp4.go:ExtraDataToAnnexB", "utils/aac_util.go:ParseMpeg4AudioConfig", "utils/aac_util.go:ReadADtsFixedHeader", "video_stream.go:ExtractAudioExtraData"]}
{"id": "C150", "title": "A recording over a DirectDataPipeline has the right length and the wrong bytes", "statement": "With a DirectDataPipeline below the demuxer, OnUnpackStream2FileHandler writes what the slices of the delivered packets show at the moment of OnPacket. The file of a non-video track is as long as the data of the packets delivered for it, but if all blocks have the same size and are written in one piece, each call appends the newest block once for every packet of the track that it delivers, in place of the data of those packets. Other files are left alone, and on audio the recording never fails.", "quantifier": "All sessions of calls with any pieces, any disk and path; for the last part all sessions with blocks of one size.", "why_tests_cant": "It ties every session, of any length, over aliased memory to the exact contents of the files.", "anchors": ["handler.go:OnNewTrack", "handler.go:OnPacket", "direct_pipeline.go:Write", "direct_pipeline.go:Fetch", "demuxer.go:processBufferedPacket", "demuxer.go:forwardPacket"]}
{"id": "C151", "title": "The log of a session can be read back", "statement": "OnUnpackStreamLogger never stops a session without a preprocessing hook. It prints nothing before the probe is complete; then one line per track in the order of their indices, \"track complete\", and one line per delivered packet, in order (or, without tracks, one line on the standard error). Two sessions with the same output announced the same tracks (media type, codec, index, audio rate and channels) and delivered packets with the same media types, dts and pts in the same order. With a hook it panics exactly when a delivered packet has a media type outside -1..5.", "quantifier": "All histories of demuxer calls, all containers, all choices of sort.Slice; pairs of sessions for the second part.", "why_tests_cant": "Reading back is a statement about all pairs of sessions, with any number of tracks and packets and any numbers printed.", "anchors": ["handler.go:OnUnpackStreamLogger", "tracks.go:Add", "utils/av_util.go:String", "utils/codec_id.go:String"]}
{"id": "C152", "title": "Conversion of joined access units", "statement": "If b begins with a start code followed by at least one byte, and a ends neither in a zero byte nor in a bare 00 00 01, then AnnexB2AVCC of a followed by b writes what it writes for a followed by what it writes for b, and SplitNalU of a (of at least 3 bytes) followed by b calls back the pieces of a and then those of b. AVCC2AnnexB without extra data of complete units followed by any bytes p writes the two results joined, without the first byte of the second unless the first is empty.", "quantifier": "All byte strings a and b of any length (not necessarily well-formed), all numbers of units, all destination buffers with enough room.", "why_tests_cant": "The joint is found by a scanner that moves in steps of 1, 2 and 3 bytes; every content around the joint and every alignment matters.", "anchors": ["avc/util.go:AnnexB2AVCC", "avc/util.go:AVCC2AnnexB", "avc/util.go:SplitNalU", "avc/util.go:FindStartCode"]}
{"id": "C153", "title": "Bit fields next to each other", "statement": "WriteBits to two fields that do not overlap gives the same bytes in either order; a field that lies inside a field written later leaves no trace; ReadBits of a field does not see what is written elsewhere. A field of n+m bits may be read as a field of n bits and one of m bits (the first value shifted by m plus the second, mod 2^64), and written as the upper n and the lower m bits of the value. Writing a field of at most 64 bits back after reading it changes nothing.", "quantifier": "All byte slices, all non-negative bit positions and widths, all values; fields may reach beyond the slice except where a field is read in parts or written back.", "why_tests_cant": "Positions, widths and alignments of two fields give unboundedly many combinations, and one wrong mask at a byte boundary shows in few of them.", "anchors": ["bufio/bits_reader.go:ReadBits", "bufio/bits_writer.go:WriteBits"]}
{"id": "C154", "title": "Converted durations, and times converted back", "statement": "A timestamp converted to another time base and back is off by at most 1 + src/dst ticks; converted from a base src to a multiple src*k and back it is unchanged when the float quotient 1/k is not rounded down, as from milliseconds to 90 kHz and back. The converted durations of n packets differ from the converted total duration by at most n+1 ticks; when the quotient dst/src is not rounded down, their sum is at most the converted total and falls short of it by less than n ticks.", "quantifier": "All timestamps and time bases with ts*dst below 2^51 (2^52 for the other parts), all numbers of packets and all durations.", "why_tests_cant": "The error depends on how two float operations round; 1 ms through a base of 49000 and back gives 0, through 90000 it gives 1.", "anchors": ["packet_utils.go:ConvertTs", "av_packet.go:GetDuration", "av_packet.go:ConvertDts"]}
{"id": "C155", "title": "Key frames and parameter sets of joined access units", "statement": "For two Annex B access units joined, where the first ends neither in a zero nor in a bare start code and the second starts with a start code: the joined bytes are a key frame exactly when the first is one, or when the first holds only units that IsKeyFrame skips and the second is one. ParseExtraDataFromKeyNALU of the joined bytes returns, of each kind of parameter set, the last one of the second access unit if it has one and otherwise the last one of the first, and fails exactly when one kind is in neither.", "quantifier": "All byte strings a (at least three bytes for the parameter sets, not ending in a zero or a bare start code) and b = start code ++ a non-empty unit; AVC and HEVC.", "why_tests_cant": "Whether a start code is found at the seam, or one crossing it, depends on the bytes on both sides.", "anchors": ["avc/util.go:IsKeyFrame", "hevc/util.go:IsKeyFrame", "avc/util.go:ParseExtraDataFromKeyNALU", "hevc/util.go:ParseExtraDataFromKeyNALU", "avc/util.go:SplitNalU"]}
{"id": "C156", "title": "The bit reader over any io.Reader", "statement": "Whatever io.Reader a GolombBitReader is given, any sequence of its methods, each chosen by the values read so far, returns the same as over the bytes found in its one byte buffer after each Read, up to the first error. For a reader that returns one byte per Read and none with its error these are its data. In general a byte returned together with the error is lost, and a Read that returns 0 bytes without an error makes the byte left in the buffer count again. After a failed call the next one starts with a new byte.", "quantifier": "All sequences of answers of Read (byte written or not, count 0 or 1, error or not), all adaptive sequences of calls.", "why_tests_cant": "The tests and the parsers use bytes.Reader, which never does what the io.Reader contract allows here.", "anchors": ["bufio/golomb_reader.go:ReadBit", "bufio/golomb_reader.go:ReadBits", "bufio/golomb_reader.go:ReadBits32", "bufio/golomb_reader.go:ReadBits64", "bufio/golomb_reader.go:ReadExponentialGolombCode", "bufio/golomb_reader.go:ReadSE"]}
{"id": "C157", "title": "A demuxer whose caller recovers from panics", "statement": "A call interrupted by a panic of the handler makes the events of the whole call up to the panicking callback and leaves the state of the whole call; a panic in OnNewTrack or OnTrackComplete leaves the probe completed with all packets in their lists, where they stay for ever: they are never delivered and the tracks are never announced again. A panic while the input is examined changes nothing, and a packet call then gives its block back, so a session with a handler goes on as if the panicking calls had not been made. Without a handler, a packet call after the probe that would deliver a packet loses it.", "quantifier": "All demuxer states, all calls, all choices of the runtime, all sets of panicking callbacks, all session lengths.", "why_tests_cant": "No test makes a callback panic or goes on after a panic; the state after it depends on every state before.", "anchors": ["demuxer.go:OnAudioPacket", "demuxer.go:OnVideoPacket", "demuxer.go:processBufferedPacket", "demuxer.go:forwardPacket", "demuxer.go:OnProbeComplete", "demuxer.go:TryCompleteProbe", "demuxer.go:OnNewAudioTrack", "demuxer.go:OnNewVideoTrack"]}
{"id": "C158", "title": "Block buffers and pipelines whose caller recovers from panics", "statement": "A DirectBlockBuffer, an RBBlockBuffer and a DirectDataPipeline made by their constructors go on after a recovered panic exactly as if the panicking call had not been made, unless it was an Alloc of a negative size. A StreamsBuffer does too, except that a call panicking at an index beyond the last buffer, and a Fetch just behind it, leaves one more empty buffer, so a Write k places beyond panics k times and then succeeds. A negative Alloc cuts the pending block of a DirectBlockBuffer at its end; in an RBBlockBuffer that is not exactly full it only opens an empty block. The new buffer of a SplitOff past the middle panics on every Alloc, collects empty blocks, and is sealed by its own panicking SplitOff, until Clear.", "quantifier": "All histories of calls with any number of recovered panics, all capacities, all data, all indexes.", "why_tests_cant": "No test goes on using a buffer after a panic; what a panic leaves depends on the whole state.", "anchors": ["collections/buffer_direct.go:Alloc", "collections/buffer_direct.go:Write", "collections/buffer_direct.go:Fetch", "collections/buffer_direct.go:SplitOff", "collections/buffer_rb.go:Alloc", "streams_buffer.go:findOrCreateStreamBuffer", "streams_buffer.go:Write", "streams_buffer.go:Fetch", "direct_pipeline.go:Write", "direct_pipeline.go:Fetch"]}
{"id": "C159", "title": "A recording whose panics are recovered callback by callback", "statement": "If every callback of OnUnpackStream2FileHandler runs behind a recover and the file system may fail at any OpenFile or Write, the session goes on as follows. The files of the tracks that could be opened stand in the order of the tracks; a failed OnNewTrack still registers the track, so if the file of track t alone cannot be opened, the packets of track i >= t are written into the file named after track i+1, converted with their own stream, and every packet of the last track panics. A packet stores exactly the bytes of its writes up to its first failing Write, including the part that Write stored; no other packet is affected, and each file holds the stored bytes of its packets in order over its old contents. Without a failing callback it is the recording of C87, up to the first failing one that of C117.", "quantifier": "All histories of demuxer calls and all orders of the sort, all fault patterns of the file system, all previous disk contents.", "why_tests_cant": "No test runs the handler on a failing file system, and the set of fault patterns is infinite.", "anchors": ["handler.go:OnUnpackStream2FileHandler.OnNewTrack", "handler.go:OnUnpackStream2FileHandler.OnPacket", "handler.go:OnUnpackStreamLogger.OnNewTrack", "tracks.go:Add"]}
{"id": "C160", "title": "A recording on a failing file system whose caller recovers from panics", "statement": "If a demuxer has an OnUnpackStream2FileHandler, the file system may fail at any OpenFile or Write, and the caller of the demuxer recovers from the panics and goes on, then: in every call only the last callback can have failed, the call then panics, and the callbacks before it are the first ones of those the call would have made; the callbacks announce the first n tracks and the files of the first m are open, where n is m, or m+1 if opening file m failed; track announcement is not repeated. The file of track j < m holds exactly the bytes stored for the packets of track j in order, over its old contents, and no other file is touched; a packet stores the bytes of its writes up to its first failing Write, a packet of a track without file stores nothing and panics. So, unlike in C159, no packet is ever found in the file of another track.", "quantifier": "All histories of demuxer calls from a new demuxer on, all orders of the sort, all fault patterns of the file system, all previous disk contents.", "why_tests_cant": "No test runs the handler on a failing file system or recovers from its panics, and the set of histories and fault patterns is infinite.", "anchors": ["handler.go:OnUnpackStream2FileHandler.OnNewTrack", "handler.go:OnUnpackStream2FileHandler.OnPacket", "demuxer.go:OnProbeComplete", "demuxer.go:processBufferedPacket", "demuxer.go:forwardPacket"]}
{"id": "C161", "title": "Cursors and containers whose caller recovers from panics", "statement": "If the caller of a BytesReader, BytesWriter, BitsReader, BitsWriter, RingBuffer, Queue or LinkedList recovers from panics and goes on using the object: a BytesReader and a BytesWriter do what they do for the same history with Seek(n) in place of each ReadBytes(n) with n < 0, except that such a call panics where that Seek succeeds, so the offset stays inside the buffer. For the bit cursors, the history with each panicking ReadBytes(n) replaced by Seek(8n) and every other panicking call left out has no panic, leaves the same bytes and offset and gives the same answers; so no panicking call writes anything. For RingBuffer, Queue and LinkedList a panicking call has changed nothing at any point of any history, also with negative indices.", "quantifier": "All initial data and offsets, all element types, all capacities, all finite histories of calls with all arguments.", "why_tests_cant": "What a panicking call leaves behind depends on which assignments come before the failing one and on the reachable states; tests sample neither panicking calls nor what follows them.", "anchors": ["bufio/bytes_reader.go:ReadBytes", "bufio/bits_reader.go:ReadBytes", "bufio/bits_reader.go:Read", "bufio/bits_writer.go:WriteBits", "bufio/bits_writer.go:WriteBytes", "collections/ring_buffer.go:Pop", "collections/ring_buffer.go:Push", "collections/queue.go:Push", "collections/queue.go:PopBack", "collections/linked_list.go:Add", "collections/linked_list.go:Remove"]}
{"id": "C162", "title": "Headers and records that are read and written again reach a normal form", "statement": "If AVCDecoderConfigurationRecord.Unmarshal accepts data, then Marshal of the sets it read gives a known result: an error if the record would exceed 1024 bytes, a panic if the last SPS has fewer than 4 bytes, and otherwise a record of the same sets, which equals data exactly if the header of data is the one Marshal writes, the high bits of the SPS count are set and nothing follows the record; read again it gives the same sets, and written again it is itself. For HEVCDecoderConfigurationRecord: if Marshal of the sets read succeeds and the first VPS, SPS and PPS and the last SPS that were read have types 32, 33, 34 and 33, then the record written, read again, gives the same VPSs and PPSs and of the SPSs the last; written once more, it is unchanged if there was one SPS, and from then on reading and writing change nothing. If none of the first VPS, SPS and PPS read has type 33, as when PPSs come before the SPS in the record, the record written is rejected when read again. An ADTS header written again by SetADtsHeader with the id, profile, frequency, channels and length that were read keeps these five and the payload; it is the same header exactly if layer, private bit, original, home, copyright bits and block count are 0, there is no CRC and the fullness is 2047; written again it is itself.", "quantifier": "All byte strings accepted by the readers; for H.265 all growth policies of append.", "why_tests_cant": "The readers accept far more inputs than the writers produce, so the composition has to be examined on all accepted inputs; tests only compare written records.", "anchors": ["avc/mp4.go:AVCDecoderConfigurationRecord.Unmarshal", "avc/mp4.go:AVCDecoderConfigurationRecord.Marshal", "hevc/mp4.go:HEVCDecoderConfigurationRecord.Unmarshal", "hevc/mp4.go:HEVCDecoderConfigurationRecord.Marshal", "utils/aac_util.go:ReadADtsFixedHeader", "utils/aac_util.go:SetADtsHeader"]}
{"id": "C163", "title": "Conversion of joined mp4 samples", "statement": "hevc.Mp4ToAnnexB of complete units followed by any bytes b writes the result for the units followed by the result for b, where b is converted with the extra data if no unit before it is an IRAP unit and without extra data otherwise; it returns an error exactly if the conversion of b does. avc.Mp4ToAnnexB without extra data of complete units followed by any bytes p writes the two results joined, without the first byte of the second unless the first is empty. With extra data, avc.Mp4ToAnnexB converts p as alone with the extra data if the units before it contain no SPS or PPS, and without extra data otherwise; then the first byte of the second result is left out unless the first is empty or the second begins with the (non-empty) extra data, that is, unless the first unit of p is an IDR unit and the extra data is used.", "quantifier": "All numbers and contents of units, all byte strings b and p, all extra data, all length sizes 1 to 4 (H.265), all buffers with enough room.", "why_tests_cant": "A sample is a sequence of any number of units of any size, and what follows may be any bytes; tests convert single samples.", "anchors": ["hevc/util.go:Mp4ToAnnexB", "avc/util.go:Mp4ToAnnexB"]}
