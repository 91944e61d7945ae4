{"id": "C01", "title": "Base64 round trip, in any chunking", "statement": "Encoding any byte string with the incremental base64 encoder (the block call repeated over any split of the input, then the end call) and decoding the produced text with the incremental decoder (again over any split of the text) gives back exactly the original bytes.", "quantifier": "every byte string of every length, every way of cutting the input and the encoded text into successive calls", "why_tests_cant": "Infinitely many inputs and chunkings; the encoder/decoder carry a partial step across calls, so the interesting states depend on cut positions mod 3 and mod 4.", "anchors": ["src/b64/src/cencode.cpp: base64_encode_block, base64_encode_blockend", "src/b64/src/cdecode.cpp: base64_decode_block, base64_decode_value"]}
{"id": "C02", "title": "Base64 text is the standard one", "statement": "The encoder's output for n bytes is exactly the RFC 4648 text of those bytes: every 3-byte group becomes the four alphabet characters of its four 6-bit digits, the last partial group is padded with '=', so the length is 4*ceil(n/3), with no line breaks, independently of how the input is chunked.", "quantifier": "every byte string, every chunking", "why_tests_cant": "Requires comparison with an independent definition on unboundedly many inputs.", "anchors": ["src/b64/src/cencode.cpp: base64_encode_block, base64_encode_blockend, base64_encode_value"]}
{"id": "C03", "title": "Base64 decoding of hostile text stays inside its table", "statement": "For every character except '{' the decoder's character lookup stays inside its 80-entry table; characters outside the alphabet are skipped without changing the result. For '{' the lookup reads one entry past the table (refuted: the boundary test uses > instead of >=).", "quantifier": "every char value; every position of junk characters in the text", "why_tests_cant": "Out-of-bounds table reads are invisible to ordinary tests; junk may be inserted anywhere.", "anchors": ["src/b64/src/cdecode.cpp: base64_decode_value, base64_decode_block"]}
{"id": "C04", "title": "Bit reader returns the stream's bits, big-endian, in order", "statement": "Reading a memory buffer with any sequence of fixed-width bit reads (1..32 bits each) whose total fits in the buffer returns the successive bit fields of the buffer, most significant bit first, regardless of what bytes lie after the buffer; peeking does not consume; alignment skips to the next byte boundary.", "quantifier": "every buffer, every sequence of read widths with total <= buffer bits, every content of memory after the buffer", "why_tests_cant": "Unbounded sequences of widths and contents; over-read bytes must be shown irrelevant for all values.", "anchors": ["src/mg/core/bitstream.h: _nextbits, _getbits, _align, fill_buf", "src/mg/media/TBitstream.h: fixed_memory_bitstream"]}
{"id": "C05", "title": "Bit writer followed by bit reader is the identity", "statement": "Writing any sequence of (value,width) fields with the bit writer, flushing, and reading back fields of the same widths returns every value modulo 2^width; the bytes written are exactly the concatenated MSB-first bits (whole bytes only).", "quantifier": "every sequence of fields with widths 1..32", "why_tests_cant": "Carry of partial words across byte/word boundaries depends on the whole history.", "anchors": ["src/mg/core/bitstream.h: _putbits, _flush_buf, _flush, _getbits"]}
{"id": "C06", "title": "Little-endian helpers are inverse to each other", "statement": "Little-endian put of an integer on 0..4 bytes followed by little-endian get returns the integer; the bytes are in least-significant-first order.", "quantifier": "every integer below 2^(8n), every n <= 4, on a fresh stream", "why_tests_cant": "Infinite value domain.", "anchors": ["src/mg/core/bitstream.h: _little_get, _little_put"]}
{"id": "C07", "title": "Paged file reads return the file's content", "statement": "A buffered bit reader over a file, whatever the order in which its asynchronous page loads complete relative to the reads, delivers the bit fields of the file as long as the reads end two pages before its end; with synchronous storage and a field width dividing the page it is right up to the end of the file. Refuted otherwise: near the end of the file wrong values are delivered, and if the load of the next page is late the reader reports end of data in the middle of the file.", "quantifier": "every file content, page size and read sequence", "why_tests_cant": "Needs file sizes hitting page multiples with specific widths; unbounded content.", "anchors": ["src/mg/core/bitstream.h: fill_buf, read_cb, internal_read, reload, _nextbits"]}
{"id": "C08", "title": "Asynchronous file reads are delivered in request order exactly once", "statement": "When several read requests are outstanding and the I/O layer completes them in any order, with every completion successful, the client callback is invoked once per request, in request order, each with its own result. With failing completions the error can be attributed to another request (refuted by a 3-request schedule).", "quantifier": "every number of requests, every permutation of completion order, every result values", "why_tests_cant": "All interleavings of completions; tests see only the usual in-order one.", "anchors": ["src/mg/core/file.cpp: cfile::uv_file_cb, cfile::read"]}
{"id": "C09", "title": "Event wait/signal has no lost wake-up", "statement": "A thread that waits on an event after (or while) another thread signals it is eventually released. Refuted for the code: there is a schedule of one waiter and one signaller in which the signal is issued and the waiter blocks forever; the exact set of schedules that lose the wake-up is characterised.", "quantifier": "every interleaving of the waiter's and signaller's atomic steps", "why_tests_cant": "Thread schedules; the losing window is a few instructions wide.", "anchors": ["src/mg/core/thread.cpp: signal_event::wait, signal_event::signal"]}
{"id": "C10", "title": "A promise runs its continuation exactly once", "statement": "Whether the continuation is attached before or after the promise is resolved, it is called exactly once, with the resolved value; and never before resolution.", "quantifier": "every interleaving order of the set-callback and resolve calls on a promise, every value", "why_tests_cant": "Ordering of completion versus registration is schedule dependent.", "anchors": ["src/mg/promises.h: CPromise"]}
{"id": "C11", "title": "Growing a byte buffer preserves its content", "statement": "Every sequence of append/prepare/set-size operations on the growable byte buffer keeps the bytes already stored: the content is the concatenation of everything appended, and capacity always covers the size.", "quantifier": "every operation sequence and every growth step", "why_tests_cant": "Reallocation points depend on the history of sizes.", "anchors": ["src/mg/cbuffer.h: CBuffer"]}
{"id": "C12", "title": "Reference-counted handles free their object exactly once", "statement": "For every sequence of handle creations, copies, assignments and destructions (without self-assignment) the shared object is alive exactly while some handle refers to it, and destroyed exactly once when the last one goes. Self-assignment of the only handle destroys the object while it is still referenced (refuted).", "quantifier": "every sequence of handle operations over any number of handles and objects", "why_tests_cant": "Histories are unbounded; use-after-free is not visible in unit tests.", "anchors": ["src/mg/cresource.h: CResource"]}
{"id": "C13", "title": "Splitting a string loses nothing", "statement": "Splitting a string on a non-empty separator yields tokens whose join with the separator is the original string, and no token contains the separator; the 'replace' helper equals split on one string joined with the other. An empty separator never terminates.", "quantifier": "every string and every non-empty separator", "why_tests_cant": "Infinite string domain incl. overlapping separators and edge positions.", "anchors": ["src/mg/splitter.h: Csplitter, replace"]}
{"id": "C14", "title": "Hex text round trip", "statement": "Rendering any byte buffer as hex and extracting binary from that hex returns the same bytes; the hex text has two digits per byte.", "quantifier": "every byte buffer", "why_tests_cant": "Infinite domain.", "anchors": ["src/mg/alxstring.h: append_hex_buffer, extract_binary_hex"]}
{"id": "C15", "title": "Command-line option syntax", "statement": "An option given as '-name:value' or '-name=value' whose value contains no earlier ':' is recognised with exactly that name and value; a value containing ':' after '=' is split at the wrong place (refuted).", "quantifier": "every option name and every value text", "why_tests_cant": "Infinite text domain.", "anchors": ["src/mg/cmdline.h: console_command::process"]}
{"id": "C16", "title": "Duration text determines the duration", "statement": "The text h:mm:ss.mmm that a duration in 100 ns units renders to has two digits for minutes and seconds, three for milliseconds, and determines the duration to the millisecond: reading the numbers back gives the value truncated to milliseconds, and two durations with the same text differ by less than 1 ms. Negative durations render as '-' followed by the text of the absolute value. Refuted for the smallest 64-bit value, whose negation overflows.", "quantifier": "every 64-bit duration", "why_tests_cant": "2^64 values and carries between units.", "anchors": ["src/mg/media/hnano.h: HundredNano"]}
{"id": "C17", "title": "Section CRC", "statement": "The table-driven CRC computes the MPEG-2 CRC-32 (polynomial 0x04C11DB7, initial value all ones, msb first) of any byte string, at any alignment; it can be continued over chunks; data followed by its CRC has remainder 0; any corruption confined to at most 32 consecutive bits is detected. Refuted: two threads making the very first use at once, one can compute with a table that is only partly filled.", "quantifier": "every byte string, every buffer alignment, every cut into chunks, every burst of at most 32 bits; every interleaving of two first uses", "why_tests_cant": "Unbounded input; errors anywhere; a data race that no single run shows.", "anchors": ["src/mg/media/wincrc.cpp: crc functions", "src/mg/media/ts.h", "src/mg/media/tswrite.h"]}
{"id": "C18", "title": "Fixed-memory queue is FIFO", "statement": "The fixed-memory variable-size queue behaves as a FIFO: for every sequence of pushes, pops and clears the popped blocks are the pushed blocks in order, byte for byte, and size() is their number; a push is accepted exactly when there is room after the last block or before the first, and a refused push changes nothing. With drop-on-full enabled it removes the fewest oldest blocks that make room. The growing queue loses nothing, and a push fails only near 1 GB. Refuted: with drop-on-full a push that can never fit empties the queue and then fails.", "quantifier": "every sequence of push/pop/clear with every block size, every memory size and initial memory content", "why_tests_cant": "Wrap-around states of the ring depend on the whole history of sizes.", "anchors": ["src/mg/media/fixed_queue.h: cfixed_queue", "src/mg/media/media_queue.h: grow_queue"]}
{"id": "C19", "title": "Fixed-memory queue never writes outside its memory", "statement": "In every reachable state each live block lies inside the memory area after the header, does not overlap any other live block, and no byte outside the area was ever written. Refuted for blocks of 2 GB and more: the size computed in an int goes negative and the copy leaves the area.", "quantifier": "every operation history, every memory size", "why_tests_cant": "Memory safety over all histories.", "anchors": ["src/mg/media/fixed_queue.h: cfixed_queue::push, get_head_space, get_tail_space"]}
{"id": "C20", "title": "MPEG time stamps survive encoding", "statement": "A presentation, decoding or ESCR time written in a PES header is read back as that time cut to the millisecond, modulo 2^33 ticks of 90 kHz (so unchanged but for the cut during the first 26.5 hours). Every 33-bit clock value is converted to 100 ns units exactly (rounded down); with a 27 MHz extension the result is exact or one unit less, the latter only when the exact time is a whole number of units (exactness refuted).", "quantifier": "every time, every combination of stamps present, every 33-bit clock and every extension below 300", "why_tests_cant": "2^33 values times 300 extensions, computed with doubles; wrap included.", "anchors": ["src/mg/media/mp4/mpeg2ts.fl: MpegTime, PES_Packet", "src/mg/media/tswrite.h: CPESWrite"]}
{"id": "C21", "title": "TS packetisation preserves the payload", "statement": "Cutting data into transport packets yields 188-byte packets with sync byte 0x47 and the right PID whose payloads concatenate to the data, payload-unit-start, random access and PCR exactly on the first, continuity counter increasing by one modulo 16 from the previous packet of that PID; reading the packets gives the data back. Refuted for data exactly one byte smaller than the room of a first packet with random access (181 bytes, 175 with PCR): one byte after the data is read.", "quantifier": "every data size and content, every starting continuity counter, with/without PCR and random access flag", "why_tests_cant": "Unbounded sizes; the stuffing arithmetic has boundary cases at each size modulo 184.", "anchors": ["src/mg/media/tswrite.h: CTSWrite::output_ts"]}
{"id": "C22", "title": "PAT and PMT tables survive writing and reading", "statement": "The written table is a pointer field, a section laid out as ISO 13818-1 says whose declared length counts the bytes that follow, and the CRC of the section; every PAT or PMT section of the standard (any flags, version, reserved bits, program and stream descriptors), cut in packets after its header and before its declared length, is waited for and gives exactly its programs, or PCR PID, descriptors, streams; looking a PID up gives the type of the first stream with it. The library's own tables that fit in a packet come back the same with matching CRC. Refuted: a table whose last 1-4 bytes are in a later packet makes the reader throw (a PAT of 43 programs written by the library does); a wrong CRC is accepted; an H.264 stream is not recognised as video.", "quantifier": "every list of programs, streams and descriptors that fits the 12-bit length, every cut in packets", "why_tests_cant": "Unbounded configurations and cuts.", "anchors": ["src/mg/media/tswrite.h: output_sections_tables", "src/mg/media/ts.h: psi, ProgramAssociationTable, ProgramMapTable", "src/mg/media/mp4/mpeg2ts.fl: Program_Association_Section, Program_Map_Section"]}
{"id": "C23", "title": "PES length field", "statement": "The PES packet length read back equals the number of bytes following it when these fit in 16 bits and the body is not empty, and is 0 (open) for a body of 65535 bytes and more. Refuted in between: when header and body exceed 65535 bytes but the body alone does not, the declared length is 65536 too small.", "quantifier": "every body size and combination of header stamps", "why_tests_cant": "The window is a handful of sizes out of 2^32.", "anchors": ["src/mg/media/tswrite.h: CPESWrite::close_pes"]}
{"id": "C24", "title": "TS reassembly is inverse to packetisation", "statement": "For one PID, the transport packets of any sequence of PES units of open length followed by any sequence of units of declared length (one stream id), cut in packets in any way, are reassembled to exactly the bodies of the units in order; in particular those written by the library's own packetiser. Refuted otherwise: a unit of open length after one of declared length is never delivered; a packet without payload after a unit of declared length delivers that unit twice.", "quantifier": "every sequence of units, every content and size, every cut into packets", "why_tests_cant": "Histories and sizes are unbounded.", "anchors": ["src/mg/media/ts.h: tspacket, ts_pes", "src/mg/media/tswrite.h"]}
{"id": "C25", "title": "Emulation-prevention removal", "statement": "For every H.264 payload (RBSP) escaped after its header byte as the standard says, decoding the NAL restores it when the payload does not end in the byte 3; a payload ending in 3 always loses that byte (refuted). On any bytes the output fits in the buffer prepared for it, and decoding in place gives the same result.", "quantifier": "every byte sequence", "why_tests_cant": "Unbounded contents with adjacent/overlapping 00 00 03 patterns.", "anchors": ["src/mg/media/h264nal.h: decode_nal"]}
{"id": "C26", "title": "Joining clips keeps audio and video in sync without overlap", "statement": "The join time computed for appending a clip is, for each stream, not earlier than the end of that stream so far; the shift applied is the same for all streams (relative sync of the appended clip preserved); and it is the least such shift.", "quantifier": "every number of streams, every start and end times", "why_tests_cant": "All combinations of streams/time relations.", "anchors": ["src/mg/media/MediaJoin.h: CMediaJoin"]}
{"id": "C27", "title": "DASH SegmentTimeline describes exactly the segments", "statement": "Expanding the S elements (t, d, r) produced for a sequence of segments by the DASH rules yields exactly the sequence of (start,duration) given to the renderer, including gaps.", "quantifier": "every sequence of segments", "why_tests_cant": "Run-length compression over unbounded sequences.", "anchors": ["src/mg/media/mpd_renderer.h: add_point, end_stream"]}
{"id": "C28", "title": "DASH duration text denotes the duration", "statement": "The presentation duration attribute is whole seconds, a point and a fraction, and the whole seconds are right; refuted: the fraction is printed without zero padding and modulo the wrong unit, so the text denotes the duration exactly when the duration is a whole number of seconds (1.5 s prints as 1.0 s).", "quantifier": "every duration below 2^64", "why_tests_cant": "Only some residues show the error.", "anchors": ["src/mg/media/mpd_renderer.h: begin"]}
{"id": "C29", "title": "HLS media playlist", "statement": "For any audio streams followed by a video stream, the media playlist of a bit rate lists, after the header, exactly one entry per segment in order with the segment's address, and is closed by the end tag; the target duration covers every segment that is no longer than the first one when durations are whole seconds. Refuted: a 1.9 s segment is announced under a target of 1 s; segment durations are right only for whole seconds; with a second video stream its list is appended after the end of the first; when an audio stream comes last the list is not closed.", "quantifier": "every sequence of segments, stream names, keys", "why_tests_cant": "Depends on all later segments and streams.", "anchors": ["src/mg/media/hls_renderer.h: add_point, begin_stream, end, get_bit_rate_body"]}
{"id": "C30", "title": "HLS segment encryption is invertible", "statement": "For every clear segment and any block cipher with an inverse, the produced ciphertext has length size+16-size%16 and standard CBC decryption with the media-sequence IV plus PKCS#7 unpadding returns the clear segment.", "quantifier": "every segment content, key, sequence number and every invertible 16-byte block function", "why_tests_cant": "Infinite content; padding boundary cases at each residue mod 16.", "anchors": ["src/mg/media/hls_renderer.h: hls3_encrypt_buffer"]}
{"id": "C31", "title": "Dynamic stream index is contiguous", "statement": "Whatever points are added in whatever order, the segments announced follow each other without gap or overlap from the first to the last time, every time but the last starts one, each carries the original time last given for it, and their durations sum to the duration announced; the DASH and the Smooth manifest read back as exactly these segments; rebasing a presentation is as if every time had been added moved by one common non-negative amount, after which no stream starts before 0. Refuted: the Smooth manifest announces one segment more than it lists; the times inside a point joining two files are not moved by rebasing; an empty stream reads the first entry of an empty map.", "quantifier": "every sequence of additions (points, file starts, joining points), every offset", "why_tests_cant": "Unbounded sets and insertion orders.", "anchors": ["src/mg/media/mp4dynamicinfo.h: DynamicPoints, DynamicPresentation::rebase, SSFRenderer"]}
{"id": "C32", "title": "Looking up a time in a dynamic stream", "statement": "Looking up a time returns a time of the index at minimal distance and fails past the last one (two or more points); the end of a segment in its file is where the next one starts in the file or, when another file starts in between, its own start plus its duration; the file in force is the one added with the greatest start not after the time. Refuted: with a single point the search steps past the end of the map; before a point joining two files the end is -2^63.", "quantifier": "every index and every time", "why_tests_cant": "Unbounded.", "anchors": ["src/mg/media/mp4dynamicinfo.h: get_closest, get_end, DynamicBitrate::get_path"]}
{"id": "C33", "title": "Cutting a dynamic stream into segments", "statement": "For a stream with key frames the first key frame starts a segment and each segment ends at the first key frame at least length minus tolerance later (tolerance at most the length). For a stream without (audio), over any number of files of at least two segments each, the segments are exactly the consecutive groups of n samples of all the files together, an incomplete group at the end of a file being joined with the start of the next; the end of a stream is the end of its last-presented sample. Refuted: with a tolerance larger than the length the whole stream is one segment; a short file yields a short segment in the middle; with two audio streams the samples left over by one are joined into the other; starting one unit after any audio sample the publisher never ends; the original end time of a stream is wrong for an odd number of equal samples; a single sample at 0 has no duration.", "quantifier": "every sequence of key frames, files, sample counts, lengths and tolerances", "why_tests_cant": "Unbounded sample sequences and files.", "anchors": ["src/mg/media/mp4dynamic.cpp: publish_composition, publish_no_random_stream, move_to_read", "src/mg/media/mp4dynamic.h: CMP4EmptyMux, info_process_sample"]}
{"id": "C34", "title": "Sample tables round trip", "statement": "Any samples of different sizes at any places of the file, written as sample sizes, chunks and chunk offsets, are read back with the same sizes and places; samples which follow each other in the file share a chunk. Refuted when all samples have one size: a size table is announced but not written, and for a single sample the reader finds a size which was never written and no place. A track without samples is written readably only if that is allowed.", "quantifier": "every list of samples with sizes and offsets in range", "why_tests_cant": "Unbounded lists; run-length encodings go wrong only at particular boundaries.", "anchors": ["src/mg/media/mp4write.h: write_stsz, write_stsc, write_co64", "src/mg/media/mp4parse.h: parse_stsz, parse_stsc, parse_stco"]}
{"id": "C35", "title": "MP4 timing tables round trip", "statement": "Two or more samples: each decoding time written, in double precision, is read back within a tick, a unit of 100 ns, and one more unit of 100 ns for every sample before it; composition times are read back with one more tick of error and in presentation order, and the composition table is left out exactly when it says nothing. Refuted: the error grows without limit unless a tick is a whole number of units of 100 ns; a time which is a whole number of ticks may be read one tick early; a sample presented before the first makes the reader look before the beginning of its list; a single sample is read as two.", "quantifier": "every number of samples, every nondecreasing times with gaps below 2^51 tick units, every time scale", "why_tests_cant": "Run-length coding over unbounded sequences; accumulated rounding; double precision.", "anchors": ["src/mg/media/mp4write.h: write_stts, write_ctts, time_scale, get_hnano", "src/mg/media/mp4parse.h: parse_stts, parse_ctts, add_ordered, get_composition_time"]}
{"id": "C36", "title": "Key-frame table round trip", "statement": "A sample is reported as a key frame after reading exactly when it was written as one, when there is one; the search for a key frame finds the last at or before a sample, and going on the first after it (or the last again if there is none). Refuted without key frames: every sample is reported as one.", "quantifier": "every set of key frames", "why_tests_cant": "Unbounded.", "anchors": ["src/mg/media/mp4write.h: write_stss", "src/mg/media/mp4parse.h: parse_stss, is_IFrame, get_IFrame_number, get_next_IFrame_number"]}
{"id": "C37", "title": "Automatic decoding times are valid", "statement": "Decoding times derived from presentation times start at the earliest, never go back, advance by the time since the presentation just before, and are never later than the presentation time of the same sample with the offset, which is no larger than needed; for distinct times decoding ends at the latest presentation, and no offset is needed exactly when samples are presented in decoding order. Refuted: a sample presented first of all but not decoded first is decoded together with the one before; samples presented together are counted twice and decoding goes beyond the last presentation.", "quantifier": "every list of presentation times in any order", "why_tests_cant": "All reorderings of unbounded lists.", "anchors": ["src/mg/media/mp4write.h: get_auto_decoding_duration, compute_auto_decoding_time"]}
{"id": "C38", "title": "Interleaving keeps every sample of every stream", "statement": "After any sequence of samples given to the streams of an mp4 file, what is noted as written for a stream followed by what still waits is what was given to it, in order; the file is exactly the bodies written, one after the other, each at the place noted; every call returns; after every call some stream has nothing waiting, and a single stream is written at once. Refuted: samples still waiting at the end are never written, and a stream that gets no sample keeps the samples of all others out of the file.", "quantifier": "every number of streams, interleaving distance and history of samples", "why_tests_cant": "All histories of unbounded length over any number of streams; the writing loop has to terminate for each.", "anchors": ["src/mg/media/mp4write.h: MP4Write::add_sample, min_stream, CMP4Stream::write_samples, queue_sample", "src/mg/media/mp4mux.h: MP4Mux::end"]}
{"id": "C39", "title": "Boxes are written with their sizes and can be walked", "statement": "Any nesting of boxes below 2^32 bytes, written by opening, closing and child boxes, comes out as size, type and content of each, and splits into boxes in exactly one way; the reader finds a box's type and place, and skipping a box leads to its end. Refuted: the reported end of a uuid box is 16 bytes early; skipping a box with a 64-bit size ends 8 bytes inside the next one; a box of 2^32 bytes or more is written with a truncated size.", "quantifier": "every nesting of boxes, every content and every place in a file", "why_tests_cant": "Unbounded nesting and sizes; back-patched sizes depend on everything written in between.", "anchors": ["src/mg/media/mp4write.h: CMP4W", "src/mg/media/mp4parse.h: CMP4::do_box, skip_current, skipbytes, get_box_position_end", "src/mg/media/mp4/mp4.fl: Box"]}
{"id": "C40", "title": "Encrypted samples decrypt to the originals and no key stream repeats", "statement": "For every block cipher, every first initialisation vector and every list of samples in a fragment, encryption keeps the size of each sample, follows the standard's counter mode with the vector going up by one per sample, and decrypting with the vector and the clear and protected sizes noted returns the sample; no two blocks in the fragment use the same counter block; video samples keep 96 to 111 clear bytes and whole protected blocks, short ones stay clear, audio is encrypted whole.", "quantifier": "every block cipher, initialisation vector, number of samples and sample contents", "why_tests_cant": "All contents and vectors, including those whose counters wrap; absence of key stream reuse is a statement about all pairs of blocks.", "anchors": ["src/mg/media/mp4fragmented.h: CMP4Fragment::encrypt, counter8, counter, add_sample", "src/mgcli/mp4info.cpp: decrypt"]}
{"id": "C41", "title": "Fragments are read back as they were written", "statement": "Any number of fragments written one after the other, clear or encrypted with the key the reader has, are read back with the same samples: same bodies, decoding times counted from the fragment's base by the durations, composition offsets of video kept, with negative ones, for any rounding of times to the time scale; with time scale 10^7 and no gaps exactly the samples written. What is added is styp, sidx, moof, mdat; the sidx size covers moof and mdat, the data offset points at the mdat content, the saio offset at the senc entries. Refuted: the presentation time in the index wraps after 2^32 ticks; a clear fragment after an encrypted one is read as if encrypted; a fragment without samples is undefined.", "quantifier": "every number of fragments, of samples, every content, times within the field widths, key, vector and time scale rounding", "why_tests_cant": "Offsets patched into earlier bytes, nested box sizes and the reader's carried state must agree for every number and size of samples.", "anchors": ["src/mg/media/mp4fragmented.h: CMP4Fragment::end, add_sample, start", "src/mg/media/MOOFReader.h: parse, parse_boxes, get_base_offset, get_sample_composition_time_offset", "src/mg/media/mp4/mp4_fragments.fl", "src/mg/media/mp4/cenc.fl", "src/mgcli/mp4info.cpp: do_moof_mux"]}
{"id": "C42", "title": "Appending clips: sync, no loss, no overlap", "statement": "Appending a range of an mp4 file to the result moves every sample of every stream by one common amount (audio and video stay in sync); the samples copied are exactly those of the range, in order, when the streams are stored in decoding order; and for any number of clips, in each stream no sample of a later clip is presented before the end of the last-presented sample of an earlier one, when presentation reorders within the look ahead and each clip gives each stream a sample presented after time 0. Refuted: a clip whose only sample is presented at 0 is overlapped by the next; a stream without samples in a clip goes back in time in the next; B frames end up decoded after they are presented; a clip of 20 samples or fewer cannot be appended; deeper reordering overlaps.", "quantifier": "every sequence of files, streams, times, ranges", "why_tests_cant": "Unbounded sequence of files and samples.", "anchors": ["src/mg/media/mp4edit.cpp: do_edit_mux", "src/mg/media/MediaJoin.h: CMediaJoin"]}
{"id": "C43", "title": "Range lookup", "statement": "Looking up a key in a non-empty sorted range table ends and finds the first entry whose key is not below the one asked, or the last entry if there is none, and the result code says whether the key lies before the first key, after the last or neither. Refuted for an empty table, whose first entry is read all the same.", "quantifier": "every strictly increasing table and every key", "why_tests_cant": "Unbounded tables; termination.", "anchors": ["src/mg/media/mp4parse.h: CRangeMap::get"]}
{"id": "C44", "title": "Block byte read from a memory stream", "statement": "Reading a block of n bytes at a byte-aligned position of a memory buffer returns the next n bytes, or all the remaining ones when fewer are left. Refuted: when 1 to 3 bytes would remain after the block the reader reports end of data instead.", "quantifier": "every buffer, every byte-aligned position reached by any reads, every block size", "why_tests_cant": "The failing sizes depend on the distance to the end of the buffer.", "anchors": ["src/mg/core/bitstream.h: read"]}
{"id": "C45", "title": "Strings behave as values", "statement": "If every append goes to a string that shares its text with no other variable, each string variable reads as its own independent value, stays NUL-terminated in its buffer, and no memory error occurs. Refuted without that restriction: after b = a, b += x also changes a; and s += s can read freed memory.", "quantifier": "every history of construction, assignment, copy, append, clone and concatenation over any number of string variables", "why_tests_cant": "Whether a change leaks depends on the whole sharing history.", "anchors": ["src/mg/alxstring.h: CstringT (copy, operator=, operator+=, clone, operator+)", "src/mg/cbuffer.h"]}
{"id": "C46", "title": "Sub-strings", "statement": "A sub-string inside the text is exactly that slice, and from offset 0 an over-long request is clipped to the text. Refuted: from any other offset an over-long request reads outside the buffer.", "quantifier": "every text, offset and length", "why_tests_cant": "Unbounded text and offsets.", "anchors": ["src/mg/alxstring.h: subString"]}
{"id": "C47", "title": "Reading a transport packet", "statement": "Every 188-byte transport packet with sync byte, no error indication and an adaptation field without private data or extension is read as ISO 13818-1 says: PID, unit start, continuity counter, random access, PCR and payload, leaving the input exactly after the packet; the PCR written with a unit reads back as its time cut to the millisecond. Refuted with private data: the payload is shifted and the next packet's sync byte is consumed.", "quantifier": "every packet content, every continuation", "why_tests_cant": "2^1500 packets.", "anchors": ["src/mg/media/mp4/mpeg2ts.fl: TransportPacket, Adaptation_Field"]}
{"id": "C48", "title": "Reassembly stays inside the packet", "statement": "Adding packets to the reassembler never reads outside the packet as long as every adaptation field declared together with a payload is at most 183 bytes long. Refuted for damaged input: nothing rejects a longer declared field, and the reassembler then reads outside the packet.", "quantifier": "every history of packets", "why_tests_cant": "Any damaged packet at any point.", "anchors": ["src/mg/media/ts.h: tspacket::add, ts_pes"]}
{"id": "C49", "title": "Filler packets", "statement": "Filling up a PID emits fewer than 16 valid packets of that PID with successive continuity counters and no data and leaves the counter a multiple of 16. Refuted: they are announced as carrying payload, and each makes the reader deliver a preceding unit of declared length once more.", "quantifier": "every PID and counter", "why_tests_cant": "Every counter value and history before it.", "anchors": ["src/mg/media/tswrite.h: CTSWrite::fill_pid", "src/mg/media/ts.h: tspacket::add"]}
{"id": "C50", "title": "Codec names in manifests", "statement": "The RFC 6381 codec name in DASH and HLS manifests gives the profile and level of the sequence parameter set. Refuted for the constraint flags: the middle byte is right only when it is 0.", "quantifier": "every sequence parameter set", "why_tests_cant": "All byte triples.", "anchors": ["src/mg/media/mpd_renderer.h: codec name", "src/mg/media/hls_renderer.h: codec name"]}
{"id": "C51", "title": "Seeking a time in an mp4 track", "statement": "For every table of decoding times with positive durations a time within the track leads to the sample decoded then, and by composition time to the latest sample presented at or before it. Refuted: after the end a sample which does not exist (or sample 0) is found; the time reported for a sample in units of 100 ns leads to the sample before when it is not a whole number of units; without a composition table a time inside the first sample leads to it but a time inside another leads to the next.", "quantifier": "every table, every time", "why_tests_cant": "Unbounded tables; integer division at every boundary.", "anchors": ["src/mg/media/mp4parse.h: get_decoding_sample_number, get_composition_sample_number, get_decoding_time"]}
{"id": "C52", "title": "Levelling keeps streams in sync", "statement": "Streams whose first samples start at different times are written, with an edit list or by shifting the composition offsets, so that every sample of every stream is presented at its composition time plus one shift common to all streams, nothing before time 0 or before it is decoded; the offset written in the edit list is read back up to a tick of the movie time scale. Refuted: a stream decoded from before the decoding start of the stream presented first is late by the difference; offsets of 2^32 ticks wrap; the edit list ends before the last sample; a stream without samples gets an offset near 2^64.", "quantifier": "every number of streams and samples, every time below 2^62, both ways of levelling, every time scale", "why_tests_cant": "The shift must agree between streams for every combination of start times, offsets and number of streams.", "anchors": ["src/mg/media/mp4write.h: level_start_time, min_stream_start_number, write_edts", "src/mg/media/mp4parse.h: parse_elst"]}
{"id": "C53", "title": "Samples are read in file order", "statement": "Reading a movie sample by sample sees every remaining sample of every stream once, each stream in its own order, and ends; if samples do not overlap and streams are stored in order, the samples are seen in the order of the file, from the start or after a seek; no sample outside the media data is handed out. Refuted: a damaged entry costs one sample (reading stops there and everything after it is lost).", "quantifier": "every number of streams and samples, every placement in the file, every position the streams were moved to", "why_tests_cant": "Completeness must hold for every interleaving of the streams and every seek position.", "anchors": ["src/mg/media/mp4parse.h: next_file_chunks, pick_sample, move_next"]}
{"id": "C54", "title": "Cutting fragments out of a movie", "statement": "A fragment cut from an audio track holds exactly the samples presented in the span asked for, and consecutive cuts partition the track; a fragment cut from a video track at key frames of closed groups holds exactly the group; the first sample is presented at the base time given. Refuted: with open groups of pictures the leading pictures of the next group are in no fragment; a key frame is lost when a later key frame is decoded before it is presented; without a base time a fragment whose first sample is presented after its start is early by the difference.", "quantifier": "every movie with sound tables, every interleaving, every span and list of cuts", "why_tests_cant": "Losing or doubling a sample at a cut depends on the cut time, the offsets, the key frames and the interleaving together.", "anchors": ["src/mg/media/mp4parse.h: move, get_IFrame_number", "src/mg/media/mp4fragmented.h: add_frames_to_m4f"]}
{"id": "C55", "title": "H.264 samples come back from a transport stream", "statement": "The access units written for the samples of an H.264 track (delimiter, parameter sets before key frames, units after start codes), when the first sample is a key frame, are read back as the same samples without delimiters and parameter sets (the same bytes if the samples hold none), together with the two parameter sets; also through PES and TS packets. Units after start codes of 3 or 4 bytes are found with their bytes. Refuted: a payload without start code or with one at its end stops the reader with an exception; a first access unit without parameter sets adds a sample to no stream; a unit length beyond the end of the sample makes the writer read outside it.", "quantifier": "every sequence of samples, every units without start code inside, every parameter sets, every packet cut", "why_tests_cant": "Start codes can straddle any boundary; only a proof over all unit contents shows that no unit is split or merged.", "anchors": ["src/mg/media/tsmux.h: TSMuxH264Stream::add_sample, process_nal", "src/mg/media/tsparse.h: TSProgramElementaryStreamAnalyzeH264::ReceiveElementaryStreamData", "src/mg/media/tsinfo.cpp: TS2MP4H264"]}
{"id": "C56", "title": "AAC frames come back from a transport stream", "statement": "AAC frames of 2 to 8184 bytes written with an ADTS header are read back with their bytes, object type (1 to 4), rate and channels, one per packet or many in one packet; frames by other writers, with or without checksum, are read as well. Refuted: another object type comes back as a different one; a longer frame never comes back, nor a shorter one; times of frames after the first in a packet are exact for 8000 and 16000 Hz only, else too early by an amount that grows with the number of the frame (bounded by 1024 ticks a frame).", "quantifier": "every frame content (including one that looks like a header), every list of frames, every rate and channel number in the tables", "why_tests_cant": "The reader searches for a sync word, so correctness depends on every byte value of every frame.", "anchors": ["src/mg/media/tsmux.h: TSMuxAACStream::add_sample", "src/mg/media/mp4/aac.fl: ADTS", "src/mg/media/tsparse.h: TSProgramElementaryStreamAnalyzeAAC::ReceiveElementaryStreamData", "src/mg/media/tsinfo.cpp: TS2MP4AAC"]}
{"id": "C57", "title": "What the demultiplexer hands on", "statement": "From a transport stream (PAT, PMT, then the packets of the streams interleaved in any way, among them packets without data: fillers, PCR only) every unit of a stream is handed on once, whole, with its time stamps and in order, if the last declares its length; what a stream gives depends on its own packets only; reading goes on to the end without exception. If all units declare their lengths, each comes with its own random access indicator, so units written by the library as key frames, and only they, come back as key frames. Refuted: a last unit of open length (65535 bytes or more) is never handed on; the unit after one of open length comes with that one's key frame flag; a video stream with no unit of 100 bytes or an audio stream with none of 30 gives nothing.", "quantifier": "every interleaving of packets, every number of streams, every sequence of units and cut in packets", "why_tests_cant": "The number of interleavings is unbounded and state is kept per stream between packets.", "anchors": ["src/mg/media/tsparse.h: CTSProcessor::process, tspacket::add", "src/mg/media/ts.h: TSProgramElementaryStreamAnalyze::process, LookUp, Receive", "src/mg/media/tsinfo.cpp: TS2MP4H264::PacketEnd"]}
{"id": "C58", "title": "The samples of a transport stream segment come back", "statement": "The samples given to the transport stream multiplexer for any number of video and audio streams, in any order, make a segment from which the demultiplexer and the stream readers give back, for each stream, exactly its samples in order: bytes, key flag, composition and decoding time (plus the offsets set, cut to the millisecond), and for audio the object type, rate and channels. With large pictures (65535 bytes and more) bytes and times still come back unless the last is large. The HLS multiplexer moves all samples of a segment by the same amount, so that the first is at the time given for the segment. Refuted: the last picture, if large, is lost; the picture after a large key frame is taken for a key frame; a time code stream takes another stream's place in the PMT and the last stream is not announced; in a segment starting at 0 the decoding time of a first picture composed after it is decoded wraps around.", "quantifier": "every list of streams (up to 33), every sequence of calls on them, all sample contents and sizes, times, continuity numbers, with and without filling up", "why_tests_cant": "Streams, samples and sizes are unbounded, and multiplexer, packetiser, tables, demultiplexer and both readers have to agree on every byte.", "anchors": ["src/mg/media/tsmux.h: TSMux::add_sample, add_visual_stream, add_audio_stream, add_extension_ltc_stream, stuff_streams, TSMuxH264Stream, TSMuxAACStream, HLSMux", "src/mg/media/tswrite.h: CTSWrite", "src/mg/media/tsinfo.cpp: TS2MP4H264, TS2MP4AAC"]}
{"id": "C59", "title": "Continuity counters across segments", "statement": "In a segment the packets of every PID carry successive continuity counters; so they do in segments one after the other, when they are filled up and numbered on (with an 8 bit number) as the HLS tool does, whatever streams and samples they hold.", "quantifier": "every sequence of segments, every sequence of samples in each, every PID", "why_tests_cant": "A discontinuity depends on the number of packets of all samples before it modulo 16.", "anchors": ["src/mg/media/tsmux.h: TSMux::set_section_continuity, stuff_streams", "src/mg/media/tswrite.h: CTSWrite::output_ts, output_sections_tables, fill_pid", "src/mg/media/tsinfo.cpp: HLS loop 940-1110"]}
{"id": "C60", "title": "Clock references of a segment", "statement": "The program clock references in the packets of a segment are exactly those of its video key frames in order, on their PID, at their decoding times (90 kHz units of whole milliseconds, extension 0). The second packet is the PMT; read back, it announces exactly the streams with their types, and the first video stream as the one carrying the references. Refuted: a segment without video has no clock reference at all and announces PID 0.", "quantifier": "every list of streams, every sequence of samples", "why_tests_cant": "Which packets carry references depends on every sample; a test sees a few.", "anchors": ["src/mg/media/tsmux.h: TSMux::add_sample, add_visual_stream, TSMuxH264Stream::add_sample", "src/mg/media/tswrite.h: CTSWrite::output_ts, set_pcr_pid, add_pam"]}
{"id": "C61", "title": "An mp4 file written is read back", "statement": "After any history of samples given to the streams of the mp4 writer, finishing gives a file, and opening it (if shorter than 2^32 bytes) gives the movie: as many streams, in order, each with its handler, time scale, language, number, picture size or rate and channels; the decoder configuration of pictures says the profile, level and parameter sets given, that of sound the object type, rate and channels given; every sample is found at its place in the body, with its size and its bytes; decoding and composition times come back up to a tick (plus one unit of 100 ns per sample), all the streams on one clock; a sample lasts until the next one is decoded, the last one as long as the one before; exactly the key frames marked; durations to a tick; the media data box holds the body and ends the file. Conditions: fields fit, conforming decoder configurations (what add_video_stream and add_audio_stream make), two samples or more per stream, not all of one size, no sample presented before the first. Refuted without: all samples of one size or a picture presented before the first make a file that cannot be opened; 96000 Hz is read as 30464 Hz in the sample entry.", "quantifier": "every history of samples, any number of streams, every setting that fits the fields of the file, every conforming decoder configuration", "why_tests_cant": "The file is the result of every call so far: the place of each sample depends on the interleaving and on the size of all the tables before it.", "anchors": ["src/mg/media/mp4mux.h: MP4Mux::end, flush_all", "src/mg/media/mp4write.h: MP4Write::write_moov, rebase_streams, CMP4Stream::write_stream, write_stbl, write_edts, level_start_time", "src/mg/media/mp4parse.h: MP4Reader::parse, CPM4Track::parse_boxes, CMP4Handler::parse, CMP4VisualEntry::parse, CMP4AudioEntry::parse"]}
{"id": "C62", "title": "H.264 parameter sets are read as the standard writes them", "statement": "Every sequence parameter set of ITU-T H.264 (7.3.2.1.1 with VUI and HRD parameters, any picture order type, any profile, cropping, fields) and every picture parameter set (7.3.2.2), escaped in a NAL unit, comes back with every field as encoded; Exp-Golomb codes up to 30 leading zeros and signed ones up to 2^23 are exact. Refuted: ue(v) from 2^31-1 on is undefined behaviour, se(v) beyond 2^23 changes sign (float), profiles 44, 83 and 86 and sets with a scaling matrix are misread, a unit whose payload ends with a byte 3 makes the reader throw, explicit slice group maps are misread.", "quantifier": "all parameter sets, as bits of any length, with any number of HRD entries, offsets and slice groups", "why_tests_cant": "A field is read where all the variable-length fields before it end: the space of sets is unbounded in size and combinations.", "anchors": ["src/mg/media/mp4/h264.fl: exp_ue_golomb, exp_se_golomb, hrd_parameters, vui_parameters, H264Sequence, pic_parameter_set_rbsp", "src/mg/media/h264nal.h: decode_nal", "src/mg/media/mp4parse.h: CAVCCHeader"]}
{"id": "C63", "title": "The decoder configuration of a stream made of two parameter sets", "statement": "From a sequence and a picture parameter set (up to 256 bytes each) the writer makes the avcC record of ISO/IEC 14496-15 with their profile and level and 4-byte sample lengths; reading it back gives the same bytes and the same fields; any record with several sets is read with all of them. Codec private data (two sets after their 2-byte lengths) split into the two sets. Width and height are those of the pictures when these are progressive and not cropped. Refuted: 1080p is declared 1088, interlaced pictures have half their height; the compatibility byte is 0 or 1 (|| for |); with several sets the bytes returned for the first are a mixture; longer sets overflow.", "quantifier": "all parameter sets of up to 256 bytes, all records of up to 31 and 255 sets", "why_tests_cant": "The record depends on a bit-level parse of arbitrary sets; tests use the few sets at hand.", "anchors": ["src/mg/media/mp4write.h: AVCDecoderConfigurationRecordFromSPSandPPS, add_visual_stream", "src/mg/media/mp4/mp4.fl: AVCDecoderConfigurationRecord", "src/mg/media/mp4parse.h: CAVCCHeader"]}
{"id": "C64", "title": "The audio decoder configuration of a track is read back", "statement": "add_audio_stream(object type, rate, channels, bit rate) makes an esds box laid out as ISO/IEC 14496-1 says (ES, decoder configuration, decoder specific info and SL descriptors with right sizes, bit rates, AudioSpecificConfig); opening a file with any conforming esds box (sizes on 1 to 4 bytes, dependsOn, URL and OCR fields, trailing descriptors and boxes) gives the object type, rate and channels of its AudioSpecificConfig, in particular those given to the writer; codec private data are taken as the values they encode. Refuted: channel configurations from 8 on lose a bit, explicit frequencies and object types from 32 on are misread, a box without SL descriptor makes the reader throw, one without decoder specific info makes it follow an unset pointer, private data are not copied (flags are lost).", "quantifier": "all object types up to 30, all rates and channel numbers of the tables, all bit rates; all conforming descriptors of any size", "why_tests_cant": "The place of each field depends on the variable-length sizes and optional fields before it: the space is unbounded.", "anchors": ["src/mg/media/mp4/mpeg4_odf.fl: descriptor, extension_descriptor, DecoderConfigDescriptor, SLConfigDescriptor, ES_Descriptor, set_extension", "src/mg/media/mp4/aac.fl: aac_info_mp4", "src/mg/media/mp4write.h: add_audio_stream", "src/mg/media/mp4parse.h: CMP4AudioEntry::parse"]}
{"id": "C65", "title": "The bit reader can be positioned anywhere", "statement": "get_position, set_position and skipbits on a memory stream behave as a bit string with a cursor: a position set from a byte boundary is the byte it names (or the end), a skip moves by that many bits (or to the end), position queries name the byte under the cursor, and every field read afterwards is the field there; a field past the end raises EndOfData. The same holds on a file read by pages wherever two pages follow, when the outstanding read has been called back before each move (byte-wise readers may set positions under any schedule) and skips are shorter than a page. Refuted: a position set from inside a byte keeps the bit offset; a skip past the page in reserve, or before it has arrived, goes twice as far; with a read outstanding and bytes left over in reserve a position set lands elsewhere and a skip times out.", "quantifier": "all buffers and files, all page sizes from 8 bytes, all sequences of reads, skips, moves and position queries, all moments at which the asynchronous read completes", "why_tests_cant": "The page, the reserve page and the outstanding read give the reader a state that depends on the whole history of calls and on the scheduler.", "anchors": ["src/mg/core/bitstream.h: _set_position_read, _get_position, _skipbits, reload, fill_buf, read_cb", "src/mg/media/TBitstream.h: fixed_memory_read", "src/mg/core/file.h: cfile"]}
{"id": "C66", "title": "What is written through a bit stream is what the memory or file holds", "statement": "Whatever sequence of bit fields, byte blocks, set_position calls to places already written, flushes and get_position calls is made on a memory bit stream (from byte boundaries for blocks and moves), no step leaves the allocated block, get_position names the byte under the cursor, and get_buffer()/get_size() show exactly the session's bits, overwritten where the session went back. A file holds the same when its writes are carried out in the order issued, and in any order if no position was set. Refuted: after a move back (a box size set afterwards) an asynchronous file may keep the older bytes, as nothing orders the writes; bits of an unfinished byte are carried to the new place by set_position and past a block by write_direct.", "quantifier": "all sessions, all page sizes from 5 bytes, all initial capacities, all orders of completion of the asynchronous writes", "why_tests_cant": "The page, the growth of the block and the thread pool interleave with any session; the bytes concerned depend on all three.", "anchors": ["src/mg/core/bitstream.h: _putbits, _flush_buf, _flush, _set_position_write, _write_direct, _get_position", "src/mg/media/TBitstream.h: fixed_memory_write, write_memory_bitstream", "src/mg/cbuffer.h: CBuffer, ResetBuffer", "src/mg/core/file.cpp: cfile::write"]}
{"id": "C67", "title": "Demultiplexing a written movie gives every sample back", "statement": "After any history of samples given to the streams of the mp4 writer, under the conditions of C61 and for times of less than 2^62 / 10^7 ticks, finishing, opening the file and reading sample after sample until the end gives every sample that was written, of every stream, exactly once, each stream in its order, and nothing else: its bytes, whether it is a key frame, its decoding time from the first sample on and its composition time (with the delay the reader announces for the stream) in units of 100 ns, up to a tick, rounding and the millisecond clock of the delay, with one shift per stream as in C61; it lasts until the next sample, to a unit. If no sample is empty, all streams together come in the order of the file: the bytes read one after the other are the body, byte for byte. (Samples still waiting in a queue when the file is finished are not written at all: C38.)", "quantifier": "every history of samples, any number of streams, every setting and sample that fits the file", "why_tests_cant": "It joins the writer, the tables, the reader and the search for the next sample; any history of calls decides how the streams are interleaved.", "anchors": ["src/mg/media/mp4parse.h: MP4Reader::next_file_chunks, CPM4Track::pick_sample, get_stream_offset, move_next", "src/mg/media/mp4fragmented.h: add_frames_to_m4f", "src/mg/media/mp4mux.h: MP4Mux::end", "src/mg/media/mp4write.h: MP4Write::add_sample"]}
{"id": "C68", "title": "Opening any mp4 file ends", "statement": "Whatever bytes a file holds, opening it with MP4Reader::parse ends (by returning or by an exception) after a number of boxes bounded from the length of the file, unless the reader meets an mdat or free box whose size makes it end where it starts or before, or a track, media information box, time code track or sample entry that says it goes on after the end of the file. Refuted without that condition: an mdat box of size 0 (which ISO/IEC 14496-12 allows for the last box: it extends to the end of the file) and a file of proper boxes cut off in the middle of a track both send the reader into an endless recursion.", "quantifier": "every byte string, however malformed; any nesting and any number of boxes", "why_tests_cant": "There are infinitely many malformed files, and a test can only time out on one of them; that every box makes the reader move on is a statement about all of them.", "anchors": ["src/mg/media/mp4parse.h: MP4Reader::parse, parse_boxes, CPM4Track::parse_boxes, CPM4LTCTrack::parse, CMP4Handler::parse, parse_boxes, CMP4HandlerLTC, CMP4HandlerNULL, CMP4VisualEntry::parse_boxes, CMP4AudioEntry::parse, CMP4::do_box, skip_current"]}
{"id": "C69", "title": "Content protection signalling carries the key id and the data given", "statement": "For every key id, key and licence URL, the packager's protection providers signal exactly that key id: the text default_KID is the UUID of its bytes (and so determines it), the PlayReady header holds it as a GUID in base64 with the checksum of the key and the URL, the pssh boxes for PlayReady, ClearKey and Widevine have the layout of ISO/IEC 23001-7 with the right system id, key ids and data, in the order asked for, the MPD holds the same boxes in base64 under the same system id, and a pssh box with at most one key id read back is the one written. Refuted: the PlayReady object is malformed for every header where wide characters take four bytes (Linux, OS X): its length fields count four bytes for each character of two; reading a pssh box keeps only the last of several key ids and writes it that many times; the ClearKey key file has padded base64, never the base64url a JSON Web Key needs.", "quantifier": "all key ids, keys, block ciphers, URLs, headers, Widevine data, lists of systems, and pssh boxes", "why_tests_cant": "The key ids, keys and data are unbounded; a test shows one key id. That no header at all makes a well-formed PlayReady object on a four-byte platform is a universal statement.", "anchors": ["src/mgcli/cenc_provider.h: kid_to_string, PlayReadyCencProvider, ClearKeyCencProvider, WidevineBoyProvider", "src/mg/media/mp4/cenc.fl: ProtectionSystemSpecificHeaderBox", "src/mgcli/mp4info.cpp 5330-5466"]}
{"id": "C70", "title": "The AAC time correction: spacing, lag and drift of the times delivered", "statement": "With set_aac_audio_fix, whatever times add_sample is given for whatever interleaving of streams: the first sample of a stream keeps its time, every later one is delivered at least a frame of 1024 samples (less 0.2 us) after the one before, and never more than 1025 samples (and 0.2 us) behind the time given; a decoding time equal to the composition time stays equal; streams without correction are unchanged. In exact arithmetic a stream of exact frames keeps its times, and times that stray by at most J from the exact ones are delivered at most 4 J and one sample ahead. Refuted: after a gap all later audio is delivered ahead for good (49 ms after a gap of one minute at 48 kHz), because the gap stays in the accumulated error; and after a sample at 2147483647 the next one may go back in time, that value meaning no sample yet.", "quantifier": "all sample rates up to 1 MHz, all sequences of calls with times below 2^52 and any interleaving; for the drift all jitters J and lengths", "why_tests_cant": "The corrector is a feedback loop over doubles: whether it drifts is a statement about all input sequences of any length, and the accumulated error only shows after thousands of frames.", "anchors": ["src/mg/media/aac_time_fix.h: CAACFixStream, CAACFix", "src/mg/media/mp4mux.h: MP4Mux::add_sample, add_audio_stream, set_aac_audio_fix"]}
{"id": "C71", "title": "Time codes: packing, sum, difference", "statement": "A time code of two-digit parts is packed into decimal digits and unpacked unchanged; a word survives unpacking exactly when its unit digits are decimal. TC(time) is the number of whole 40 ms frames; operator+, operator++ and SumHnano count frames across midnight. operator- (long of 64 bits) is right when no part needs to borrow; with a 32-bit long it is right for earlier time codes unless exactly a minute or an hour is borrowed. Refuted: with a 64-bit long every difference that needs to borrow is not a time code (4294967295 frames); with 32 bits second 60 appears and differences are not taken across midnight; the sum forgets the number of frames per second; times from 2^32 s on or below 0.", "quantifier": "all time codes, all words of 32 bits, all times, both sizes of long", "why_tests_cant": "24 * 60 * 60 * 25 squared pairs of time codes; borrows meet only in few of them.", "anchors": ["src/mg/media/WaveParser.h: TC"]}
{"id": "C72", "title": "Linear time code receiver", "statement": "After pushing the 80 bits of a linear time code frame into CTimeCode, whatever was pushed before, IsValid is true and GetTimeCode returns the time code of the frame, for any user bits and flags. From ReSet on, IsValid is true exactly after the last bit of each frame. Refuted: when joining a transmission in the middle, or for frame numbers from 30 on, a false frame end can be seen.", "quantifier": "all bit histories, all time codes up to 30 frames per second, all user bits and flags, all numbers of frames, both sizes of long", "why_tests_cant": "2^80 frames and any history before them; absence of a false sync word is a statement about all windows of all transmissions.", "anchors": ["src/mg/media/WaveParser.h: CTimeCode"]}
{"id": "C73", "title": "The time code stream: what is stored and what is read back", "statement": "Of samples with increasing times CMP4LTCStream stores the first and then exactly those which do not go on from the one before at 25 frames per second; an unbroken recording of any length takes one sample, from which get_interpolated_time_code returns the time code of every frame. Refuted: a recording that starts at time 0 with 00:00:00:00 stores nothing and reads as missing; after the second stored sample the answer between stored samples does not depend on the time code in force (it is computed backwards from the next stored one); other rates than 25 frames per second are interpolated in 40 ms frames; an average frame time of 0 or above 1 s divides by 0.", "quantifier": "all sequences of samples with increasing times, all lengths, all times asked for, all tables of stored samples", "why_tests_cant": "Which samples are dropped depends on the whole history, and the reader must undo it for every time in between.", "anchors": ["src/mg/media/mp4write.h: CMP4LTCStream::queue_sample", "src/mg/media/mp4parse.h: get_interpolated_time_code"]}
{"id": "C74", "title": "Reported start, end, mean duration and bit rate of a stream", "statement": "For a stream with a composition table get_start_time and get_end_time are the least and greatest composition time of all samples and the end with duration adds the duration of a sample presented then; without one they are 0, the time of the last sample and the sum of all durations, whatever the durations. The mean sample duration is the sum of durations over the number of samples, rounded down once in units of 100 ns, so exact for equal durations. The bit rate lies within one bit per second of size over whole seconds. Refuted: at 90 kHz times wrap after 237 days; the bit rate of a stream of 1.9999999 s is twice the mean, under 1 s it is 0; get_decoding_end_time gives the time of the sample whose number is the number of streams less one, and get_decoding_end_time_plus_duration ignores the stream asked for.", "quantifier": "all tables of sample durations and composition times of any length, all time scales, all movies", "why_tests_cant": "Extremes over all samples when the code looks at table ends or a window of 100 samples.", "anchors": ["src/mg/media/mp4parse.h 1365-1434: get_start_time, get_end_time, get_end_time_plus_duration", "src/mg/media/mp4parse.h 2224-2253: get_sample_duration, get_trak_bit_rate", "src/mg/media/mp4parse.h 2872-2882: get_decoding_end_time"]}
{"id": "C75", "title": "What a DASH manifest names is what was written", "statement": "For streams numbered 0, 1, ... with times in order and bit rates below 2^31, the manifest is written and a player reading it as XML (tags, attributes, templates expanded, timelines unrolled) asks for exactly the files written next to it, each once, and no two files have the same name; also when the times had to be moved because some were negative and when content protection elements are added. Streams declared through the interface get different names fit for this and keep their content, whatever the number of video and audio streams. The representations listed are those of the streams with their bit rates and sizes; their ids differ if every audio stream has at most one; the size announced for the only video stream is that of its largest representation. Refuted: a gap in the stream numbers ends in a null pointer; two representations of an audio stream share one id; a second video stream is announced with the size of the first; bit rates of 2^31 and more give URLs never written.", "quantifier": "all presentations: any number of streams, representations and segments, all times, names and content protection texts", "why_tests_cant": "The manifest and the file names are made by separate code from the same data; agreement must hold for every presentation, through text.", "anchors": ["src/mg/media/mp4dynamicinfo.h 496-949: DynamicStream, DynamicPresentation, rebase, render", "src/mg/media/mp4dynamicinfo.h 1133-1165: video_private_data, audio_private_data", "src/mg/media/mpd_renderer.h 56-379: MPDRenderer", "src/mg/media/mp4info.cpp 5474-5699: index.mpd and segment files"]}
{"id": "C76", "title": "What HLS playlists name is what was written", "statement": "For any audio streams and one video stream with at least one segment (also as declared through the interface), every playlist named in main.m3u8 is there under that name and the segments its lines name are, in order, exactly the segment files written; main.m3u8 has one variant for every representation with its resolution and the sum of the video bit rate and that of the last audio representation (96000 if none). Refuted: with a key every segment is encrypted with the number of the following one (in 8 bits), so with any block cipher a client gets exactly the first 16 bytes of every segment wrong; a second video stream is named video1_... in the playlists but written as video_...; an audio-only presentation gives a main playlist naming nothing and writes no segment.", "quantifier": "all presentations of one video and any audio streams, all bit rates, times, keys, segments and block ciphers", "why_tests_cant": "Playlists and files are named by separate code; agreement must hold for every presentation, read back through text.", "anchors": ["src/mg/media/tsinfo.cpp 594-634: hls_encrypt", "src/mg/media/tsinfo.cpp 839-1150: do_hls_mux", "src/mg/media/hls_renderer.h 67-281: HLSRenderer"]}
{"id": "C77", "title": "Dates and elapsed time", "statement": "The text a universal clock gives (or a local one in a zone of whole hours east) denotes the reading to the millisecond; the time from a clock reading to a later one is right in every unit. Refuted: when a second begins between the two readings taken the text is a second early; in other zones the text is wrong by the minutes or, an hour or more west, denotes no time at all; to an earlier reading the time is more than 50000 years; days between dates are those 1900 years and a month later; the creation time of every mp4 file written is counted from 1 February 3804 instead of 1 January 1904; a clock read from text prints another date for every date and has an instant that depends on what memory held.", "quantifier": "all instants to the year 9999, all zones, all pairs of readings and dates, both header versions, all previous contents of memory", "why_tests_cant": "Instants, zones and the moment between two system calls range over everything; tests see one zone and one moment.", "anchors": ["src/mg/core/nx/ctime.cpp 29-394: Ctime", "src/mg/core/ctime.h 30-144: SYSTEMTIME, clock_elapsed", "src/mg/media/mp4write.h 56: MP4NOW"]}
{"id": "C78", "title": "Smooth Streaming manifest", "statement": "A client reading index.ism asks for exactly the media files written next to it, once each; quality levels have the rates, sizes, sampling and parameter sets (behind start codes) of the bit rates; every chunk names for every bit rate the file in force, the time in it and in the presentation when no chunk crosses two files or no time was negative; the duration is that of stream 0. Refuted: Chunks is one too many for every stream; level numbers run on from stream to stream; a crossing chunk of a presentation whose times were moved names the file in force at the old time; a quote in a path changes the path read; private data shorter than it says is read past its end.", "quantifier": "all presentations of any number of streams, bit rates, points, files and cross points, all parameter sets", "why_tests_cant": "The manifest depends on every stream, bit rate and point together with the shift of times; a test shows one text and does not relate it to all files.", "anchors": ["src/mg/media/mp4dynamicinfo.h 1207-1390: SSFRenderer", "src/mg/media/mp4dynamicinfo.h 373-475, 585-594, 654-766, 916-948: rebase, render", "src/mg/media/mp4dynamic.h 208-237: compute_video_private_data", "src/mgcli/mp4info.cpp 5474-5500"]}
{"id": "C79", "title": "Groups of files become one presentation: every chunk is read from its own file", "statement": "Publishing groups of files one after another (a group is the same content at several bit rates) gives a stream whose bit rates are those of the first group, each once and in increasing order, described by the stream for the first file and by its own file for every other; every chunk of a bit rate is read from the file of that bit rate in the group its time is in; what results can be rendered (points in order, a source for every bit rate, both parts of every chunk across two files). A later group with a bit rate the first lacks is refused. Refuted: a group whose files have different audio bit rates is refused; a later group lacking a bit rate is announced in it and read from the group before; two files of one bit rate mix one's description with the other's data; a group that adds nothing takes over the next group's chunks; a chunk starting at its group's end is read from the next file.", "quantifier": "every stream, every list of groups of files, every set of published points, every bit rate and time", "why_tests_cant": "the choice of a file depends on the whole history of groups and points published before it", "anchors": ["src/mg/media/mp4dynamicinfo.h:CMP4DynamicInfo::begin_processing", "src/mg/media/mp4dynamicinfo.h:DynamicStream::get_current_end", "src/mg/media/mp4dynamicinfo.h:DynamicBitrate::Add"]}
{"id": "C80", "title": "What the segments of a presentation made of several files hold", "statement": "The segments written for an audio stream published point by point from files one after the other are one for every point; together, in order, they hold of every file exactly the samples presented from its first point on and before the time its last segment ends, each once (for one file: every sample presented from the first point on and before the end, no other); the base time of a segment is such that its first sample is presented at the time of the point. Refuted: next to a point that crosses from one file into the next the segments meet. The segment before it holds everything up to the end of its file and the crossing one the whole rest of its second file, since the end asked for is the mark of a crossing, 2^63 as an unsigned time; so samples are written twice.", "quantifier": "every list of groups of files, every track that can be cut, every set of points in order, every index with crossing points", "why_tests_cant": "the content of one segment depends on the points and files of the whole index and on the tables of each file", "anchors": ["src/mgcli/mp4info.cpp:5611-5692", "src/mgcli/mp4info.cpp:produce_m4f_chunk_cross", "src/mg/media/mp4fragmented.h:produce_m4f_chunk", "src/mg/media/mp4dynamicinfo.h:DynamicPoints::get_end_original_time"]}
{"id": "C81", "title": "Copying a stream into another", "statement": "Copying a stream into another, reads and writes completing on another thread, writes in any order: in every schedule, when the copy returns, the destination holds from its position on the bytes of the source from the start asked for to its end (with an end given: to the end of the chunk it is in) and is otherwise unchanged; never more than eleven chunks are on their way, however many there are; the copy can always be completed and all but a bounded number of steps only wait. Refuted: for whatever is copied there is a schedule in which the callback of the last write goes on inside the copy's object after the copy has returned; one in which everything is written and the copy fails with a time out; an end inside a chunk is overrun; a start of 2^32 or more in a synchronous file is taken modulo 2^32.", "quantifier": "every content, chunk size, start and end, and every interleaving of the copying thread with completions of reads (in order) and writes (in any order)", "why_tests_cant": "the interleavings are unbounded and cannot be forced by a test; the counters wrap after 2^32 chunks", "anchors": ["src/mg/core/bitstream.cpp:copy_stream", "src/mg/core/bitstream.cpp:_ccopy_stream", "src/mg/core/file.h:file_bitstream", "src/mg/core/file.h:sync_file_bitstream::set_position"]}
{"id": "C82", "title": "Files of fragments become one movie", "statement": "Given, for each of one to three streams, a file that describes it followed by any number of files of fragments (clear, or encrypted with the key given), the command that joins them hands to the movie writer, for every stream, exactly the samples of its fragments in the order of files and fragments, with the bytes and times they had; all audio samples and the first sample of every video fragment are marked as sync points; the streams take turns file by file. For time scales other than 10^7 the times are converted rounding down, or one less where exact. Whatever the files hold, a stream gets the bodies of all samples found in its own files and of no other. Refuted: 53 seconds in ticks of 1/30000 s come out one unit of 100 ns short; with two streams in one description file the samples go to the wrong stream; a fourth option, or one after a missing one, is left out silently; the sync flags in the fragments are not looked at.", "quantifier": "every number of files, fragments and samples, their bytes, times, time scales and keys", "why_tests_cant": "the loop over files, streams and fragments must lose or misplace nothing for any number of each; the conversion in doubles differs from the exact one at isolated values", "anchors": ["src/mgcli/mp4info.cpp:do_moof_mux", "src/mgcli/mp4info.cpp:normalize_time", "src/mg/media/MOOFReader.h:MOOFReader::parse"]}
{"id": "C83", "title": "An initialization segment describes its stream", "statement": "For any stream, with a key id or without, and any boxes of protection systems, an initialization segment is written; shorter than 2^32 bytes, it is exactly the boxes of the standards: brands, movie without duration, one track with empty tables, fragment defaults for the same track id, and with a key id the entry twice, protected (original format, scheme 'cenc', key id, 8-byte vectors) and plain. Reading it gives the time scale, track id, language und, kind, size and entries (parameter sets, audio configuration) and no samples. Streams made of codec private data (two parameter sets with their lengths; an AudioSpecificConfig) are such streams. Refuted: the fragment duration, which is 64 bits for the caller, is written in 32: 600 s in the default time scale of 10^7 are announced as 170.5 s.", "quantifier": "every stream, time, time scale, track id, duration, key id, number and content of protection boxes, parameter set", "why_tests_cant": "sizes of nested boxes depend on the entry, the key and the protection data; truncation shows only for large values; the reader must find the same entry behind the protected one for any content", "anchors": ["src/mg/media/mp4fragmented.h:produce_m4f_initialization", "src/mg/media/mp4write.h:MP4Write::write_stsd", "src/mg/media/mp4write.h:MP4Write::write_protected_sinf", "src/mg/media/mp4write.h:CMP4Stream::write_stream", "src/mg/media/mp4parse.h:MP4Reader::parse"]}
{"id": "C84", "title": "Listing the coded pictures of a track", "statement": "For a sample made of NAL units with lengths of 4 bytes, the list of frames has one line per unit, in order. A slice shows the type and importance of the unit and, as the standard writes them, first macroblock, slice type, parameter set, frame number, field flags, IDR number, picture order values, redundant count, spatial flag and overriding numbers of references, and the length of that header in bits; a supplemental message shows its type and size (whatever their number of bytes) and, for picture timing, the structure and every clock; other units show their type. Refuted: slice types 5, 6, 8; numbers of references not overridden; separate colour planes; pictures with field order in progressive sequences (undefined); HRD parameters of the VCL only, or none with a timing message (undefined); negative time offsets; lengths of 1 or 2 bytes; the second message of a unit.", "quantifier": "every pair of parameter sets, slice header, message, clock time, number of units, and what follows a header", "why_tests_cant": "headers depend on the parameter sets in many ways and are not aligned; one wrong condition shifts all the fields after it for some streams only", "anchors": ["src/mgcli/mp4info.cpp:parse_h264_header", "src/mg/media/mp4/h264.fl:slice_header", "src/mg/media/mp4/h264.fl:sei_message", "src/mg/media/mp4/h264.fl:pic_timing"]}
{"id": "C85", "title": "Listing the groups of pictures", "statement": "The listing of a movie's groups of pictures names, from the key frame in force at the start time, every key frame shown before the end, in order, each with its own number, presentation and decoding time, and nothing else; up to two key frames past the end follow. Refuted: the last key frame is listed twice; when times are no whole number of units of 100 ns and frames are shown when decoded, the listing names the first key frame three times and stops; a track without a table of key frames reads an empty table.", "quantifier": "every time table, composition offsets, place of the key frames, start and end time", "why_tests_cant": "whether a key frame is found again from its own time depends on rounding between two clocks, so a listing breaks off only for some frame rates", "anchors": ["src/mgcli/mp4info.cpp:gop_list", "src/mg/media/mp4parse.h:get_next_IFrame_time", "src/mg/media/mp4parse.h:get_IFrame_number"]}
{"id": "C86", "title": "Checking that the fragments hold every sample", "statement": "With the check of fragments on (a build with _DEBUG), nothing is reported exactly if each sample put into a fragment follows the one put before it of the same stream: it is the next, or the first after the last of a file. So any number of streams made of any number of files, cut into any pieces without loss, are reported clean, whatever the order the streams are worked on. Refuted: samples missing at the start of a stream, at the end of its last file, or in two files such that one goes on where the other stopped are not reported; a sample used twice is reported as missing; an empty piece at the start of a following file makes a false report; the 17th stream is outside of the arrays.", "quantifier": "every sequence of calls for up to 16 streams, all numbers of samples, files and pieces", "why_tests_cant": "the state carried from piece to piece and file to file lets some losses through and reports others that did not happen; no set of example files shows which", "anchors": ["src/mgcli/fragment_validation.h:CMP4FragmentValidation", "src/mg/media/mp4fragmented.h:add_frames_to_m4f", "src/mgcli/mp4info.cpp:CMP4FragmentValidation"]}
{"id": "C87", "title": "Listing the samples of a movie, and trying out decoding times", "statement": "Without a stream and an end time, the operation pick lists each stream's samples from where it begins to the last one, in order. With a stream selected it lists that stream's samples up to the first one decoded at the end time or later, whatever the other streams are; without one, it lists all samples in the order of the file up to the first one, of any stream, decoded at the end time or later. The largest distance reported is the largest time from decoding to presentation of a row. The operation simul tries out decoding times made up from the presentation times collected: each total follows the one before by the time between a sample's presentation and the presentation just before, the distance reported is the largest time from presentation to total, and if the first sample is the earliest both are what a track gets. Refuted: every sample decoded before the end time is listed (what is stored after the first sample at the end isn't); without an end time simul collects the times of the stream only (the time of the last sample read, of whatever stream, is there once more); its distance is the offset needed (less if the first sample isn't presented first, and with the last sample twice the length of a sample where no offset is needed).", "quantifier": "every movie whose tables and samples lie inside the media data, all start and end times, stream selections and presentation times", "why_tests_cant": "the rows depend on how the streams are interleaved and on which sample happens to be the last; example movies with one stream, or well interleaved, show none of it", "anchors": ["src/mgcli/mp4info.cpp:pick_samples", "src/mgcli/mp4info.cpp:simulate_auto_decoding"]}
{"id": "C88", "title": "What is written to a file and read from it", "statement": "Writes one after another through a file handle, none waited for, leave their bytes one after another from the position on, in whatever order the system carries them out; so do any writes of which no two touch the same byte. The size reported during such writes is the size the file will have. Reads of any sizes of a file that doesn't change hand on its bytes from the position on, each once and none after the last, and the end is reported exactly when all were handed on. Refuted: after moving back over bytes written, what is there depends on the order in which the writes are carried out; the rest of a write done in part is never written; after moving back the size reported is less than the file's and its end is reported; of a file that grew since it was opened the bytes after its old size are handed on twice, and again by every read.", "quantifier": "all rows of writes and reads, positions, contents, sizes, and every order in which the system carries the requests out", "why_tests_cant": "the order in which a thread pool completes writes isn't under a test's control, and files that grow or disks that write in part are rare in tests", "anchors": ["src/mg/core/file.h:cfile", "src/mg/core/file.cpp:cfile::write, cfile::read"]}
{"id": "C89", "title": "From the command line to the calls on the editor", "statement": "Each option has the values given to it on the command line, in order. With as many start and end times as inputs, an output, and numbers where numbers are due, the file muxer makes exactly the settings asked for, each with the first value given, then starts the output, adds each input once, in order, with its own start and end times, and ends; the transport stream muxer the same. If the numbers of inputs, starts and ends differ, nothing is called. The options mgcli declares, and the letters for them, are these and no others. A switch is on for 1, true, yes, TRUE and True only; a text without a digit is refused with an exception. Refuted: without an output the file muxer reads the first of no values; the time scale for the video is set for the audio instead; a switch given by its name alone is off; the words that switch composition offsets on for one muxer end the other with an exception; a bad time in a later clip leaves the output started and not ended; 1:30, 1.5 and 12abc are taken for 1, 1 and 12; -h isn't the help; an option nobody declared changes what -0 means.", "quantifier": "all command lines, option values, numbers of clips and texts", "why_tests_cant": "the space of command lines is unbounded, and the failures lie in combinations of options", "anchors": ["src/mgcli/mp4info.cpp:do_mp4_mux, main", "src/mg/media/tsinfo.cpp:do_ts_mux", "src/mg/alxstring.h:_string::operator int64_t, uint64_t, bool", "src/mg/cmdline.h:console_command"]}
{"id": "C90", "title": "Listing the time codes of a movie", "statement": "For any table of times of the time code stream, the list has one line for each sample from the one looked up for the start to the one looked up for the end, in order, with the time code stored in the file for it and its time moved by the offset of the stream; which sample is looked up depends on the times alone and is one only: the first which begins at the time or later, the first during the first, the last after the last began. Every record of a time code is read as it was written, wherever it is in the file. Refuted: the time code in force at the start isn't listed unless it begins just then or is the first; from a start after the end of the stream the last is listed; start and end are taken without the offset of the stream but the times listed with it; without an end (0) the list stops at the first instead of going on to the last.", "quantifier": "all tables of times, time codes, places in the file, offsets, starts and ends", "why_tests_cant": "the tables, places and times range over unbounded sets, and the errors are at times between samples", "anchors": ["src/mgcli/mp4info.cpp:timecode2", "src/mg/media/mp4/ltcextension.fl:wmt_timecode", "src/mg/media/mp4parse.h:get_composition_sample_number"]}
{"id": "C91", "title": "Files read and written synchronously, and segments encrypted in place", "statement": "Through a synchronous file, reads of any sizes hand on the bytes from the beginning, each once and in order, and the position is that of the next byte; writes leave their bytes one after another in a file emptied first; after moving to a place below 2^32 the bytes from there are read, or replaced by what is written and no others. Encrypting a segment of less than 4 GB in its file replaces it by whole blocks from which decryption and removal of the padding give the segment; an empty one stays as it is. Refuted: after the last byte was read the end isn't reported until a read finds nothing; a position of 4 GB or more is cut to 32 bits; the size reported of a file written is always 0; a segment of 4 GB or more is encrypted from memory nothing was read into.", "quantifier": "all contents, rows of reads and writes, positions, block ciphers and sequence numbers", "why_tests_cant": "contents and rows are unbounded, and files of 4 GB aren't in unit tests", "anchors": ["src/mg/core/file.h:sync_file_bitstream", "src/mg/media/tsinfo.cpp:hls_encrypt"]}
{"id": "C92", "title": "Fragments made by other programs", "statement": "A fragmented file of any number of clear fragments, each with any choice of the optional fields of the track fragment header and the track run, either version of the decoding time and run boxes, a data offset or none, and other boxes before, inside and between fragments, is read as ISO/IEC 14496-12 says: every fragment gives its samples with the bodies, durations and composition offsets of the run or of the defaults in the header, the decoding times counted from the one given. Refuted: a base data offset other than the start of the fragment is ignored and other bytes are read; of two runs in a fragment only the last is read; the defaults of the movie (trex) aren't used: without durations the samples all start at once, or last as long as the fragment before said.", "quantifier": "all fragments, choices of fields, versions, samples, and boxes of unknown types around them", "why_tests_cant": "the combinations of optional fields are too many to list, and files of fragments are unbounded", "anchors": ["src/mg/media/MOOFReader.h:MOOFReader::parse_boxes", "src/mg/media/mp4/mp4_fragments.fl:TrackRunBox", "src/mg/media/mp4/mp4_fragments.fl:TrackFragmentHeaderBox", "src/mgcli/mp4info.cpp:do_moof_mux"]}
{"id": "C93", "title": "Encrypted fragments made by other programs", "statement": "A fragmented file of any number of encrypted fragments (common encryption, scheme cenc, vectors of 8 bytes), each with any choice of the optional fields a clear fragment may have, the sizes of the clear and protected parts of the samples listed or not, with or without saiz and saio boxes and other boxes beside, is decrypted as ISO/IEC 23001-7 says: read with the key, every fragment gives its samples with the bodies that were sealed, whatever the block cipher. Refuted for vectors of 16 bytes, which the standard also allows: 8 are read, and the sample is lost or decrypted to other bytes.", "quantifier": "all block ciphers, fragments, vectors, divisions of samples into clear and protected parts (the protected ones whole blocks but for the last), and boxes around", "why_tests_cant": "divisions into parts are unbounded in number and size, and the counter must run on across the parts and wrap at its end", "anchors": ["src/mgcli/mp4info.cpp:decrypt", "src/mgcli/mp4info.cpp:do_moof_mux", "src/mg/media/MOOFReader.h:MOOFReader::parse_boxes", "src/mg/media/mp4/cenc.fl:SampleEncryptionBox", "src/mg/media/mp4/cenc.fl:SampleAuxiliaryInformationOffsetsBox"]}
{"id": "C94", "title": "Fragments written follow the standard", "statement": "Any fragment, clear or encrypted, with any number of samples, written anywhere in a file, adds a styp and a sidx box and then byte for byte the moof and mdat that ISO/IEC 14496-12 lays down for its samples: version 1 of tfdt and trun, the data offset counted from the moof to the content of the mdat, and for every sample its duration, its size and, for video, its composition offset with its sign, all values in their fields; in an encrypted one the saiz, saio and senc boxes and the sealed samples of ISO/IEC 23001-7, the vectors counted up. Any number of them one after the other are a file of the standard. So any reader of the standard gets the samples back, not only this one.", "quantifier": "all fragments that fit, settings, block ciphers, vectors, roundings of time, samples, and files written to before", "why_tests_cant": "that each byte is what the standard asks for must hold for every number and size of samples; a test with the reader of the same program shows only that both agree", "anchors": ["src/mg/media/mp4fragmented.h:CMP4Fragment::end", "src/mg/media/mp4fragmented.h:CMP4Fragment::add_sample", "src/mg/media/mp4/mp4_fragments.fl:TrackRunBox", "src/mg/media/mp4/cenc.fl:SampleEncryptionBox", "src/mg/media/mp4/mp4_fragments.fl:TrackFragmentBaseMediaDecodeTimeBox"]}
