# Formal model of MistServer in Rocq (Coq 8.16.1)

The C++ source in /repo is read as text. Each component is transcribed, function by
function, into total Gallina functions over `Z`, `list Z` (byte strings) and records. The
theorems are about these functions, for all inputs, with no size bounds.

## Conventions

* A byte is a `Z` in `0..255`. Byte strings are `list Z`; `bytes l` says each element is a byte.
  /repo/meson.build:2 compiles with `-funsigned-char`, so a C++ `char` is modelled unsigned.
* Fixed width arithmetic is explicit: `u8`, `u16`, `u32`, `u64` are reduction modulo 2^n.
* Undefined behaviour (out of range reads/writes) is a distinct outcome (`None`, or an explicit
  error constructor), never a silent default, wherever a property talks about memory safety.
* Loops become structural or fuelled recursion. Fuel is always proved sufficient (a theorem
  never has the escape "out of fuel").
* Files: `X_Model.v` holds the transcription, each definition citing file and lines.
  `X_Spec.v` (where needed) holds the independent specification, `X_Proofs.v` the lemmas, and
  `X_Props.v` the property theorems, non-vacuity examples and `Print Assumptions`.
* Suffixes: `_partial` marks a theorem that covers part of a property. `_refuted` marks a proof
  that the claim is false of the code as it is (with a concrete witness): a finding.

## Trusted base

Coq's kernel (and `vm_compute`, part of it), the transcription from C++ into Gallina (by hand,
checked by reading), and what `Print Assumptions` lists. No axioms of our own are used.

## Plan per property

| id | model | proof |
|----|-------|-------|
| C01 | encode/decode loops of Base64 with pending-bit state | induction over 3-byte groups |
| C02 | Hex loops; out of range write as error outcome | induction; refutation for odd length |
| C03 | URL loops | induction, byte case analysis by computation |
| C04 | all htob*/btoh* accessors on byte lists | arithmetic (div/mod) |
| C05 | getMSB/setMSB loops over a buffer | bit extensionality over the buffer seen as bit list |
| C06 | bit writer/reader, Exp-Golomb | invariant: buffer holds a bit string; induction over items |
| C07 C08 | Socket::Buffer deque | refinement to a byte queue, induction over operation histories |
| C09 C10 | frame writer and reader of websockets | round trip, refutation for interleaved control frames |
| C11 C12 | NAL scanner | induction over units; spec = insertion procedure of the standard |
| C13 | RTMP chunk writer/reader state machines | simulation between sender and receiver state |
| C14 C15 | AMF0 packer/parser | induction over trees; bounds as option outcome |
| C16 C17 | JSON printer/parser | induction over trees |
| C18 C20 | DTMI packing and scanning | induction over trees; bounds as option outcome |
| C19 | genericFill and accessors | computation over the packet layout |
| C21 C22 | page as byte array; append as sequence of stores; crash = prefix of stores | invariant over stores and histories |
| C23 C24 C25 | metadata tables as lists with deleted/end windows | invariants over histories |
| C26 C27 | RelAccX header and record addressing | disjointness arithmetic, invariant over histories |
| C28 | transition system, processes x shared slots x semaphore | inductive invariant over all schedules and crashes |
| C29 | concatenation and hash | injectivity of the hash as explicit hypothesis in the statement; refutation by witness |
| C30 | session.cpp counters as state machine | invariant over histories |
| C31 | Sorter state machine | invariant over arrivals, refutation on wrap-around |
| C32 | sendH264 and FU-A receiver | refutation with overread; round trip for the other path |
| C33 | header accessors | arithmetic; refutation for CC |
| C34 C35 C36 C37 | TS packet byte operations | arithmetic |
| C38 C39 | EBML | arithmetic, induction over frames |
| C40 | table driven CRCs (tables transcribed by script) | linearity over GF(2), table check by computation, induction over data |
| C41 | md5, sha256, hmac | equality with a separately written specification |
| C42 | sanitizeName | refutation and partial theorem |
| C43 | URL constructor | induction over path segments |
| C44 C45 | HTTP | induction over pairs, segmentation lemma |
| C46 | packetSorter | invariants over histories |
| C47 C48 C49 C50 | small utilities | induction |
| C54 C55 C56 | identifiers, command lines, replacement | induction over the text, a character by character reader as specification |
| C57 | the shared list of tracks as a transition system, one step per access to shared memory or the semaphore | an inductive invariant over all histories |
| C58 | taking tokens apart, patterns, claims, the choice of the key and of the algorithm, and HMAC as functions; mbedtls, JSON::fromString and the address ranges as parameters | equality with a specification on patterns, RFC 4648, RFC 2104 and FIPS 180-4, and an equivalence between acceptance and authenticity |
| C59 | the round of the live buffer over all tracks (idle tracks, order of video and audio, cut, size, pages) as a function on the live tracks of C42 | the state of each track is that of a longer history of C42 (evictions appended), so that all that is proved there carries over; the eviction rules are characterised on packets |
| C60 | boxes as memory with a claimed size (lib/mp4.cpp): reserve, fields, strings, boxes in boxes, searching, reading from strings and files | an invariant (the memory is the ISO encoding of a type and a payload, with unused bytes behind it) kept by every operation, with the payload after it; lists of inner boxes by induction |
| C61 | the moof box and mdat header of a segment (lib/cmaf.cpp) written with the boxes of C60 from the tables of C25 | an independent reader of fragmented files; the writer's boxes are computed with the lemmas of C60 and the reader run on them, by induction over the packets |
| C62 | STUN packets as byte strings (lib/stun.cpp), answering them (output_webrtc.cpp), HMAC-SHA1 as any function to twenty bytes, CRC of C14 | a decoder after RFC 5389; each adder appends exactly one encoded attribute; reading by induction over the attributes |
| C63 | aac::adts over bytes, the remainder and the loop of parseBitstream, getAudioHeader, AudSpecConf over the bit reader of C03, AAC files, Opus access units | frames encoded after ISO 13818-7 by arithmetic; the cutting as an inductive relation; induction over packets, frames, units |
| C64 | the Assembler over byte lists, reading and writing of tables in packets, the receiver over the demuxers of C52 | sections after ISO 13818-1 as concatenations; induction over pieces, programs, streams, descriptors and packets; composed with the muxer and demuxer of C52 |
| C65 | what is handed to the muxer of C52 for a video frame, the receiver's packet under construction (the bytes of C47's packets), init data as boxes in memory | units behind start codes and lengths (Nal_Spec), slice headers as Exp-Golomb codes; induction over units, PES packets and frames; composed with muxer and demuxer of C52 |
| C66 | the sender with its buffers for one row and all columns, byte for byte; media, row and column packets sent | the receiver of SMPTE 2022-1 as a function on packets (Fec_Spec); invariant of the buffers by position in the block, induction over packets, algebra of XOR |
| C67 | redundant packets, the history, recovery, with every access checked | redundancy after RFC 2198, masks and error correction data after RFC 5109 (Ulp_Spec) |
| C68 | pages as the sender builds them: table, flags, position, checksum, what stays for the next page; headers, packets, the end | pages and their packets after RFC 3533 (Ogg_Spec: unlace, carries); invariant: what is buffered needs less than a page, what is open is a multiple of 255 bytes; induction over packets |
| C69 | the loader as a state machine over what can be read; tags as lists of bytes; all readers of tags, with reads past the end | tags and files after the FLV specification, messages after enhanced RTMP (Flv_Spec); invariant of the loader: what was read is a proper part of the next tag; all codecs by cases |
| C70 | the header with all its chunks, the loops that swap bytes, the check of a chunk, the walk over a list with 32-bit positions | chunks and WAVE files after the RIFF specification (Wav_Spec); induction over samples, chunks and, for the walk that never ends, over steps |
| C71 | the size encoding, the reading of unit headers, the loop that fills and sends packets | units after the AV1 specification and packets and a receiver after the RTP payload format (Av1_Spec); induction over units and over the packets of a unit |
| C72 | the reading of coded numbers, frame headers and stream information, the test whether a frame is the next one | number coding, headers and stream information after RFC 9639 (Flac_Spec); arithmetic over all numbers, tables swept over all codes |
| C51 | Matroska writers and element tree | round trip, induction over trees |
| C52 C53 | packetizer and PES part of the demuxer | invariant of the packetizer, simulation against the demuxer; refutation by witnesses |

Details, findings and deviations are recorded below as components are finished.

## What is modelled and what is not

| component (files theories/X_*.v) | modelled | not modelled |
|---|---|---|
| Encode | lib/encode.cpp: Base64, Hex, URL encode/decode | - |
| Bitfields | lib/bitfields.h, bitfields.cpp | - |
| Bitstream | lib/bitstream.cpp: bitWriter, bitstream, bitstreamLSBF, Exp-Golomb | debug output |
| SockBuf | lib/socket.cpp: Socket::Buffer | the sockets behind it |
| Ebml | lib/ebml.cpp, ebml_socketglue.cpp: integers, elements, blocks, lacing, writers | pretty printing |
| Nal | lib/nal.cpp: scanAnnexB, nalEndPosition, fromAnnexB, toAnnexB, emulation prevention | - |
| Websocket | lib/websocket.cpp: readFrame, readLoop, sendFrame, control frames | handshake |
| Crc | lib/checksum.h, all tables | - |
| Ts | lib/ts_packet.cpp: packet setters/getters, stuffing, PES lead-ins; src/output/output_ts_base.cpp: packetizer; lib/ts_stream.cpp: add, parse, parsePES, finish for one data PID | PAT/PMT/SDT, toPrettyString, FromFile, codec specific parts of sendNext and parseBitstream, threads and file positions |
| Rtmp | lib/rtmpchunks.cpp: Pack, Parse; src/output/output_rtmp.cpp: the chunk writing part of sendNext, the loop over Parse with set chunk size | handshake, acknowledgement windows, AMF commands (see C14), FLV headers inside media messages |
| RelAccX (and Mem) | lib/util.cpp RelAccX: constructor, addField, header accessors, setInt/getInt, setString, getString, getSize, addRecords, deleteRecords, setReady | nested structures, minimalFrom, flowFrom, the printing functions, concurrent access |
| Str | lib/util.cpp: stringTrim, splitString, shellSplit, replace, expBackoffMs, getRandomAlphanumeric, generateUUID; lib/stream.cpp: sanitizeName | the random source (a parameter), locales, stringScan |
| Addr | lib/socket.cpp: matchIPv6Addr, binForm, compareAddress, isBinAddress | name resolution (a parameter), textual forms |
| RPtr | lib/util.cpp ResizeablePointer: all but swap | the heap is a parameter (any failure, any junk); size() as a writable reference |
| Psort | lib/stream.cpp/.h packetSorter, sortedPageInfo: all | the std::set is the list of its entries in order |
| Rtp | lib/rtp.cpp Packet: constructor, all header getters and setters, getHsize, getPayloadSize, sendH264, sendH265, sendData for H264; toDTSC: addRTP (sequence check), handleH264, handleH264Multi, handleHEVC | times and key frame flags of received units, VP8/VP9/MPEG2/audio senders and receivers, FEC, RTCP; the packet handed over is the callback argument |
| RtpSort | lib/rtp.cpp Sorter: constructor, addPacket | packetHistory (unused by addPacket), logging; the std::map is a sorted list; the two limits are parameters |
| Dtmi | lib/json.cpp toPacked, packedSize, sendTo, fromDTMI (bytes, and string) | conversion of doubles to and from text: a double is its bit pattern |
| Scan | lib/dtsc.cpp skipDTSC, DTSC::Scan: getMember, getIndice, getIndiceName, getSize, getType, asInt, getString | asString, asBool, toPrettyString, toJSON; strtoll and the conversion of a double in asInt are parameters |
| Dtsc | lib/dtsc.cpp DTSC::Packet: resize, null, reInit, operator bool, genericFill, setKeyFrame, appendData, appendNal, upgradeNal, getDataStringLenOffset, setTime, getInt, getFlag, getString, hasMember, getTime, getTrackId, getPayloadLen, getScan | reInit from a socket, toSummary, toJSON, nullMember, clearKeyFrame; contents of fresh memory are a parameter |
| JsonText | lib/json.cpp toString, string_escape, UTF16, UTF8, read_string, skipToEnd, Value(std::istream &), fromString | printing and arithmetic of doubles are parameters; so is the content of an uninitialised char; toPrettyString, depth of the call stack |
| Amf | lib/amf.cpp Object::Pack, parseOne, parse | toJSON, Print, the getters; negative numbers and values out of range converted to char and int by Pack; the counter of errors |
| Meta | lib/dtsc.cpp Meta::update, addPart/addKey/addFragment parts of it, removeFirstKey, the check of Input::removeUnused before eviction (src/input/input_buffer.cpp); getKeyNumForTime, getKeyIndexForTime, getIndexForTime, getPartIndex, getPartTime, getTimeForFragmentIndex, getFragmentIndexForTime, the limited view of applyLimiter (Keys, Parts) | the tables live in shared memory (their byte layout is RelAccX); page table contents, addTrack/claimTrack, jitter, bitrate statistics, getPage lookups |
| Page | src/io.cpp bufferNext as groups of single byte stores in program order; src/output/output.cpp the loops that step over the packets of a page (seek and look-ahead), on an arbitrary succession of states of the page | stores of different statements are assumed to become visible in program order (the code has no barriers); the page's name lookup |
| Live | src/io.cpp bufferLivePacket, bufferStart, bufferedOnPage, liveFinalize (pages of a live track and their records, together with the track tables of Meta and the stores of Page); output.cpp pageNumForKey; dtsc.cpp nextPageAvailable, getPageNumbersForTime, getPageNumberForKey | one writer and one evictor, whole calls interleaved; shared memory as a map from page number to bytes; sizes and limits are parameters (any page size below 2^32, any flip threshold, any duration) |
| Comms | lib/comms.cpp Comms::reload, nullFields, setStatus, setRecordCount, finishAll, ~Comms, unload; lib/comms.h COMM_LOOP; src/session.cpp userOnActive, userOnDisconnect | any number of processes; one step is one access to shared memory or to a semaphore, memory is sequentially consistent; any process may be killed between two steps; a process id is not used again while its record exists; texts and times of records, triggers and the session's own record are left out |
| SessId | lib/comms.cpp Connections::reload (choice of the id), generateSession | the digest is a parameter; modes are parameters |
| Hash | lib/auth.cpp md5_add64, md5bin, md5, sha256_add64, sha256bin, sha256, sha512_add128, sha512bin, sha384bin, shabin, hmacbin, hmac, hmac_sha, hmac_shabin | local arrays start with any contents; digest_hmac (base64 of a key from JSON) is left out |
| Url | lib/url.cpp: the constructor of HTTP::URL, getPort, setPort, getDefaultPort, getExt, getUrl, getFilePath, getEncodedPath, isLocalPath, getProxyUrl, getBareUrl, getBase, getLinkFrom, link, operator== | atoi without blanks and signs, which a parsed port never has; localURIResolver and URIReader are left out |
| Http | lib/http_parser.cpp: parseVars, argStr, Trim, SetHeader, SetVar, GetHeader, hasHeader, Clean, Read (on a Socket::Connection), parse, BuildRequest, BuildResponse; lib/socket.cpp:1533-1556 the chunk sizes of SendNow (as Chunkify uses them) | the body callback only collects what it is given and never rejects; std::bad_alloc of reserve is left out, its length_error is not; cookies, proxying, authentication and StartResponse are left out |
| Tracks | lib/dtsc.cpp: addTrack, claimTrack, abandonTrack, resizeTrackList, the reloading of a replaced list; src/input/input.cpp: the claims of a real time input | sequentially consistent memory, one step per access; shutting down, failing allocations, validity and contents of tracks are left out |
| Jwt | lib/jwt.cpp completely except the printing of keys; lib/auth.cpp: digest_hmac; the callers in src/session.cpp and src/output/output.cpp: checkStreamKey; the storing of keys | JSON::fromString, mbedtls (RSA and elliptic curves) and isBinAddress are parameters; texts in shared memory are not cut off at their field length; stored keys are taken as the values they were written from |
| Window | src/input/input_buffer.cpp: removeUnused 353-463, removeKey 285-311; src/io.cpp: bufferRemove 160-218; lib/dtsc.cpp: the first and last time of a track | the set of tracks is a list in order; the clock is a function of the number of readings; removing a track is removing it from the list (the shared pages go with it); metadata tracks keep their times; configuration reading (preRun) is not modelled |
| Mp4 | lib/mp4.cpp: calcBoxSize 99-103, skipBox 105-123, read 125-181, boxedSize 184-193, clear 203-214, setInt and getInt of all widths 334-488, strings 493-530, getBox, getBoxLen, setBox 536-566, reserve 571-596, containerBox 617-676 | memory is a list of bytes and allocation succeeds; realloc's fresh bytes are zero; toPrettyString and the boxes derived from these two classes are not modelled here |
| Cmaf | lib/cmaf.cpp:180-291 payloadSize, keyHeaderSize, keyHeader; lib/mp4_generic.cpp: MFHD, TFHD, TFDT and TRUN setters used there; src/output/output_cmaf.cpp:445-450 | simplifyTrackIds is unused by the code; the track header (trackHeader, moov) and the sidx box are not modelled; the set of parts is a sorted list without equal times |
| Stun | lib/stun.cpp:10-225, 361-365 (all but toString); src/output/output_webrtc.cpp:1707-1713, 2006-2070 | HMAC-SHA1 of mbedtls is a parameter; memory is granted; the clock, the choice of the socket and the sending of the answer are left out |
| Audio | lib/adts.cpp (all but toPrettyString); lib/adts.h AudSpecConf; lib/ts_packet.h:249-271; lib/ts_stream.cpp:91-150, 612-669, 684-712; lib/opus.cpp:8-36; src/output/output_ts_base.cpp:197-229; src/input/input_aac.cpp:140-298 | memory is granted; PES packets are below 4 GB; readSome delivers what the file has; APE tags end the file like other bytes without sync |
| Psi | lib/ts_stream.cpp:22-93, 217-320 (tables); lib/ts_packet.cpp:49-63, 762-842, 879-1115, 1193-1206, 1356-1474, 1482-1664, 1918-1945; src/output/output_ts_base.cpp:27-33 | tables fit one packet (as the code assumes when it writes); memory is granted; one thread |
| Avcc | lib/mp4_generic.cpp:372-488, 537-561, 643, 716-738, 810-827; lib/ts_stream.cpp:1094-1113 | memory is granted |
| Avc | src/output/output_ts_base.cpp:100-192; lib/ts_stream.cpp:598-603, 773-859, 944-1020 (H264, HEVC) | one track, one thread; HEVC parameter sets on the receiving side are not followed; buildPacket's search for the next PES is C52's |
| Fec | lib/rtp.cpp:65-256, 267-279; src/output/output_ts.cpp:197-211 | counters of bytes and packets; simulated loss (sendNoPacket) is left out |
| Ulp | lib/rtp_fec.cpp:63-518 | what the sorter does with the packets is C31's; the error correction packets kept are never used |
| Ogg | lib/ogg.cpp:348-546; src/output/output_ogg.cpp:32-70, 120-183 | positions of Vorbis and Theora packets are inputs (from parsing the packets); reading Ogg files is left out |
| Flv | lib/flv_tag.cpp:35-57, 96-285, 436-479, 551-815, 916-931, 1021-1179, 1299-1308; src/output/output_rtmp.cpp:976-1047 | script tags, metadata (toMeta) and the memory loader are left out; bytes 8 to 10 of a tag from a message, which nobody reads, are zeros |
| Wav | src/output/output_wav.cpp:36-111; lib/riff.cpp:6-13, 43-143, 150-158; lib/riff.h:12-31 | the HTTP header is left out; what a track is comes as input; what chunks look like when printed is left out |
| Av1 | lib/av1.cpp:9-89; lib/rtp.cpp:330-409 | counters and sequence numbers are left out (Rtp has them); a packet is what follows the RTP header; a single byte with the extension flag (the code reads one byte past it) counts as a unit that is all there |
| Flac | lib/flac.cpp:19-122, 150-158, 173-208; src/input/input_flac.cpp:158-171, 273-285 | what is read is all there; checksums of frame headers, the buffer and pictures and comments are left out |

Threads, the operating system, memory allocation failure, logging and timing are left out
everywhere unless a row says otherwise.

## Findings

Each is a machine-checked `_refuted` theorem: the claim is false of the code as transcribed.

| id | where | what | theorem |
|----|-------|------|---------|
| F01 | lib/encode.cpp Hex::decode | odd length text writes one past the output | hex_decode_always_safe_refuted |
| F02 | lib/bitfields.h htobd | stores only the low 32 bits of a double | double_field_refuted |
| F03 | lib/bitfields.cpp getMSB | bits before the field leak into the value | getMSB_refuted |
| F04 | lib/bitfields.cpp setMSB | old bits of the field are not cleared | setMSB_refuted |
| F05 | lib/bitstream.cpp bitWriter | Exp-Golomb values of 36 bits and more overrun the scratch buffer | exp_golomb_large_refuted |
| F06 | lib/bitstream.cpp bitstreamLSBF::fixData | reads beyond the data when fewer than 4 bytes are available | lsbf_append_refuted |
| F07 | lib/socket.cpp Buffer::bytesToSplit | a separator of two or more bytes that straddles two arrivals or a 4096 byte block is missed | split_straddle_refuted |
| F08 | lib/ebml.cpp Element::findChild | reads beyond the element when a nested master has unknown size | find_child_unknown_size_refuted |
| F09 | lib/ebml_socketglue.cpp sizeInt | ignores the sign bit: 200 is read back as -56 | sent_int_reads_back_refuted |
| F10 | lib/ebml_socketglue.cpp sendElemEBML, sendElemInfo | announced size wrong for names of 127 bytes and more | sent_ebml_header_refuted, sent_info_size_refuted |
| F11 | lib/ebml_socketglue.cpp sendElemSeek | announced size wrong for identifiers whose integer and VINT sizes differ | sent_seek_refuted |
| F12 | lib/ebml.cpp Block::getFrameCount, getFrameSize | 256 frames count as 0 (division by zero with fixed lacing); one frame with fixed lacing gets one byte too much | fixed_lacing_refuted |
| F13 | lib/nal.cpp removeEmulationPrevention | a prevention byte at index 3 (65 00 00 03 01) stays; empty input is read out of bounds | emulation_prevention_roundtrip_refuted |
| F14 | lib/nal.cpp fromAnnexB | data without start code, or a start code at the end, yields an empty unit | from_start_codes_bogus_refuted |
| F15 | lib/websocket.cpp readFrame | a ping between two fragments destroys the message | websocket_interleaved_ping_refuted |
| F16 | lib/websocket.cpp readFrame | a masked frame with length 2^32 - 14 passes the 32 bit availability check; unmasking writes out of bounds | websocket_huge_length_refuted |
| F17 | lib/checksum.h crc16 | the returned value is not reduced to 16 bits, so `crc16(0,"123456789")` is 0xED95FEE8 (function has no callers) | `crc16_unreduced_refuted` |
| F18 | lib/ts_packet.cpp getPCR | base*300 is ORed with the extension instead of added, and the base is assembled in a 32 bit int | pcr_read_back_refuted |
| F19 | lib/ts_packet.cpp getPES*LeadIn | ES_rate is written without shifting past the marker bit: receivers read half the rate | pes_es_rate_refuted |
| F20 | lib/ts_packet.cpp getPESAudioLeadIn, getPESMetaLeadIn, getPESPS1LeadIn | length of frames of 65528 bytes or more truncated to 16 bits; the server's own demuxer then drops the frame | pes_length_overflow_refuted, ts_large_audio_frame_refuted |
| F21 | lib/ts_stream.cpp parsePES | a frame whose PTS has wrapped while its DTS has not is taken for "DTS > PTS"; the rollover counter is raised too early and the following frames jump 26.5 hours ahead | ts_offset_across_wrap_refuted |
| F22 | lib/ts_packet.cpp getPayloadLength, lib/ts_stream.cpp parsePES | adaptation field length above 183 gives a negative payload length, passed to memcpy | ts_demux_negative_length_refuted |
| F23 | lib/ts_stream.cpp parsePES | time stamps announced by the flags are read without checking that they are there | ts_demux_overread_refuted |
| F24 | lib/ts_stream.cpp parsePES | optional header fields beyond the end of the data make the loop offset stand still: endless loop | ts_demux_hangs_refuted |
| F25 | lib/rtmpchunks.cpp Pack/Parse | a forward jump of 0xffffff ms or more is sent as an extended delta but read as an absolute time | rtmp_jump_refuted |
| F26 | lib/rtmpchunks.cpp Parse | the top byte of an extended timestamp is shifted as int: times from 2^31 ms on are sign extended | rtmp_late_time_refuted |
| F27 | lib/rtmpchunks.cpp Parse | at least 3 bytes are wanted for any chunk, so a complete message whose last chunk takes 2 bytes is held back | rtmp_held_back_refuted |
| F28 | lib/rtmpchunks.cpp Parse | a full header in the middle of an unfinished message prepends the abandoned bytes to the new message | rtmp_abandoned_refuted |
| F29 | src/output/output_rtmp.cpp sendNext | a format 3 header is used for an equal time, while it means the last delta again: wrong times from then on | rtmp_media_same_time_refuted |
| F30 | src/output/output_rtmp.cpp parseChunk | control messages are read as 4 or more bytes without a length check | rtmp_short_control_refuted |
| F31 | lib/util.cpp RelAccX::getInt | a signed field of 3 bytes is not sign extended | rax_signed24_refuted |
| F32 | lib/util.cpp RelAccX::addField/setInt | integer fields of 5 to 7 bytes can be declared, but writes are dropped | rax_int40_refuted |
| F33 | lib/util.cpp splitString | a text that begins with the delimiter and holds another one: the second piece keeps the first delimiter | split_leading_refuted |
| F34 | lib/util.cpp stringTrim | a text whose only non-blank is its first character is trimmed to nothing | trim_single_refuted |
| F35 | lib/util.cpp shellSplit | a backslash in single quotes is interpreted, unlike in a shell | shell_single_quote_refuted |
| F36 | lib/stream.cpp sanitizeName | a question mark ends the filter: everything before the last one is kept unfiltered | sanitize_query_refuted |
| F37 | lib/util.cpp expBackoffMs | for short limits the sum of the waits exceeds the limit | backoff_short_refuted |
| F38 | lib/util.cpp generateUUID | reads 31 random numbers from an array of 16 | uuid_overread_refuted |
| F39 | lib/socket.cpp matchIPv6Addr, isBinAddress | prefix length 0 matches only the address itself | address_prefix_zero_refuted, address_range_zero_refuted |
| F40 | lib/socket.cpp matchIPv6Addr | prefix lengths from 144 read beyond the address (IPv4 ranges from /48) | address_prefix_long_refuted |
| F41 | lib/socket.cpp isBinAddress | the prefix length is reduced modulo 256 | address_range_zero_refuted |
| F42 | lib/util.cpp ResizeablePointer::allocate | the size is a 32 bit number: an append past 4 GiB writes outside the block | buffer_4gib_refuted |
| F43 | lib/util.cpp ResizeablePointer::append | appending a buffer to itself reads freed memory | buffer_self_refuted |
| F44 | lib/util.cpp ResizeablePointer::operator== | inverted: equal contents compare unequal and different ones of the same size equal | buffer_equal_refuted |
| F45 | lib/stream.cpp packetSorter | entries with equal time and track are dropped in, and on the switch to, synchronised mode | sorter_duplicate_refuted |
| F46 | lib/rtp.cpp getContribCount | mask 0xE instead of 0xF: an odd number of contributing sources is read one too low, and the last source is taken for payload | rtp_contrib_count_refuted |
| F47 | lib/rtp.cpp getHsize | the extension length is read without checking that the packet holds it | rtp_payload_short_refuted |
| F48 | lib/rtp.cpp sendH264, sendH265 | fragmenting sends the whole size from one (two) bytes into the unit: one (two) bytes behind the unit are appended, read outside the frame for its last unit | rtp_h264_extra_byte_refuted, rtp_h264_overread_refuted, rtp_h265_extra_bytes_refuted, rtp_h265_overread_refuted |
| F49 | lib/rtp.cpp sendData | the four byte unit length is read as eight bytes: over-read when the last unit has less than four bytes | rtp_h264_short_unit_refuted |
| F50 | lib/rtp.cpp addRTP | the sequence check compares an unsigned int with an int: a unit whose fragments span the wrap 65535 to 0 is dropped | rtp_h264_wrap_refuted |
| F51 | lib/rtp.cpp handleH264, handleHEVC | sizes in aggregation packets and the presence of the fragment header are not checked: over-read | rtp_h264_receive_overread_refuted |
| F52 | lib/rtp.cpp Sorter::addPacket | after an in order packet the buffered successors wait for the next arrival, which may give up on them first: packets that overtake by more than half the drop limit are lost | rtp_sorter_distance_refuted |
| F53 | lib/rtp.cpp Sorter::addPacket | the first packet is the numerically smallest of five: a wrap among them loses packets | rtp_sorter_start_refuted |
| F54 | lib/rtp.cpp Sorter::addPacket | buffered packets that were skipped are never removed and are handed over 65536 packets later | rtp_sorter_stale_refuted |
| F55 | lib/json.cpp toPacked | a double takes ten bytes, packedSize announces nine; in an array or object everything behind it is misread | dtmi_double_size_refuted, dtmi_double_refuted |
| F56 | lib/json.cpp toPacked, fromDTMI | empty arrays and objects come back unset, booleans as numbers, members without name are dropped | dtmi_empty_refuted, dtmi_bool_refuted, dtmi_name_refuted |
| F57 | lib/json.cpp fromDTMI | a truncated number, string or double inside an array does not advance: endless loop that grows the array | dtmi_decode_endless_refuted |
| F58 | lib/json.cpp fromDTMI | a string is copied before its length is compared with the end of the data | dtmi_decode_overread_refuted |
| F59 | lib/dtsc.cpp genericFill | an empty payload makes an invalid packet; a null payload with a size is copied from address zero although zero filling is documented | dtsc_empty_payload_refuted, dtsc_null_payload_refuted |
| F60 | lib/dtsc.cpp setKeyFrame | a packet built without the flag silently stays without it | dtsc_set_key_refuted |
| F61 | lib/dtsc.cpp Scan::getMember, getIndice, getSize, getIndiceName | two bytes are read before the position is compared with the end, and skipDTSC may return a position up to 4 GiB behind the end | dtsc_member_overread_refuted, dtsc_member_far_refuted |
| F62 | lib/dtsc.cpp getTime, getTrackId | fixed offsets are read without looking at the length of the packet | dtsc_header_overread_refuted |
| F63 | lib/json.cpp UTF8 | the branch for three byte characters repeats the test of the two byte one and is never taken: U+0800 to U+FFFF come back as other characters | json_three_bytes_refuted |
| F64 | lib/json.cpp string_escape | bytes that are no UTF-8 are printed as characters and come back as two bytes | json_lone_byte_refuted |
| F65 | lib/json.cpp Value(std::istream &) | signed overflow on long numbers, among them the smallest integer as the code prints it | json_min_int_refuted, json_overflow_refuted |
| F66 | lib/json.cpp Value(std::istream &) | exponents are not understood: 1e+20, as doubles are printed, parses as 120 | json_exponent_refuted |
| F67 | lib/json.cpp read_string | an unterminated string ends with a char that was never written | json_unterminated_refuted |
| F68 | lib/amf.cpp parseOne | a value cut off before its length is complete: the clamped length wraps around and four gigabytes are copied; several tags are followed by reads without any check | amf_string_overread_refuted, amf_tag_overread_refuted |
| F69 | lib/amf.cpp parseOne | a 32 bit length with the top bit set overflows an int | amf_length_overflow_refuted |
| F70 | lib/amf.cpp parseOne | the count of a strict array is trusted: five bytes become two billion objects | amf_amplifies |
| F71 | lib/amf.cpp parseOne | the class name of a typed object is not stepped over and is read again as the first member name | amf_typed_refuted |
| F72 | lib/amf.cpp Pack, parseOne | members without a name end their object; types that are packed but not parsed drop the rest | amf_nameless_refuted, amf_movieclip_refuted |
| F73 | lib/dtsc.cpp update | a pause of 65536 ms or more between two packets wraps the 16 bit duration of a part | meta_part_duration_refuted |
| F74 | lib/dtsc.cpp update | a jump of exactly 2^32 ms between two fragments divides by zero | meta_jump_traps_refuted |
| F75 | lib/dtsc.cpp removeFirstKey | evicting from a track whose only fragment lost its first key ends the process | meta_evict_quits_refuted |
| F76 | lib/dtsc.cpp removeFirstKey | evicting from a track without data pages ends the process | meta_evict_no_page_refuted |
| F77 | lib/dtsc.cpp getKeyIndexForTime, getPartIndex | at the time of the newest packet the answer is one past the end | meta_key_index_refuted, meta_part_index_refuted |
| F78 | lib/dtsc.cpp getPartTime | the search starts at key 0, not at the first key kept: after evictions nearly every answer is wrong | meta_part_time_refuted |
| F79 | lib/dtsc.cpp update | keyframes with equal times make keys with equal times | meta_key_times_strict_refuted |
| F80 | src/output/output.cpp seek | the loop over the packets of a page does not look at the size of the page: behind the last packet of a page filled to the last byte it reads beyond the mapping | page_full_refuted |
| F81 | src/io.cpp bufferNext | a packet that does not fit is dropped, later smaller ones are kept | page_gap_refuted |
| F82 | src/io.cpp bufferLivePacket | the number of parts in a page's record is only set when the next page is started while this one is open; a page closed by liveFinalize keeps the value the ring slot had before | live_parts_refuted |
| F83 | src/io.cpp bufferNext, bufferLivePacket | a packet that does not fit on the page is dropped from the page, but the part, key and fragment tables and the last time are updated as if it had been stored | live_dropped_refuted |
| F84 | lib/comms.cpp Comms::reload | a process that is killed between taking and releasing the page's semaphore leaves it taken: no process can register on that page any more | comms_killed_refuted |
| F85 | src/input/input_ts.cpp:162 with lib/comms.cpp ~Comms | the record is marked as left but not forgotten; when it has been given to another client, the destructor marks that client's record as left, and a third client gets it too | comms_marked_refuted |
| F86 | lib/comms.cpp Connections::reload, ~Comms | the semaphore is opened before the page; if the page's owner ends and another starts in between (the old one unlinks the semaphore), a client claims a record of the new page under the old semaphore, and another client claims the same record | comms_restart_refuted |
| F87 | lib/comms.h COMM_LOOP, lib/comms.cpp setRecordCount | the number of records is lowered although a client has registered behind it since the loop passed; that client is not polled from then on | comms_hidden_refuted |
| F88 | src/session.cpp userOnActive | a counter is read once to be added and again to be remembered; what was counted in between is never added | session_window_refuted |
| F89 | src/session.cpp userOnActive, lib/comms.h COMM_LOOP | a connection whose record is older than ten seconds is skipped; if it has left, its record is freed without reading its last counts | session_stale_refuted |
| F90 | src/session.cpp userOnActive | now - 10 is unsigned: in the first ten seconds after boot all connections are skipped | session_boot_refuted |
| F91 | lib/comms.cpp generateSession | components are joined without separators: a viewer can choose a token that gives the session id of another stream's viewer, for every digest | session_ambiguous_refuted |
| F92 | lib/auth.cpp:132 and 244 (md5bin, sha256bin) | the top byte of the 64 bit length is taken with a shift of 54 instead of 56: digests of messages of 2^51 bytes and more are wrong | the bound of md5_partial and sha256_partial |
| F93 | lib/url.cpp:51-95 (URL constructor) | dots are removed before percent decoding: `http://h/%2e%2e/%2e%2e/etc/passwd` has the path `../../etc/passwd`, which leads out of the root | url_encoded_dots_refuted |
| F94 | lib/url.cpp:85 | the test for `../..` also matches a name that ends with two dots: `/x/a../..` keeps its `..` | url_odd_end_refuted |
| F95 | lib/url.cpp:93 | isLocalPath is asked before the host is known: `//h/a%20b` is not decoded but encoded again when printed; `file:` likewise, so each round trip makes the text longer | url_host_only_refuted, url_file_refuted |
| F96 | lib/url.cpp:345-351 (link) | a link from the root moves its query into the path, is not decoded, and takes the fragment of the page | url_link_query_refuted |
| F97 | lib/url.cpp:22, 332 | `://` is searched in the whole text: a local name or relative link whose query contains a URL is taken for a full URL | url_nested_refuted |
| F98 | lib/url.cpp:356 (link) | a link that is only a query is looked up in the directory instead of the document | url_query_only_refuted |
| F99 | lib/url.cpp:134-149 | an IPv6 address without brackets loses its last group to the port | url_bare_v6_refuted |
| F100 | lib/http_parser.cpp:612-616 | `Content-Length: -1` without a body callback: reserve of 2^64-1 bytes throws std::length_error, which nothing catches | http_negative_length_refuted |
| F101 | lib/http_parser.cpp:229 (BuildResponse) | `Content-Length: 0` is not sent: on a connection that stays open the reader waits for the end of a body that never comes | http_empty_answer_refuted |
| F102 | lib/http_parser.cpp:698-702 | chunk extensions and blanks behind a chunk length count as hexadecimal digits: the length is wrong and the body never ends | http_chunk_extension_refuted |
| F103 | lib/http_parser.cpp:703-707 | the last chunk and the trailer fields stay in the buffer; a trailer with two blanks is read as the next request | http_trailer_refuted |
| F104 | lib/http_parser.cpp:526 | on a connection that is already closed an answer without length is complete, and empty, as soon as its head is read | http_closed_early_refuted |
| F105 | lib/socket.cpp:1542-1548 | a chunk of 4 GiB or more: its ninth digit is written in front of the array | http_send_chunk_long_refuted |
| F106 | lib/http_parser.cpp:150-151 (BuildRequest) | a question mark in the URL is percent encoded, and then the variables are not sent at all | http_request_question_refuted |
| F107 | lib/dtsc.cpp:2048-2072 (claimTrack) | the list is not reloaded under the semaphore: after it has grown, one process claims a track in the old list and another one in the new list | tracks_stale_claim_refuted |
| F108 | src/input/input.cpp:1219-1220 | a real time input does not look at the answer of claimTrack and writes to a track that another process has claimed in between | tracks_real_time_refuted |
| F109 | lib/dtsc.cpp:1986, lib/shared_memory.cpp (semaphore) | a process that is killed while it holds the semaphore of the list: no track can be added or claimed any more | tracks_crash_blocks_refuted |
| F110 | lib/dtsc.cpp:2074-2080 (abandonTrack) | no semaphore: a track that is abandoned while the list is being copied stays claimed by a process that no longer uses it | tracks_abandon_lost_refuted |
| F111 | lib/jwt.cpp:235, 248, lib/auth.cpp:439 | the algorithm that the token asks for is not compared with the type of the key it names: with HS256 and the id of an RSA or EC key, the HMAC is computed with an empty secret, so that everybody can sign tokens | jwt_forged_refuted |
| F112 | lib/jwt.cpp:129-130, 189 | a subject with a star (or none at all) is matched against the patterns of the key as a pattern itself: the holder of a key for "foo*" opens every stream with the subject "*" | jwt_scope_refuted |
| F113 | lib/jwt.cpp:19-22 | a name that is shorter than the fixed parts of a pattern is compared with parts of them only: "f" matches "foo*" and "aba" matches "ab*ba" | jwt_pattern_refuted |
| F114 | lib/jwt.cpp:192 | a token is accepted in the second in which it expires (RFC 7519: "on or after" must be rejected), and a negative expiry never expires | jwt_expiry_refuted |
| F115 | lib/jwt.cpp:374-386, 454-455 | the length of the signature is not checked: mbedtls reads past the end of a short one | jwt_short_signature_refuted |
| F116 | src/controller/controller_storage.cpp:1079, lib/json.cpp:858-860 | a key without "kid", which the standard allows, makes the controller read the end of a map | jwt_stored_refuted |
| F117 | lib/jwt.cpp:42-49 | bytes from 0x80 on count as base64url; and lib/jwt.cpp:147 does not look at the answer of isJWS at all | jwt_form_refuted |
| F118 | src/input/input_buffer.cpp:395 | the idle time counts in whole seconds, rounded down: with 1999 ms a track is removed after 1001 ms | win_idle_time_refuted |
| F119 | src/input/input_buffer.cpp:371 | a track updated after the clock was read does not count as active, because the difference wraps around: another track next to it may be removed as too far away from the active ones | win_just_updated_refuted |
| F120 | src/input/input_buffer.cpp:441-452 | the second key of an audio track is compared with the video once, but several keys may then be evicted: the first seconds of the video are left without sound | win_audio_refuted |
| F121 | lib/mp4.cpp:571-596 | a field that lies half inside the box is not overwritten: room is made before the bytes already there, which move behind the new field | mp4_field_across_refuted |
| F122 | lib/mp4.cpp:571-596 | a box that was made shorter keeps its old bytes behind its end; a field written further on makes them part of the box again, where zeros are expected | mp4_stale_refuted |
| F123 | lib/mp4.cpp:500-511 | setString adds the header to the index and getStringLen adds it again: the text eight bytes further is measured, so replacing a text by one of another length destroys what follows | mp4_text_replace_refuted |
| F124 | lib/mp4.cpp:553-566, 655-676 | an empty last box in a container is counted but cannot be found by type, and a box set behind it is put before it | mp4_empty_last_refuted |
| F125 | lib/mp4.cpp:627-641 | setContent with a number beyond the next one inserts its placeholder zeros at an offset that lacks the header, that is inside the box before | mp4_set_past_refuted |
| F126 | lib/mp4.cpp:643-653 | getContent with the number just behind the last one (> where >= is meant) appends an error box to the container it only reads | mp4_get_past_refuted |
| F127 | lib/mp4.cpp:655-676 | an inner box with size zero in a file makes the search for a box endless | mp4_endless_refuted |
| F128 | lib/mp4.cpp:655-676, 22-42 | the claimed size of an inner box is trusted: its fields are read outside of the memory of the outer box | mp4_child_outside_refuted |
| F129 | lib/mp4.cpp:125-152 | a box with a 64-bit size is read from a file with a size taken from twelve bytes too far; skipBox and reading from a string take it from the right place | mp4_read_large_refuted |
| F130 | lib/mp4.cpp:127, 163 | the last box of a file is not read when shorter than sixteen bytes; an empty box with a 64-bit size is not read from a string until another byte follows | mp4_short_last_refuted, mp4_read_large_refuted |
| F131 | lib/cmaf.cpp:226-232 | parts are put into a set ordered by time alone: a packet with the time of the one before is left out of the table, while sizes and the offset of the data count it; the segment cannot be played | cmaf_same_time_refuted |
| F132 | lib/cmaf.cpp:219, 249-255 | the first packet is given the time asked for, not its own: a segment that starts between packets is played too early | cmaf_late_start_refuted |
| F133 | lib/cmaf.cpp:258-277 | negative offsets are written into a run of version 0, whose offsets are unsigned | cmaf_negative_offset_refuted |
| F134 | lib/cmaf.cpp:209, src/output/output_cmaf.cpp:466 | a segment up to the time of the newest packet announces that packet, which is not sent | cmaf_newest_refuted |
| F135 | lib/cmaf.cpp:262 | for a range without packets the first element of an empty set is read; the check for this case comes later | cmaf_empty_refuted |
| F136 | src/output/output_webrtc.cpp:2006-2070, 1745-1775 | the integrity of a request is never checked: whoever knows the name is answered, keeps the session alive and can have a candidate selected | stun_unchecked_refuted |
| F137 | lib/stun.cpp:43, 64 | an attribute without value is not found when it is the last (offset + 4 < size where <= is meant) | stun_last_refuted |
| F138 | lib/stun.cpp:41-81 | the length field is not looked at: bytes behind the message, and attributes behind its integrity, are used like the others | stun_length_refuted |
| F139 | lib/adts.cpp:151-153, lib/ts_stream.cpp:640-668 | a PES packet that ends within an ADTS header, or with a byte that is no frame: the byte behind its copy is read, and the frame is lost | aac_header_cut_refuted |
| F140 | lib/ts_stream.cpp:648-656 | an ADTS frame without data makes a packet without any content | aac_empty_refuted |
| F141 | lib/ts_stream.cpp:633 | a frame that ends in a packet whose time is less than its duration gets a time near 2^64 | aac_wrap_refuted |
| F142 | lib/ts_packet.h:259 | object types above four are sent as others, HE-AAC (5) as AAC Main | aac_objtype_refuted |
| F143 | lib/ts_packet.h:266-268 | a packet above 8184 bytes is sent with a length modulo 8192 | aac_long_refuted |
| F144 | src/input/input_aac.cpp:157-177, 262-283 | a file that ends within a frame is read beyond its end; a frame said to be shorter than six bytes is written beyond its memory | aac_file_cut_refuted, aac_file_short_refuted |
| F145 | lib/ts_stream.cpp:686-700 | the size of an Opus access unit is read without looking at the end of the packet | opus_short_refuted |
| F146 | lib/opus.cpp:33-35, lib/ts_stream.cpp:710 | durations are cut to whole milliseconds: packets of 2.5 ms in one PES packet drift | opus_drift_refuted |
| F147 | lib/ts_stream.cpp:36-60 | a byte kept from before a loss of synchronisation stays; later a packet that was never sent is handed on | psi_stale_refuted |
| F148 | lib/ts_stream.cpp:260-320, lib/ts_packet.cpp:1060-1097 | lengths in a table are followed past the end of the packet, lengths of descriptors past the end of theirs | psi_pmt_overread_refuted |
| F149 | lib/ts_packet.cpp:1935 | the length of the service descriptor is one too large | psi_sdt_descriptor_refuted |
| F150 | lib/ts_packet.cpp:1932 | the service is marked as scrambled (free_CA_mode 1) although it is not | psi_sdt_written_partial |
| F151 | lib/ts_packet.cpp:1369-1474 | tables of many tracks are written past the end of the static buffer | psi_many_tracks_refuted |
| F152 | lib/ts_packet.cpp:1375, 1451-1470 | the init data of an ID3 track is counted and then written over; what is left is read as streams | psi_id3_init_refuted |
| F153 | lib/ts_packet.cpp:1453-1455 | raw tracks are announced so that the receiver does not know them | psi_raw_refuted |
| F154 | lib/ts_packet.cpp:1388 | the program descriptor is counted for every track of splice information: stale bytes in the section | psi_two_splices_refuted |
| F155 | lib/ts_stream.cpp:260-320 | a stream whose type changes to one that is not supported, or that is gone, stays what it was | psi_changed_type_refuted |
| F156 | lib/ts_stream.cpp:290-300 | registered AV1 is taken for JSON if raw data was said to be JSON | psi_av1_json_refuted |
| F157 | src/output/output_ts_base.cpp:146, 176-191 | the length of the PES packet counts lengths of four bytes; with lengths of two bytes packets say the wrong length and are thrown away | avc_short_lengths_refuted |
| F158 | src/output/output_ts_base.cpp:181-182 | lengths of three bytes are read as one byte | avc_three_byte_lengths_refuted |
| F159 | src/output/output_ts_base.cpp:184 | the check of a unit's size wraps around in 32 bits: memory behind the frame is sent | avc_size_wrap_refuted |
| F160 | src/output/output_ts_base.cpp:184-188 | a truncated last unit is not sent but counted: the whole frame is lost | avc_truncated_refuted |
| F161 | lib/ts_stream.cpp:835-847 | the first unit of a frame sets the key flag of the frame before it | avc_key_misplaced_refuted |
| F162 | lib/ts_stream.cpp:840-847 | two frames within a millisecond become one packet | avc_merged_refuted |
| F163 | lib/ts_stream.cpp:790-816 | a unit that goes on in the next PES packet, before a start code: its rest becomes a unit of its own | avc_split_unit_refuted |
| F164 | lib/ts_stream.cpp:773-816 | a stream that begins inside a unit: reads outside of memory, or a packet without data | avc_no_start_refuted |
| F165 | lib/rtp_fec.cpp:266 | the mask is tested with (1 << 7) - bit: of the 256 values of a byte 4 are understood | mask_understood, made_up_refuted |
| F166 | lib/rtp_fec.cpp:266, 316-417 | so a lost packet that is not protected at all is made up from others and played | made_up_refuted |
| F167 | lib/rtp_fec.cpp:414 | the recovered packet is cut to the size of its payload: its last 12 bytes are missing; its source is that of other bytes | recovered_refuted |
| F168 | lib/rtp_fec.cpp:409 | recovery of a packet larger than the others reads past their end | sizes_refuted |
| F169 | lib/rtp_fec.cpp:499-507 | an error correction packet below 23 bytes: a null pointer is used | short_packet_refuted |
| F170 | lib/rtp_fec.cpp:422 | when sequence numbers wrap old packets stay in the history and are used 65536 packets later | history_refuted |
| F171 | lib/rtp.cpp:187-191 | a packet of another size than the first is left out of error correction, and the next rows name the wrong packets (the only caller sends one size) | other_size_refuted |
| F172 | lib/ogg.cpp:500-503 | the checksum of a page leaves out the 4 bytes of the checksum, instead of taking zeros: every page sent has another checksum than players compute | ogg_checksum_refuted |
| F173 | lib/ogg.cpp:480 | a packet that fills a page to the last byte has no end, the next packet is taken for its rest | ogg_multiple_refuted |
| F174 | lib/ogg.h granules, lib/ogg.cpp:487-499 | positions are an int: from 2^31 samples on they are negative | ogg_granule_refuted |
| F175 | src/output/output_ogg.cpp:66 | the page at the end loses the flag that it goes on with a packet | ogg_end_refuted |
| F176 | lib/ogg.cpp:476-483, 527 | a comment header larger than a page before another header packet: bytes past the end of the other are sent | ogg_large_header_refuted |
| F177 | src/output/output_ogg.cpp:154 | the vendor length of the Opus comment header is in network order, not little endian | ogg_opus_tags_refuted |
| F178 | lib/flv_tag.cpp:451 | the time offset of HEVC and AVC coded frames without tracks is read one byte too late: its lower two bytes and the first byte of data | enhanced_offset_refuted |
| F179 | src/output/output_rtmp.cpp:1012-1024 | AV1, VP8 and VP9 with a time offset are sent with one, that the format and the own receiver do not know: three bytes before the data | av1_offset_refuted |
| F180 | lib/flv_tag.cpp:436-460 | offset() does not look at the type of the tag: for audio of 11025 up to 22049 Hz, 16 bits, stereo, data are read as a time offset, or bytes past the end | audio_offset_refuted |
| F181 | lib/flv_tag.cpp:187-200 | a modifier that says it is longer than the message is followed past the end of the buffer | short_message_refuted |
| F182 | src/output/output_rtmp.cpp:1042 | audio of one track of many has packet type 5 (multitrack again) in place of 1 (coded frames) | multitrack_audio_refuted |
| F183 | src/output/output_wav.cpp:84 | the size of a PCM file is 12 larger than the file: a chunk is counted that is not sent | wav_pcm_size_refuted |
| F184 | src/output/output_wav.cpp:95 | the block size has the bits of a sample times 8 in place of divided by 8 | wav_block_size_refuted |
| F185 | src/output/output_wav.cpp:106 | the list of information has the type info, not INFO | wav_info_refuted |
| F186 | lib/riff.cpp:53; src/output/output_wav.cpp:109-111 | nobody adds or skips the byte after chunks of odd size | riff_odd_refuted |
| F187 | src/output/output_wav.cpp:46-57 | PCM packets of a size that is no multiple of the sample size are read and written past their end | wav_odd_refuted |
| F188 | src/output/output_wav.cpp:44-59 | PCM with 32 bits is replaced by what was in memory | wav_32_bits_refuted |
| F189 | src/output/output_wav.cpp:78-82 | sizes are counted in 32 bits: data of 2^32 bytes have the size 0 | wav_large_refuted |
| F190 | lib/riff.cpp:8, 53 | the size of a chunk plus 8 overflows: the check lets it pass, and walking over a list never ends | riff_overflow_refuted |
| F191 | lib/rtp.cpp:374-376 | a unit of less than 4 bytes, when 2 or 3 bytes are left in a packet: the length of a copy wraps around | av1_small_unit_refuted |
| F192 | lib/rtp.cpp:339-343, 353-358 | a frame that is cut short has a unit of size 0, which is tried again for ever | av1_cut_short_refuted |
| F193 | lib/av1.cpp:42 | sizes in 6 to 8 bytes, which the format allows: an int is shifted by more than it has bits | av1_wide_size_refuted |
| F194 | lib/flac.cpp:43-48 | frame numbers of 17 to 21 bits are read as 2^22 more, longer ones as 0 | flac_number_refuted |
| F195 | lib/flac.cpp:43-48; src/input/input_flac.cpp:279 | no frame is taken for the one after frame 65535 (101 minutes of 4096 samples at 44100 Hz): the rest of the file becomes one frame | flac_frame_65536_refuted |
| F196 | lib/flac.cpp:107 | the code of the sample size is not shifted: every sample size is wrong | flac_sample_size_refuted |
| F197 | lib/flac.cpp:207 | the checksum is read from 3 bytes too early | flac_md5_refuted |
