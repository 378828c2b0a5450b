{"id": "C01", "title": "Base64 round trip", "statement": "Decoding the Base64 text produced for any byte string gives that byte string back; the text has length 4*ceil(n/3), uses only the 64 alphabet characters plus trailing '='.", "quantifier": "every byte string of every length", "why_tests_cant": "The input space is infinite; padding and the pending-bit state depend on the length modulo 3 and on every byte value.", "anchors": ["lib/encode.cpp: Encodings::Base64::encode, decode, b64CharVal"]}
{"id": "C02", "title": "Hex round trip", "statement": "Hex-decoding the hex text of any byte string gives the byte string back, for both letter cases; hex text has exactly twice the length. Decoding text of odd length must not write outside the result.", "quantifier": "every byte string; every text of even and odd length", "why_tests_cant": "Infinite inputs; the odd-length case is undefined behaviour that a passing run does not show.", "anchors": ["lib/encode.cpp: Encodings::Hex::encode, decode, chr, ord"]}
{"id": "C03", "title": "Percent-encoding round trip", "statement": "URL-decoding the URL-encoding of any byte string (with any set of characters exempted that does not contain '%' or '+') gives the byte string back, and the encoded text contains only unreserved, exempted and %XX sequences.", "quantifier": "every byte string, every exemption set without '%' and '+'", "why_tests_cant": "All 256 byte values in all positions and all exemption strings.", "anchors": ["lib/encode.cpp: Encodings::URL::encode, decode"]}
{"id": "C04", "title": "Fixed width integers are stored and read back faithfully", "statement": "For each of the 16/24/32/40/48/56/64 bit big endian and little endian accessors, reading a field just written gives the value modulo 2^width, and bytes outside the field are unchanged. The same is claimed for the floating point accessors.", "quantifier": "every value, every accessor width, every surrounding buffer content", "why_tests_cant": "2^64 values per accessor.", "anchors": ["lib/bitfields.h: Bit::btohs, htobs, btoh24, htob24, btohl, htobl, btoh40, htob40, btoh48, htob48, btoh56, htob56, btohll, htobll, *_le, htobd, btohd"]}
{"id": "C05", "title": "Sub-byte bit fields", "statement": "Writing a big endian bit field at any bit offset and width up to 64 and reading it back returns the value, and no bit outside the addressed range changes.", "quantifier": "every buffer, bit offset, width and value", "why_tests_cant": "Product of unbounded buffers, 64 widths, 8 alignments and 2^64 values.", "anchors": ["lib/bitfields.cpp: Bit::getMSB, setMSB, stringToBool"]}
{"id": "C06", "title": "Bit stream write/read round trip", "statement": "Any sequence of fixed-width and Exp-Golomb (signed and unsigned) values written with the bit writer is read back identically, in order, by the bit reader.", "quantifier": "every finite sequence of (kind, value) pairs", "why_tests_cant": "Sequences of unbounded length; the alignment at each element depends on the entire prefix.", "anchors": ["lib/bitstream.cpp: Utils::bitWriter::append, appendExpGolomb, appendUExpGolomb; Utils::bitstream::get, getExpGolomb, getUExpGolomb"]}
{"id": "C07", "title": "Receive buffer is a lossless FIFO", "statement": "For every sequence of append/prepend/remove/copy/skip/clear operations the receive buffer behaves as a single byte queue: what comes out is exactly what went in, in order, independent of how it is segmented internally or of the configured separator, and the availability query is exact.", "quantifier": "every history of buffer operations, every separator string, every segment size", "why_tests_cant": "Histories are unbounded and the internal segmentation differs for each.", "anchors": ["lib/socket.cpp: Socket::Buffer::append, prepend, remove, copy, skip, available, bytes, bytesToSplit, get, size, clear"]}
{"id": "C08", "title": "Splitting at the separator finds message boundaries", "statement": "When the buffer is filled by appends only, the number of bytes reported up to the separator is exactly the length of the shortest prefix ending with the separator, regardless of how the data arrived.", "quantifier": "every byte stream, separator and segmentation of arrival", "why_tests_cant": "Depends on all the ways a separator can straddle arrival boundaries.", "anchors": ["lib/socket.cpp: Socket::Buffer::append, bytesToSplit"]}
{"id": "C09", "title": "WebSocket framing round trip", "statement": "A text/binary message of any length sent by one side is received unchanged by the other side, masked or not, for all three length encodings, and independent of how the bytes arrive.", "quantifier": "every payload, mask key and segmentation", "why_tests_cant": "Length classes 125/126/65535/65536 and unbounded payloads.", "anchors": ["lib/websocket.cpp: HTTP::Websocket::sendFrameHead, sendFrameData, readFrame"]}
{"id": "C10", "title": "WebSocket fragmented messages", "statement": "A fragmented message is delivered as the concatenation of its fragments, also if control frames are interleaved.", "quantifier": "every list of fragments and interleaved control frames", "why_tests_cant": "Unbounded interleavings.", "anchors": ["lib/websocket.cpp: HTTP::Websocket::readFrame"]}
{"id": "C11", "title": "NAL unit framing conversion", "statement": "Converting a sequence of NAL units from length-prefixed form to start-code form and back yields the same sequence, for units that contain no start code themselves and do not end in a zero byte.", "quantifier": "every finite sequence of NAL units", "why_tests_cant": "Unbounded sequences; start codes can straddle units.", "anchors": ["lib/nal.cpp: nalu::toAnnexB, fromAnnexB, scanAnnexB"]}
{"id": "C12", "title": "Emulation prevention removal", "statement": "Removing emulation-prevention bytes inverts the standard insertion procedure for every payload.", "quantifier": "every raw payload", "why_tests_cant": "Zero-run state machine over unbounded input.", "anchors": ["lib/nal.cpp: nalu::removeEmulationPrevention"]}
{"id": "C13", "title": "RTMP chunk stream round trip", "statement": "Any sequence of RTMP messages on any chunk streams, chunked by the sender, is reassembled by the receiver into the same messages (type, timestamp, stream id, payload), for every chunk size, as long as both sides agree on it, however the bytes arrive.", "quantifier": "every sequence of messages, chunk sizes and segmentations", "why_tests_cant": "Header compression depends on the whole history per chunk stream.", "anchors": ["lib/rtmpchunks.cpp: RTMPStream::Chunk::Pack, Parse"]}
{"id": "C14", "title": "AMF0 round trip", "statement": "Every AMF0 value that can be built through the API decodes from its own encoding to an equal value, consuming exactly the encoded bytes.", "quantifier": "every value tree of supported types of any depth and breadth", "why_tests_cant": "Trees are unbounded.", "anchors": ["lib/amf.cpp: AMF::Object::Pack, AMF::parse, parseOne"]}
{"id": "C15", "title": "AMF0 decoder stays inside its input", "statement": "Decoding arbitrary bytes never reads beyond the given length and always terminates with progress.", "quantifier": "every byte string", "why_tests_cant": "Malformed input space is infinite.", "anchors": ["lib/amf.cpp: AMF::parse, parseOne"]}
{"id": "C16", "title": "JSON text round trip", "statement": "Printing any JSON value and parsing the text gives an equal value (strings with all byte values that are valid text, integers in 64 bit range, booleans, nested arrays and objects).", "quantifier": "every JSON value", "why_tests_cant": "Unbounded trees and strings.", "anchors": ["lib/json.cpp: JSON::Value::toString, JSON::fromString, string_escape, read_string"]}
{"id": "C17", "title": "JSON parser is total", "statement": "Parsing any text terminates, and returns a value, without reading outside the text.", "quantifier": "every byte string", "why_tests_cant": "Infinite malformed inputs.", "anchors": ["lib/json.cpp: JSON::Value::Value(std::istream&), fromString"]}
{"id": "C18", "title": "Binary metadata encoding round trip", "statement": "Packing any JSON value into the binary DTSC representation and scanning it again yields an equal value; the announced packed size is the actual size.", "quantifier": "every JSON value", "why_tests_cant": "Unbounded trees.", "anchors": ["lib/json.cpp: JSON::Value::toPacked, packedSize", "lib/dtsc.cpp: DTSC::Scan::*"]}
{"id": "C19", "title": "DTSC packet fields survive", "statement": "A media packet built from (time, offset, track, payload, byte position, keyframe flag) reports those same values through its accessors and its announced length equals the bytes it occupies.", "quantifier": "every time, offset, track, payload, position and flag", "why_tests_cant": "2^64 values times unbounded payloads.", "anchors": ["lib/dtsc.cpp: DTSC::Packet::genericFill, reInit, getTime, getTrackId, getInt, getString, getFlag, getDataLen"]}
{"id": "C20", "title": "Scanning a DTSC packet never leaves it", "statement": "Looking up any member in any received packet never reads beyond the packet's length and terminates.", "quantifier": "every packet content and every member name", "why_tests_cant": "Packets come from the network and from shared memory: all contents must be covered.", "anchors": ["lib/dtsc.cpp: DTSC::skipDTSC, Scan::getMember, getIndice, getSize"]}
{"id": "C21", "title": "Readers of a live page never see a partial packet", "statement": "While a packet is being appended to a shared data page, at every point of the append, including a crash at any store, a concurrent reader that trusts the page header/magic sees a sequence of complete packets: a prefix of the packets appended, possibly including the newest.", "quantifier": "every packet history, every crash point, every reader interleaving", "why_tests_cant": "Crash points and interleavings cannot be enumerated in a test run.", "anchors": ["src/io.cpp: Mist::InOutBase::bufferNext, bufferStart, bufferFinalize"]}
{"id": "C22", "title": "Pages are never overfilled", "statement": "Whatever packets arrive, appending a packet never writes beyond the data page, and per-page used-bytes/parts/keycount bookkeeping equals what the page holds.", "quantifier": "every history of packets and page starts", "why_tests_cant": "Histories are unbounded.", "anchors": ["src/io.cpp: bufferStart, bufferNext, bufferLivePacket"]}
{"id": "C23", "title": "Track timing tables stay consistent", "statement": "After any history of packets handed to a live track, the part, key and fragment tables are mutually consistent: keys' part ranges are contiguous and partition the parts, key times are strictly ordered, part durations sum to the time distance, sizes sum up, and time never runs backwards.", "quantifier": "every history of packets", "why_tests_cant": "Invariant over unbounded histories.", "anchors": ["lib/dtsc.cpp: DTSC::Meta::update, removeFirstKey"]}
{"id": "C24", "title": "Sliding window eviction keeps tables consistent", "statement": "Removing the oldest key from a live track keeps part, key and fragment windows consistent and first timestamp equal to the first remaining key.", "quantifier": "every history of packet arrivals and evictions", "why_tests_cant": "Invariant over unbounded histories.", "anchors": ["lib/dtsc.cpp: DTSC::Meta::removeFirstKey, Keys"]}
{"id": "C25", "title": "Time to key/part lookup is exact", "statement": "Looking up a time returns the last key starting at or before it (and for parts/fragments/pages correspondingly), for every track table.", "quantifier": "every well-formed table and every time", "why_tests_cant": "Tables are unbounded.", "anchors": ["lib/dtsc.cpp: Meta::getKeyNumForTime, getKeyIndexForTime, getFragmentIndexForTime, getPartIndex, getPageNumberForTime"]}
{"id": "C26", "title": "Structured shared memory: fields do not interfere", "statement": "In a structured shared page, writing any field of any record and reading it back gives the value (truncated to the field width), and no other field of any other live record, nor the header, changes.", "quantifier": "every layout built through the API, every record index and value", "why_tests_cant": "Layouts and record counts unbounded.", "anchors": ["lib/util.cpp: Util::RelAccX::addField, setReady, setInt, getInt, setString, getString, getPointer"]}
{"id": "C27", "title": "Structured shared memory: record window", "statement": "Over every history of record additions and deletions a record number is reported available exactly if it was added and not deleted, and the ring never maps two available records to the same slot.", "quantifier": "every history of addRecords/deleteRecords within capacity", "why_tests_cant": "Unbounded histories, wrap-around.", "anchors": ["lib/util.cpp: Util::RelAccX::addRecords, deleteRecords, isRecordAvailable, getStartPos, getEndPos, getDeleted"]}
{"id": "C28", "title": "No two clients own one statistics slot", "statement": "For every interleaving of any number of clients registering in a shared communication page, and every crash point, no two live clients own the same record.", "quantifier": "every number of processes, schedule and crash point", "why_tests_cant": "Schedules and crashes are not controllable in tests.", "anchors": ["lib/comms.cpp: Comms::Comms::reload, finishAll, ~Comms, keepAlive"]}
{"id": "C29", "title": "Session identity", "statement": "Two requests get the same session id exactly if they agree on the components selected by the session mode (stream, address, token, protocol), assuming the hash has no collisions.", "quantifier": "every pair of requests and session modes", "why_tests_cant": "All pairs of strings.", "anchors": ["lib/comms.cpp: Comms::Connections::generateSession"]}
{"id": "C30", "title": "Session statistics accounting", "statement": "The totals reported for a session equal the sum over connections of all increments of their counters, for every polling schedule, reuse of slots and disconnects.", "quantifier": "every history of counter updates, polls, disconnects and slot reuse", "why_tests_cant": "Unbounded histories.", "anchors": ["src/session.cpp: userOnActive, userOnDisconnect", "lib/comms.h: COMM_LOOP"]}
{"id": "C31", "title": "RTP reordering", "statement": "The RTP sorter delivers packets in strictly increasing sequence order modulo 2^16, never delivers a packet twice, and without loss delivers every packet, for every arrival order within the reorder window.", "quantifier": "every arrival sequence", "why_tests_cant": "All permutations and losses over unbounded sequences with wrap-around.", "anchors": ["lib/rtp.cpp: RTP::Sorter::addPacket, setCallback, wantSeq"]}
{"id": "C32", "title": "RTP H.264 fragmentation", "statement": "Any NAL unit split for transport in RTP is reassembled by the receiver to exactly the same NAL unit, and the sender reads only the NAL unit.", "quantifier": "every NAL unit size and payload limit", "why_tests_cant": "Boundary arithmetic over all sizes.", "anchors": ["lib/rtp.cpp: RTP::Packet::sendH264, RTP::toDTSC::handleH264"]}
{"id": "C33", "title": "RTP header accessors", "statement": "Header accessors (sequence, timestamp, SSRC, payload type, marker, contributing source count) return the field that the RTP standard defines, for every header; setters change only their own field.", "quantifier": "every 12+ byte header", "why_tests_cant": "2^96 headers.", "anchors": ["lib/rtp.cpp, lib/rtp.h: RTP::Packet getters and setters"]}
{"id": "C34", "title": "Transport stream packet fields are independent", "statement": "In a TS packet, setting PID, continuity counter, unit start, adaptation field and flags changes exactly that field, and reading returns what was set.", "quantifier": "every packet content and value", "why_tests_cant": "Unbounded combinations of prior packet contents.", "anchors": ["lib/ts_packet.cpp: TS::Packet::setPID, getPID, setContinuityCounter, setUnitStart, setAdaptationField"]}
{"id": "C35", "title": "TS packets are always exactly filled", "statement": "Filling and stuffing a TS packet with any amount of payload results in a packet of exactly 188 bytes whose payload is exactly the bytes supplied.", "quantifier": "every payload length and content", "why_tests_cant": "Boundary arithmetic between adaptation field sizes 0,1,>1.", "anchors": ["lib/ts_packet.cpp: TS::Packet::fillFree, addStuffing, getPayload, getPayloadLength"]}
{"id": "C36", "title": "PES timestamps", "statement": "PTS/DTS written in PES headers are read back exactly for every 33 bit value, and marker bits are as the standard demands.", "quantifier": "every 33 bit timestamp", "why_tests_cant": "2^33 values.", "anchors": ["lib/ts_packet.cpp: TS::Packet::getPESVideoLeadIn, encodePESTimestamp", "lib/ts_stream.cpp: decodePTS"]}
{"id": "C37", "title": "Program clock reference", "statement": "The PCR written to a packet is the PCR read back.", "quantifier": "every 42 bit clock value", "why_tests_cant": "2^42 values.", "anchors": ["lib/ts_packet.cpp: TS::Packet::setPCR, getPCR"]}
{"id": "C38", "title": "EBML variable length integers", "statement": "EBML size/id integers are written in the shortest form and read back exactly; the number of bytes is determined by the first byte.", "quantifier": "every 56 bit value", "why_tests_cant": "2^56 values.", "anchors": ["lib/ebml.cpp: EBML::UniInt::readSize, writeSize, readInt, writeInt"]}
{"id": "C39", "title": "EBML lacing", "statement": "The frames of a laced block partition the block's payload.", "quantifier": "every block and frame count", "why_tests_cant": "Unbounded frames and all size encodings.", "anchors": ["lib/ebml.cpp: EBML::Block::getFrameSize, getFrameData, getFrameCount"]}
{"id": "C40", "title": "Checksums equal their polynomial definition", "statement": "Each table driven checksum equals the bit by bit polynomial division for every input, and can be computed incrementally over any split of the data.", "quantifier": "every byte string, initial value and split", "why_tests_cant": "Infinite inputs; tests only spot check table entries.", "anchors": ["lib/checksum.h: checksum::crc32c, crc32LE, crc32, crc16, crc8"]}
{"id": "C41", "title": "Hashes and HMAC conform", "statement": "MD5, SHA-256, SHA-384, SHA-512 and HMAC results equal the published algorithms for every message and key.", "quantifier": "every message", "why_tests_cant": "Padding boundary behaviour for all lengths.", "anchors": ["lib/auth.cpp: Secure::md5bin, sha256bin, sha384bin, sha512bin, hmacbin"]}
{"id": "C42", "title": "Stream name sanitation", "statement": "A sanitized stream name (up to the wildcard separator) contains only lowercase letters, digits, '_', '-' and '.', and sanitizing twice changes nothing.", "quantifier": "every string", "why_tests_cant": "Security relevant for all inputs.", "anchors": ["lib/stream.cpp: Util::sanitizeName"]}
{"id": "C43", "title": "URL parsing never escapes the root and round trips", "statement": "Path normalisation leaves no '.', '..' components and parsing the printed form of a parsed URL gives the same URL.", "quantifier": "every string", "why_tests_cant": "Infinite hostile inputs.", "anchors": ["lib/url.cpp: HTTP::URL::URL, getUrl, getFilePath, link"]}
{"id": "C44", "title": "HTTP form variables round trip", "statement": "Printing a set of variables as a query string and parsing it gives the same set.", "quantifier": "every finite map of names to values", "why_tests_cant": "Unbounded maps and all byte values.", "anchors": ["lib/http_parser.cpp: HTTP::parseVars, HTTP::argStr"]}
{"id": "C45", "title": "HTTP parsing does not depend on packetisation", "statement": "The request parsed from a byte stream is the same however the stream is split into reads; the body has exactly the announced length; chunked bodies are the concatenation of the chunks.", "quantifier": "every request and every split", "why_tests_cant": "All splits of all requests.", "anchors": ["lib/http_parser.cpp: HTTP::Parser::Read, parse, Chunkify"]}
{"id": "C46", "title": "Playback packet order", "statement": "In synchronised mode, the packet sorter always yields the entry with the smallest timestamp, ties broken by track; no entry is lost or duplicated.", "quantifier": "every history of inserts, drops and replacements", "why_tests_cant": "Unbounded histories.", "anchors": ["lib/stream.cpp: Util::packetSorter, lib/stream.h: Util::sortedPageInfo"]}
{"id": "C47", "title": "Address range matching", "statement": "An address matches a prefix exactly if its leading prefix-length bits are equal.", "quantifier": "every pair of addresses and prefix length", "why_tests_cant": "2^256 pairs.", "anchors": ["lib/socket.cpp: Socket::matchIPv6Addr"]}
{"id": "C48", "title": "String utilities", "statement": "Splitting at a delimiter and joining gives the original text, every piece is delimiter free; trimming removes exactly leading and trailing whitespace.", "quantifier": "every string and delimiter", "why_tests_cant": "Infinite inputs.", "anchors": ["lib/util.cpp: Util::splitString, stringTrim, shellSplit"]}
{"id": "C49", "title": "Exponential back-off is bounded and monotone", "statement": "Retry waits never exceed half the limit, never decrease during a retry series, and sum to at most the limit.", "quantifier": "every iteration count and maximum wait", "why_tests_cant": "Unbounded iteration counts.", "anchors": ["lib/util.cpp: Util::expBackoffMs"]}
{"id": "C50", "title": "Growable buffer", "statement": "For every history of assign/append/allocate/truncate/shift, the growable buffer holds exactly the bytes of the corresponding sequence operations, and comparison is equality of contents.", "quantifier": "every history", "why_tests_cant": "Unbounded histories.", "anchors": ["lib/util.cpp: Util::ResizeablePointer"]}
{"id": "C51", "title": "Matroska elements are read back as sent", "statement": "An element sent by the server is read back by its own parser with the same identifier and value, the size announced in advance is the number of bytes sent, searching a tree of elements finds the first match in document order, and with a partial element the parser asks for more bytes but never more than the element has.", "quantifier": "every identifier, value, tree and prefix", "why_tests_cant": "Unbounded trees, all 64 bit values.", "anchors": ["lib/ebml_socketglue.cpp: EBML::sendElemUInt, sendElemStr, sendElemInt, sendSimpleBlock, sendElemSeek, sendElemCuePoint, sendElemEBML, sendElemInfo", "lib/ebml.cpp: EBML::Element::findChild, needBytes"]}
{"id": "C52", "title": "Transport stream survives its own round trip", "statement": "Frames of any number of tracks sent interleaved as a transport stream are delivered by the server's own demuxer, per track: all of them, in order, with the same data and composition offset, and with the same time (exact before the 33 bit clock wraps, less than one millisecond ahead per wrap after).", "quantifier": "every list of frames of every size, every interleaving of tracks, every start value of the counters", "why_tests_cant": "Unbounded frame counts, all sizes, clock wrap after 26.5 hours.", "anchors": ["src/output/output_ts_base.cpp: TSOutput::fillPacket, sendNext", "lib/ts_packet.cpp: TS::Packet::addStuffing, fillFree, getPESVideoLeadIn, getPESAudioLeadIn, getPESMetaLeadIn", "lib/ts_stream.cpp: TS::Stream::add, parse, parsePES, finish"]}
{"id": "C53", "title": "Transport stream demuxer is safe for every input", "statement": "For every sequence of 188 byte packets the demuxer ends, and reads and writes only its own buffers.", "quantifier": "every packet sequence", "why_tests_cant": "Hostile input space is unbounded.", "anchors": ["lib/ts_stream.cpp: TS::Stream::parsePES", "lib/ts_packet.cpp: TS::Packet::getPayloadLength"]}
{"id": "C54", "title": "Random identifiers", "statement": "A random text has the requested length and only letters and digits; a generated UUID has the standard form, and only the random bytes that were drawn are read.", "quantifier": "every outcome of the random source", "why_tests_cant": "All random outcomes.", "anchors": ["lib/util.cpp: Util::getRandomAlphanumeric, Util::generateUUID"]}
{"id": "C55", "title": "Command line splitting", "statement": "Splitting a configured command line is total, treats quotes and backslashes as documented, and every list of arguments can be written so that it is split back exactly.", "quantifier": "every command line and every list of arguments", "why_tests_cant": "Infinite inputs and quote combinations.", "anchors": ["lib/util.cpp: Util::shellSplit"]}
{"id": "C56", "title": "Text replacement", "statement": "Replacing a text replaces every non-overlapping occurrence, leftmost first, reports their number and always ends, also if the replacement contains the searched text.", "quantifier": "every text, pattern and replacement", "why_tests_cant": "Infinite inputs.", "anchors": ["lib/util.cpp: Util::replace"]}
{"id": "C57", "title": "One owner per track", "statement": "No two processes that asked for it own the same track of a stream, in any interleaving of adding, claiming and abandoning, with crashes at any point and while the list of tracks grows, and no track number is handed out twice.", "quantifier": "every number of processes, every history of calls, steps and crashes", "why_tests_cant": "Schedules and crash points are unbounded.", "anchors": ["lib/dtsc.cpp: Meta::addTrack, claimTrack, abandonTrack, resizeTrackList, reloadReplacedPagesIfNeeded", "src/input/input.cpp: realtimeMainLoop"]}
{"id": "C58", "title": "Access tokens", "statement": "A viewer or pusher who shows a token gets in exactly if the token has the right form, is in force, names the stream, and is signed with a configured key of the right type that grants the permission for that stream; a token that the holder of a key issues by the standard is accepted.", "quantifier": "every token text, list of keys, stream, address and time", "why_tests_cant": "Forgery and scope are statements about all tokens that nobody issued.", "anchors": ["lib/jwt.cpp: equalsWithWildcard, isJWS, Key, JWS, checkClaims, validateSignature, verify, verify_any, verify_hmac, verify_rsa, verify_ecdsa", "lib/auth.cpp: digest_hmac", "src/session.cpp", "src/output/output.cpp: checkStreamKey", "src/controller/controller_storage.cpp: writeConfig"]}
{"id": "C59", "title": "The window of a live stream", "statement": "A round of the live buffer always completes; it leaves out only tracks that are idle, and from each of the others only the oldest keys: never a packet of the requested window (unless it is asked to cut there), always leaving eight whole fragments, and no more than that asks for.", "quantifier": "every history of every track, clock, buffer time, idle time and cut", "why_tests_cant": "What is evicted depends on the whole history of all tracks and on the clock.", "anchors": ["src/input/input_buffer.cpp: removeUnused, removeKey", "src/io.cpp: bufferRemove", "lib/dtsc.cpp: removeFirstKey, getFirstms, getLastms"]}
{"id": "C60", "title": "MP4 boxes", "statement": "A new box is an empty box of its type; writing a field changes the bytes of this field only, growing the box when the field lies behind its end, and reads back as written; boxes put into a container are counted, found by number and by type, and replaced without touching their neighbours; a box is read from received bytes exactly when all of it is there.", "quantifier": "every box, payload, field, position, list of inner boxes and split of the received bytes", "why_tests_cant": "Offsets of all following fields and boxes depend on every earlier size; the interesting cases are the ends and the empty boxes.", "anchors": ["lib/mp4.cpp: Box, containerBox, read, skipBox, reserve, setInt8 to setInt64, setString, setContent, getContent, getChild, getChildren"]}
{"id": "C61", "title": "CMAF segments", "statement": "What is sent for a segment of a track, header and data, is played by any reader of fragmented files as exactly the packets of that time range: each with its own bytes, its time, the duration up to the next, its offset, and the last one lasting to the end of the segment.", "quantifier": "every stream history with evictions, every time range that starts at a packet, every list of packet sizes, durations and offsets", "why_tests_cant": "The header is written before the data from running sums over tables, so that one wrong size or count moves all that follows; the cases are the packets' sizes and times, not a file that a test can carry.", "anchors": ["lib/cmaf.cpp: keyHeader, keyHeaderSize, payloadSize", "src/output/output_cmaf.cpp: onHTTP, sendNext", "lib/mp4_generic.cpp: MFHD, TFHD, TFDT, TRUN"]}
{"id": "C62", "title": "STUN messages", "statement": "A connectivity check and the answer to one are well-formed STUN messages: attributes padded to four bytes, the length field right at each step, a message integrity that covers what precedes it, a fingerprint that is the CRC-32 of all before it, and in the answer the sender's transaction number and its address hidden as the standard says. A well-formed message is answered exactly when it is a request for the name of one of the tracks; any other bytes are handled without reading outside of them.", "quantifier": "every name, password, random number, address, and every string of received bytes", "why_tests_cant": "Received bytes are an attacker's choice; integrity and fingerprint depend on the length written at the moment of hashing, not on the final one.", "anchors": ["lib/stun.cpp: STUN::Packet", "src/output/output_webrtc.cpp: handleReceivedSTUNPacket, onHTTP"]}
{"id": "C63", "title": "Audio frames in transport streams and AAC files", "statement": "The AAC and Opus frames carried by a transport stream, however cut into packets, come out once each, in order, with their data and their times; the frames the server sends are read back as they were, their headers say what the init data says, and times are moved to the exact sample. An AAC file yields its frames in order with the sum of the durations before each. Bytes that are no frames are skipped without reading outside of them.", "quantifier": "every sequence of frames with every header field, every way to cut them into packets, every byte string", "why_tests_cant": "Cuts fall anywhere; the time of a cut frame depends on two packets; hostile headers are an attacker's choice.", "anchors": ["lib/adts.cpp: aac::adts", "lib/adts.h: AudSpecConf", "lib/ts_packet.h: getAudioHeader", "lib/ts_stream.cpp: ADTSRemainder, parseBitstream (AAC, OPUS)", "lib/opus.cpp: Opus_getDuration", "src/output/output_ts_base.cpp: sendNext (audio)", "src/input/input_aac.cpp: getNext, readHeader"]}
{"id": "C64", "title": "Packets and tables of transport streams", "statement": "A transport stream received in any pieces is cut into its packets, each once and in order. The tables the server sends list exactly the tracks with their types, descriptors and clock, with good checksums, and a receiver of them knows every track by its codec; with the packets of the frames in between, it delivers the frames of every track. Any well-formed table, wherever in its packet, is understood.", "quantifier": "every cutting of the stream, every selection of tracks that fits, every table, every order of tables, foreign packets and media", "why_tests_cant": "Cuts fall anywhere, tables are rewritten in a buffer that keeps what was there before, and selections are the viewer's choice.", "anchors": ["lib/ts_stream.cpp: Assembler, parse (PAT, PMT), add", "lib/ts_packet.cpp: ProgramAssociationTable, ProgramMappingTable, ServiceDescriptionTable, createPMT, createSDT", "src/output/output_ts_base.cpp: fillPacket (tables)"]}
{"id": "C65", "title": "H264 and HEVC through transport streams", "statement": "A video frame sent in a transport stream arrives as one packet with the same units in the same order, its composition offset and its time; H264 frames get an access unit delimiter and key frames the parameter sets of the track unless they have them already. Key frames are recognised by their slices. The parameter sets received make init data from which the same sets are sent again.", "quantifier": "every sequence of frames of well-formed units at rising times, every init data, every pattern of start codes of three or four bytes, every slice header", "why_tests_cant": "Frames are cut at byte patterns that depend on the coded video, sizes of units and sets are the encoder's choice, and flags set for one frame may end up on another.", "anchors": ["src/output/output_ts_base.cpp: sendNext (H264, HEVC)", "lib/ts_stream.cpp: parseBitstream, parseNal, finish, initializeMetadata", "lib/mp4_generic.cpp: AVCC, HVCC"]}
{"id": "C66", "title": "Lost packets of a pushed transport stream come back", "statement": "A transport stream pushed over RTP with error correction of R rows and C columns is sent with a row packet for every C packets and a column packet for each of the C columns of R packets. Each says which packets it protects, and from it and the others any one of these can be made again, to the last byte.", "quantifier": "every allowed number of rows and columns, every sequence of packets of one size, every first sequence number and time, any loss of one packet per row or column", "why_tests_cant": "The XOR runs over the whole history of a block and sequence numbers wrap; a test has a few packets and compares bytes, it does not recover each possible loss.", "anchors": ["lib/rtp.cpp: configureFEC, initFEC, generateBitstring, applyXOR, sendFec, parseFEC, sendTS", "src/output/output_ts.cpp: sendTS"]}
{"id": "C67", "title": "Redundant packets and lost packets from browsers", "statement": "A media packet that a browser sends inside a redundant packet is received as if sent alone. An error correction packet is understood as the standard says, brings back the one packet that is missing of those it protects, makes up nothing otherwise, and no packet makes the server read outside of memory.", "quantifier": "every header, payload type and payload, every mask, every history of packets received, every pattern of loss", "why_tests_cant": "Recovery needs loss, which tests rarely have, and what is recovered is only noticed as a broken picture.", "anchors": ["lib/rtp_fec.cpp: addREDPacket, initWithREDPacket, extractCoveringSequenceNumbers, tryToRecoverMissingPacket, addPacket"]}
{"id": "C68", "title": "An Ogg stream holds the packets that went in", "statement": "Someone who downloads a stream as Ogg gets pages that can be split into the header packets and then every media packet, whole, unchanged and in order. Pages are numbered one after the other, the first one alone begins the stream, each says if it goes on with a packet from the page before, which position it reaches, and has the checksum that players verify; the last one ends the stream.", "quantifier": "every list of header packets and media packets of any size, every history of pages before", "why_tests_cant": "Packets are cut at page boundaries that depend on the sizes of all packets before; a test sees a few sizes only.", "anchors": ["src/output/output_ogg.cpp: sendHeader, sendNext, onFinish", "lib/ogg.cpp: Page::sendTo, shouldSend, calculateGranule"]}
{"id": "C69", "title": "Media in FLV and RTMP are what went in", "statement": "Tags read from an FLV file are the tags in it, in order, however the file arrives; a video or audio packet, or init data, that is put into a tag or an RTMP message has the form of the format and is read back with the same codec, data, time, time offset, keyframe flag and track.", "quantifier": "every file and way to cut it, every packet, time, offset and track", "why_tests_cant": "The form depends on codec, frame kind, offset, rate and track together, and files arrive in arbitrary parts; tests cover a few combinations.", "anchors": ["lib/flv_tag.cpp: FileLoader, DTSCLoader, DTSCVideoInit, DTSCAudioInit, ChunkLoader, offset, getTrackID, getDataOffset, skipModEx", "src/output/output_rtmp.cpp: sendNext"]}
{"id": "C70", "title": "A WAV recording holds the sound that went in", "statement": "Someone who downloads or records a stream as WAV gets a file whose chunks have the sizes they say, whose format chunk says codec, channels, rate and sample size of the track, and whose data are the samples in the byte order of WAV; reading chunks finds every one of them and nothing else.", "quantifier": "every track, every packet, every list of chunks", "why_tests_cant": "Sizes depend on all packets; byte order on the sample size; chunk sizes come from files of others.", "anchors": ["src/output/output_wav.cpp: sendHeader, sendNext", "lib/riff.cpp: Chunk, ListChunk::toPrettyString, fmt, fact"]}
{"id": "C71", "title": "An AV1 frame sent over RTP arrives whole", "statement": "A viewer who gets an AV1 frame in RTP packets can put its units together again: every unit arrives whole and in order, no packet is larger than allowed, the marker is on the last packet only and the keyframe flag on the first packet only, exactly when one of the units is a keyframe.", "quantifier": "every frame of any number and size of units, every packet size", "why_tests_cant": "Where units are cut depends on all sizes before, on the packet size and on the size of the size fields.", "anchors": ["lib/av1.cpp: leb128, OBU::init, OBU::isKeyframe", "lib/rtp.cpp: Packet::sendAV1"]}
{"id": "C72", "title": "A FLAC file is split into its frames", "statement": "Someone who serves a FLAC file gets its block size, rate and channels from the stream information as they were written, each frame header is read as the format says, and a frame ends exactly where the frame with the next number begins, however long the file is.", "quantifier": "every stream information block, every frame header, every frame number of up to 36 bits", "why_tests_cant": "Frame numbers change their coded size as they grow; wrong ones show only after tens of thousands of frames.", "anchors": ["lib/flac.cpp: utfBytes, utfVal, Frame, MetaBlock, StreamInfo", "src/input/input_flac.cpp: readHeader, getNext"]}
