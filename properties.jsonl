{"id": "C01", "title": "Packet round trip", "statement": "For every command byte and every payload of at most 255 bytes, UnmarshalPacket applied to the bytes MarshalPacket returns yields exactly that command and that payload, without error or panic.", "quantifier": "every command 0-255 and every payload of 0-255 arbitrary bytes", "why_tests_cant": "256^256 payloads; runs of 0x07 in every position matter", "anchors": ["libcomfo/proto.go:MarshalPacket", "libcomfo/proto.go:UnmarshalPacket"]}
{"id": "C02", "title": "Wire format of a marshaled packet", "statement": "MarshalPacket never panics; it rejects exactly the payloads longer than 255 bytes; otherwise its output is 0x00, command, unescaped payload length, the payload with each 0x07 doubled and nothing else changed, and a final byte that makes command+length+payload bytes+173-checksum divisible by 256.", "quantifier": "every packet, including payloads of any length", "why_tests_cant": "unbounded payload domain", "anchors": ["libcomfo/proto.go:MarshalPacket", "libcomfo/proto.go:escapeData", "libcomfo/proto.go:calculateChecksum"]}
{"id": "C03", "title": "Exact acceptance condition of UnmarshalPacket", "statement": "For every byte string UnmarshalPacket terminates without panicking and accepts it exactly when it has at least 4 bytes, its third byte equals the number of payload bytes after unescaping and its last byte is the checksum of command, length and unescaped payload; the returned command and payload are then those fields, and a rejected input yields the zero packet and the error that names the first failed condition.", "quantifier": "every byte string of every length", "why_tests_cant": "all byte strings, including truncated and malformed ones", "anchors": ["libcomfo/proto.go:UnmarshalPacket"]}
{"id": "C04", "title": "Escaping is lossless", "statement": "Escaping a payload and unescaping it returns the payload; distinct payloads have distinct escaped forms; the escaped form is longer than the payload by exactly the number of 0x07 bytes in it; and in the escaped form 0x07 bytes come only in adjacent pairs.", "quantifier": "every payload of every length", "why_tests_cant": "unbounded payloads; adjacent runs of the escape byte", "anchors": ["libcomfo/proto.go:escapeData", "libcomfo/proto.go:unescapeData"]}
{"id": "C05", "title": "Checksum equals the protocol formula", "statement": "The checksum is (command + length + sum of payload bytes + 173) mod 256 for every payload length, i.e. the 64-bit accumulator never changes the result; two packets whose command, length and payload differ in exactly one byte always have different checksums.", "quantifier": "every command, length byte and payload", "why_tests_cant": "unbounded sums, wrap-around at 8 and 64 bits", "anchors": ["libcomfo/proto.go:calculateChecksum", "libcomfo/proto.go:verifyChecksum"]}
{"id": "C06", "title": "A single corrupted byte is detected", "statement": "If any one byte other than the first of a marshaled packet is replaced by a different byte value, UnmarshalPacket rejects the result.", "quantifier": "every packet, every position except the first, every replacement byte", "why_tests_cant": "the replacement may create or destroy escape sequences; the case space is payload x position x value", "anchors": ["libcomfo/proto.go:UnmarshalPacket", "libcomfo/proto.go:unescapeData", "libcomfo/proto.go:verifyChecksum"]}
{"id": "C07", "title": "A well-formed reply is decoded exactly or rejected, never misread", "statement": "When the unit sends ACK followed by a frame holding a marshaled packet, reading it with data expected returns exactly that packet, unless the packet contains a byte 0x07 immediately followed by 0x0F, 0xF0 or 0xF3 among (command, length, payload, checksum), in which case reading always returns an error; it never returns a different packet.", "quantifier": "every command and payload of at most 255 bytes", "why_tests_cant": "the collision between escaped 0x07 and delimiter bytes depends on payload, length and checksum values", "anchors": ["libcomfo/conn.go:ReadPacket", "libcomfo/proto.go:MarshalPacket", "libcomfo/proto.go:UnmarshalPacket"]}
{"id": "C08", "title": "Every payload the unit can send is readable", "statement": "Every reply the unit frames according to the protocol (0x07 doubled in the payload) is read back successfully.", "quantifier": "every command and payload of at most 255 bytes", "why_tests_cant": "needs the one payload pattern that collides with the delimiter scan", "anchors": ["libcomfo/conn.go:ReadPacket"]}
{"id": "C09", "title": "Reading does not depend on how bytes are chunked", "statement": "For a given sequence of bytes from the unit (up to 4096, without a read error), the packet or error returned by a read is the same whatever the sizes of the pieces in which the connection delivers them, including empty reads.", "quantifier": "every byte string of at most 4096 bytes and every way of cutting it into pieces", "why_tests_cant": "exponentially many segmentations; delimiters can straddle pieces", "anchors": ["libcomfo/conn.go:ReadPacket", "libcomfo/conn.go:ScanTimeout"]}
{"id": "C10", "title": "Reading never panics and always finishes", "statement": "Whatever the connection does (any bytes, any chunk sizes, read errors, EOF, silence), a read returns a packet or an error and never panics, and it returns a non-empty packet only if it passed all UnmarshalPacket checks.", "quantifier": "every sequence of read results of the connection", "why_tests_cant": "arbitrary adversarial byte streams", "anchors": ["libcomfo/conn.go:ReadPacket"]}
{"id": "C11", "title": "One corrupted byte on the line never yields wrong data", "statement": "If exactly one byte of the unit's reply (ACK, frame start, body, frame end) is replaced by another value, a data query returns either the packet the unit sent or an error, never a different packet.", "quantifier": "every packet, every position of the reply, every replacement value", "why_tests_cant": "interaction of corrupted delimiters, lengths, escapes and checksum", "anchors": ["libcomfo/conn.go:QueryPacket", "libcomfo/conn.go:ReadPacket"]}
{"id": "C12", "title": "What a query puts on the wire", "statement": "A query writes the framed request once, before reading; it then writes one ACK exactly if the reply was read without error and (for data queries) carries the request command plus one; it writes nothing else, and nothing at all if the request cannot be marshaled.", "quantifier": "every request packet and every behaviour of the connection", "why_tests_cant": "all failure points of the connection", "anchors": ["libcomfo/conn.go:QueryPacket", "libcomfo/conn.go:WritePacket", "libcomfo/conn.go:WriteAck"]}
{"id": "C13", "title": "A data query only succeeds with the matching reply", "statement": "If a data query returns no error, then the returned packet has command = request command + 1 (mod 256), its bytes passed length and checksum verification, and they were delivered by the connection after the request was written or left over from before it.", "quantifier": "every request and every behaviour of the connection", "why_tests_cant": "adversarial connections", "anchors": ["libcomfo/conn.go:QueryPacket"]}
{"id": "C14", "title": "A successful set was acknowledged by the unit", "statement": "If a set operation (SetSpeed, SetComfort, SetFanProfiles) returns nil, the unit sent an ACK sequence (0x07 0xF3).", "quantifier": "every behaviour of the connection", "why_tests_cant": "includes EOF, oversize noise and other control sequences", "anchors": ["libcomfo/conn.go:ReadPacket", "libcomfo/conn.go:ScanTimeout", "libcomfo/message.go:setQuery"]}
{"id": "C15", "title": "A query after a timeout receives its own reply", "statement": "After a query has timed out, a later query to which the unit replies promptly and correctly returns that reply.", "quantifier": "every history of queries with at least one timeout", "why_tests_cant": "needs the abandoned reader goroutine of an earlier query", "anchors": ["libcomfo/conn.go:ScanTimeout", "libcomfo/conn.go:QueryPacket"]}
{"id": "C16", "title": "Invalid set requests never reach the unit", "statement": "SetSpeed above 4, SetComfort above 107, SetFanProfile with mode above 3 or speed above 100 return an error and neither read from nor write to the connection; all other arguments write exactly one correctly encoded request (for SetFanProfile after the profile query succeeded).", "quantifier": "every 8-bit argument and every connection behaviour", "why_tests_cant": "all arguments times all connection behaviours", "anchors": ["libcomfo/api.go:SetSpeed", "libcomfo/api.go:SetComfort", "libcomfo/api.go:SetFanProfile", "libcomfo/message.go:EncodeSetRequest"]}
{"id": "C17", "title": "Temperature encoding", "statement": "For every whole temperature from -20 to 107 the encoded byte is 2*(t+20) and decoding it returns t; every byte b decodes to floor(b/2)-20 exactly (as a float32), and whole temperatures outside the range are rejected.", "quantifier": "every byte and every 8-bit comfort argument", "why_tests_cant": "float32 rounding and truncation for all values", "anchors": ["libcomfo/message.go:temperature.MarshalBinary", "libcomfo/message.go:temperature.UnmarshalBinary"]}
{"id": "C18", "title": "Reply layouts", "statement": "Each decoder (fans, boot info, fan profiles, temperatures, errors, hours, bypass) accepts exactly payloads of its fixed length (fans additionally non-zero tachometer values), never panics, and each result field is the big-endian integer or flag at the documented offset and depends on no other byte.", "quantifier": "every payload of every length", "why_tests_cant": "all payloads; field-offset confusion", "anchors": ["libcomfo/response_types.go", "libcomfo/message.go:leftPad32", "libcomfo/message.go:DecodeResponse"]}
{"id": "C19", "title": "Reported fan RPM", "statement": "GetFans reports floor(1875000 / raw) RPM for both fans.", "quantifier": "every raw tachometer value 1-65535", "why_tests_cant": "truncation to 16 bits for small raw values", "anchors": ["libcomfo/response_types.go:Fans.UnmarshalBinary"]}
{"id": "C20", "title": "Getters never panic", "statement": "No getter (temperatures, bypass, fans, hours, bootloader, firmware, fan profiles, errors) panics or returns a value together with an error, for any connection behaviour; on error the zero value is returned; on success the value is the documented decoding of the payload of the reply.", "quantifier": "every connection behaviour", "why_tests_cant": "type assertions and indexing on adversarial replies", "anchors": ["libcomfo/api.go", "libcomfo/message.go:getQuery", "libcomfo/message.go:DecodeResponse"]}
{"id": "C21", "title": "SetFanProfile changes exactly one profile", "statement": "Against a unit that follows the protocol, a successful SetFanProfile(mode, speed) leaves in and out percentage of that mode equal to speed and all six other percentages unchanged, and a following GetFanProfiles reports exactly that.", "quantifier": "every unit state, mode 0-3 and speed 0-100, every chunking of the replies", "why_tests_cant": "all unit states; read and write layouts differ", "anchors": ["libcomfo/api.go:SetFanProfile", "libcomfo/request_types.go:FanProfiles.MarshalBinary", "libcomfo/response_types.go:FanProfiles.UnmarshalBinary"]}
{"id": "C22", "title": "Profile numbering is consistent", "statement": "The profile changed by the SetFanProfile RPC for mode m (1-4) is the one Lookup(m) returns and the one SetFanSpeed(Abs=m) activates and polls for.", "quantifier": "every m and every profile table", "why_tests_cant": "three different numberings (0-3, 1-4, field names) must agree for all values", "anchors": ["comfoserver/server.go:SetFanProfile", "libcomfo/api.go:SetFanProfile", "libcomfo/response_types.go:Lookup", "comfoserver/caches.go:UpdatePoll"]}
{"id": "C23", "title": "Getter RPCs serve the last successful fetch", "statement": "Each getter RPC performs no I/O and returns exactly the value decoded from the most recent successful fetch of that cache (the zero value if there was none), whatever mixture of successful and failed refreshes, sets and flushes came before.", "quantifier": "every history of refreshes, flushes and set requests and every connection behaviour", "why_tests_cant": "unbounded histories with failures", "anchors": ["comfoserver/caches.go", "comfoserver/protobuf.go", "comfoserver/server.go"]}
{"id": "C24", "title": "A failed refresh changes nothing", "statement": "If fetching fails, the cached value, its timestamp and all other caches stay as they were, and all locks are released.", "quantifier": "every cache, every state and every failing connection behaviour", "why_tests_cant": "every failure point", "anchors": ["comfoserver/caches.go:Update"]}
{"id": "C25", "title": "Refresh decision", "statement": "An unforced refresh contacts the unit exactly when the cached value is more than 4.5 seconds old (or was never fetched); a forced refresh always does; a refresh sends exactly one query, the one for its cache.", "quantifier": "every pair of times, every cache", "why_tests_cant": "time differences incl. saturation of Duration", "anchors": ["comfoserver/caches.go:isStale", "comfoserver/caches.go:Update"]}
{"id": "C26", "title": "SetComfortTemp", "statement": "SetComfortTemp rejects arguments above 255 without I/O; arguments 108-255 produce an error and never change the unit; otherwise, if the cached comfort temperature differs, exactly one set request carrying the encoded target is sent, and on success the reply says Modified with the previous cached and the requested temperature.", "quantifier": "every 32-bit argument, every non-negative cached temperature, every connection behaviour", "why_tests_cant": "all arguments times connection behaviours", "anchors": ["comfoserver/server.go:SetComfortTemp"]}
{"id": "C27", "title": "Only speeds 1-4 are ever requested", "statement": "SetFanSpeed only ever sends speed values 1-4 to the unit; Rel steps by exactly one; stepping past 1 or 4, and setting both Abs and Rel, is rejected as invalid argument without I/O.", "quantifier": "every request (32-bit Abs, Rel) and every cached mode 0-255", "why_tests_cant": "8-bit wrap-around at both ends", "anchors": ["comfoserver/helpers.go:modifySpeed", "comfoserver/server.go:SetFanSpeed"]}
{"id": "C28", "title": "SetFanSpeed honours Abs", "statement": "SetFanSpeed with Abs = n either sends n to the unit, does nothing because the unit is already at n, or fails; in particular it rejects every Abs above 4.", "quantifier": "every 32-bit Abs", "why_tests_cant": "truncation of 32-bit values to 8 bits", "anchors": ["comfoserver/helpers.go:modifySpeed"]}
{"id": "C29", "title": "SetFanProfile argument range", "statement": "The SetFanProfile RPC rejects every Mode outside 1-4 and every TargetSpeed outside 15-100, without I/O.", "quantifier": "all pairs of 32-bit arguments", "why_tests_cant": "truncation of 32-bit values to 8 bits", "anchors": ["comfoserver/server.go:SetFanProfile"]}
{"id": "C30", "title": "Success of SetFanSpeed means the unit runs at that speed", "statement": "If SetFanSpeed(Abs=n) succeeds, the unit's mode is n afterwards.", "quantifier": "every history of requests with a single protocol-conforming unit", "why_tests_cant": "needs a failed poll earlier in the history that leaves a stale cached mode", "anchors": ["comfoserver/server.go:SetFanSpeed", "comfoserver/caches.go:UpdatePoll"]}
{"id": "C31", "title": "Success of the SetFanProfile RPC means both percentages are set", "statement": "If the SetFanProfile RPC succeeds, both the in and the out percentage of the profile equal TargetSpeed on the unit.", "quantifier": "every unit and cache state", "why_tests_cant": "only the in percentage is compared before skipping the write", "anchors": ["comfoserver/server.go:SetFanProfile"]}
{"id": "C32", "title": "Polling after a speed change", "statement": "UpdatePoll fetches fan data at most count times, stops at the first fetch after which the cached percentages equal those of the target profile and then returns success, and otherwise returns the poll error after exactly count fetches and count half-second pauses.", "quantifier": "every count, target, profile table and connection behaviour", "why_tests_cant": "unbounded count, all sequences of readings", "anchors": ["comfoserver/caches.go:UpdatePoll"]}
{"id": "C33", "title": "No operation leaks a lock", "statement": "After any RPC or cache refresh has returned, every lock it took is released.", "quantifier": "every operation, argument, cache state and connection behaviour", "why_tests_cant": "early-return paths", "anchors": ["comfoserver/caches.go:UpdatePoll", "comfoserver/server.go", "libcomfo/conn.go:QueryPacket", "libcomfo/api.go:SetFanProfile"]}
{"id": "C34", "title": "FlushCache", "statement": "FlushCache for BootInfo, Fans, Temps, Profiles, Bypass sends exactly one query (for that cache), for All exactly six queries, for any other value none; it reports Success exactly for the known values.", "quantifier": "every 32-bit cache value, every connection behaviour", "why_tests_cant": "open enum domain", "anchors": ["comfoserver/caches.go:FlushCaches", "comfoserver/server.go:FlushCache"]}
{"id": "C35", "title": "FlushCache success means refreshed", "statement": "If FlushCache reports Success the requested cache holds data fetched after the request started.", "quantifier": "every connection behaviour", "why_tests_cant": "failing fetches", "anchors": ["comfoserver/caches.go:FlushCaches"]}
{"id": "C36", "title": "FlushCache replies match requests under concurrency", "statement": "With any number of concurrent FlushCache callers and cache-worker ticks, every caller receives the outcome of its own request.", "quantifier": "every number of callers and every interleaving", "why_tests_cant": "schedules", "anchors": ["comfoserver/server.go:FlushCache", "comfoserver/timers.go:CacheWorker", "comfoserver/caches.go:FlushCaches"]}
{"id": "C37", "title": "The server cannot deadlock", "statement": "With any number of concurrent RPCs of any kind and the cache worker, in every reachable state in which some RPC is unfinished, some thread can take a step; with no further timer ticks every RPC can be completed.", "quantifier": "every multiset of concurrent requests, every interleaving, every connection behaviour", "why_tests_cant": "schedules", "anchors": ["comfoserver/server.go", "comfoserver/caches.go", "comfoserver/timers.go", "libcomfo/conn.go", "libcomfo/api.go"]}
{"id": "C38", "title": "Queries on the connection are serialised", "statement": "Whatever the interleaving, the exchanges of concurrent queries never mix on the wire: results, bytes written and connection state are those of running the queries one after another in some order.", "quantifier": "every number of concurrent queries, every interleaving, every connection behaviour", "why_tests_cant": "schedules", "anchors": ["libcomfo/conn.go:QueryPacket"]}
{"id": "C39", "title": "Getter RPCs return consistent snapshots", "statement": "Under any interleaving with refreshes, the fields returned by one getter RPC all stem from one and the same successful fetch (or the initial zero value).", "quantifier": "every set of concurrent requests and every interleaving", "why_tests_cant": "field-wise interleavings", "anchors": ["comfoserver/protobuf.go", "comfoserver/caches.go"]}
{"id": "C40", "title": "Poll decisions use a consistent reading", "statement": "When UpdatePoll returns success, some single fetched fan reading had both target percentages.", "quantifier": "every interleaving with the cache worker", "why_tests_cant": "unlocked field reads", "anchors": ["comfoserver/caches.go:UpdatePoll"]}
{"id": "C41", "title": "Concurrent profile changes are not lost", "statement": "Concurrent SetFanProfile calls on one protocol-conforming unit have the same effect as running them one after another in some order.", "quantifier": "every number of concurrent calls, every interleaving", "why_tests_cant": "schedules", "anchors": ["libcomfo/api.go:SetFanProfile"]}
{"id": "C42", "title": "SetFanProfile and SetFanProfiles together lose no update", "statement": "A SetFanProfiles call running concurrently with SetFanProfile has the effect of running both in some order.", "quantifier": "every interleaving", "why_tests_cant": "schedules", "anchors": ["libcomfo/api.go:SetFanProfile", "libcomfo/api.go:SetFanProfiles"]}
{"id": "C43", "title": "Staleness bound", "statement": "If every fast tick is served within D seconds and every query succeeds, the temperature data served by a getter RPC is never older than 9.5 + D seconds; and slow/glacial ticks behave correspondingly.", "quantifier": "every tick/delay history", "why_tests_cant": "unbounded timing histories, 10% margin can skip a tick", "anchors": ["comfoserver/timers.go:CacheWorker", "comfoserver/caches.go:isStale"]}
{"id": "C44", "title": "Python client range checks", "statement": "The Python client raises before any request for speeds outside 1-4, profiles outside 1-4, percentages outside 15-100 and temperatures outside 0-255; every request it does send is one the server does not truncate, and increase/decrease return False exactly when the server reports an out-of-range step.", "quantifier": "every integer argument and cached mode", "why_tests_cant": "all integers", "anchors": ["python/comfo/client.py", "comfoserver/helpers.go:modifySpeed", "comfoserver/server.go"]}
{"id": "C45", "title": "A failed poll is reported to the caller", "statement": "If polling fails, the caller of SetFanSpeed receives the internal error.", "quantifier": "every run in which polling fails", "why_tests_cant": "elapsed time of the poll loop versus the HTTP write deadline", "anchors": ["comfoserver/caches.go:UpdatePoll", "comfo.go:main"]}
{"id": "C46", "title": "Device name is trimmed only at the ends", "statement": "The device name of boot info is the longest substring of the ten name bytes obtained by removing white space at both ends; no other byte is changed.", "quantifier": "every 10-byte name", "why_tests_cant": "UTF-8 decoding of arbitrary bytes from both ends", "anchors": ["libcomfo/response_types.go:BootInfo.UnmarshalBinary"]}
{"id": "C47", "title": "RPC messages carry the cached values unchanged", "statement": "Each getter RPC message equals the cached record field by field, without truncation, and two different cached records give different messages.", "quantifier": "every cached record", "why_tests_cant": "field mix-ups between eleven similar fields", "anchors": ["comfoserver/protobuf.go"]}
{"id": "C48", "title": "Shared frame constants are never modified", "statement": "Building a frame never writes to the package-level start, end or ACK byte slices, so concurrent or later frames are unaffected.", "quantifier": "every packet and every number of frames", "why_tests_cant": "append aliasing depends on capacities", "anchors": ["libcomfo/conn.go:WritePacket", "libcomfo/proto.go"]}
{"id": "C49", "title": "What each timer tick refreshes", "statement": "A fast tick refreshes at most temperatures then fans, a slow tick at most profiles then bypass, a glacial tick at most boot info then errors, each only if stale; start-up fetches all six caches once, in a fixed order, and no timer ever fetches hours.", "quantifier": "every cache state and connection behaviour", "why_tests_cant": "all staleness combinations and failures", "anchors": ["comfoserver/timers.go", "comfoserver/caches.go:UpdateCaches"]}
{"id": "C50", "title": "UpdatePoll releases its read lock", "statement": "UpdatePoll returns with no lock held, for every target speed.", "quantifier": "every server state, count and target speed", "why_tests_cant": "the error path is never taken by the RPCs", "anchors": ["comfoserver/caches.go:fanCacheType.UpdatePoll"]}
{"id": "C51", "title": "The server sends only permitted requests", "statement": "Whatever sequence of RPCs, timer ticks and start-ups is performed and however the connection behaves, the server writes nothing to the unit but complete frames of: the six cache queries, set-speed with one byte 1-4, set-comfort with the encoding of 0-107 degrees, set-profiles with exactly eight bytes, and ACKs; in particular no reset, no ventilation-level change outside these and no hours query.", "quantifier": "every sequence of operations, every cache state and connection behaviour", "why_tests_cant": "unbounded sequences with arbitrary faults in between", "anchors": ["comfoserver/server.go", "comfoserver/timers.go", "libcomfo/conn.go"]}
{"id": "C52", "title": "Left-over readers take turns with the current query", "statement": "When earlier queries have timed out, their readers are still blocked in Read. Arriving pieces go to all of these readers and the current query, in turn or in whatever order they are served; as long as nobody finds a control sequence the query times out and its reader stays behind with the bytes it got.", "quantifier": "every number of left-over readers, every sequence of pieces", "why_tests_cant": "needs several timeouts and precise arrival of data", "anchors": ["libcomfo/conn.go:ScanTimeout", "libcomfo/conn.go:WaitTimeout"]}
{"id": "C53", "title": "Only timeouts leave readers behind", "statement": "However the connection is used, the number of readers left behind is at most the number of ReadPacket calls that timed out.", "quantifier": "every program using the connection, every behaviour of the line", "why_tests_cant": "all interleavings of timeouts and data", "anchors": ["libcomfo/conn.go:ScanTimeout", "libcomfo/conn.go:ReadPacket"]}
{"id": "C54", "title": "The profile cache follows the unit", "statement": "On a reliable line to a unit that sends readable packets, after start-up and as long as no SetFanSpeed reported a failed poll, GetFanProfiles returns the percentages and mode the unit really has.", "quantifier": "every unit state, every sequence of RPCs, timer ticks and flushes", "why_tests_cant": "unbounded histories", "anchors": ["comfoserver/caches.go", "comfoserver/server.go"]}
{"id": "C55", "title": "Exchanges stay whole under concurrency", "statement": "With any number of concurrent RPCs and the cache worker, whenever nobody holds the packet lock the bytes written and packets read so far are a sequence of complete permitted exchanges.", "quantifier": "every multiset of concurrent requests, every interleaving, every connection behaviour", "why_tests_cant": "interleavings at the level of single reads and writes", "anchors": ["libcomfo/conn.go:QueryPacket", "comfoserver/server.go", "comfoserver/timers.go"]}
{"id": "C56", "title": "Reported originals are real", "statement": "Under any interleaving the original value in the answer of SetFanProfile, SetComfortTemp and SetFanSpeed is the one of some successful fetch, or the initial zero value.", "quantifier": "every set of concurrent requests and every interleaving", "why_tests_cant": "the caches are read without locks", "anchors": ["comfoserver/server.go:SetFanProfile", "comfoserver/server.go:SetComfortTemp", "comfoserver/server.go:SetFanSpeed"]}
{"id": "C57", "title": "No goroutine panics", "statement": "Under any interleaving no handler and not the worker panics, in particular none unlocks a mutex it does not hold.", "quantifier": "every multiset of concurrent requests, every interleaving, every connection behaviour", "why_tests_cant": "all interleavings with all faults", "anchors": ["comfoserver/server.go", "comfoserver/caches.go", "comfoserver/timers.go", "libcomfo/conn.go"]}
{"id": "C58", "title": "Cached records are free of data races", "statement": "No goroutine reads a cached record while another is about to write it.", "quantifier": "every multiset of concurrent requests and every interleaving", "why_tests_cant": "the race detector sees only the schedules that happen", "anchors": ["comfoserver/caches.go", "comfoserver/protobuf.go", "comfoserver/server.go"]}
{"id": "C59", "title": "The async client methods do what the plain ones do", "statement": "Every async_ method of the Python client behaves as the method without the prefix, whether the event loop was passed to the constructor or taken from the running one.", "quantifier": "every method, every way of constructing the client", "why_tests_cant": "the tests construct the client in one way only", "anchors": ["python/comfo/client.py"]}
{"id": "C60", "title": "Python objects show the server's records", "statement": "The objects returned by the Python get methods have exactly the field values of the record in the server's cache.", "quantifier": "every record content", "why_tests_cant": "all field values", "anchors": ["python/comfo/client.py", "python/comfo/types.py", "comfoserver/protobuf.go"]}
{"id": "C61", "title": "True from the Python client means the unit was changed", "statement": "When set_fan_speed, increase/decrease_fan_speed or configure_fan_profile returns True, the unit is in the requested mode, or has the requested percentages in that profile and all others unchanged.", "quantifier": "every unit state, cache contents, argument, and line that may lose packets", "why_tests_cant": "needs a unit and a lossy line", "anchors": ["python/comfo/client.py", "comfoserver/server.go", "libcomfo/api.go"]}
{"id": "C62", "title": "ping verifies connectivity to the unit", "statement": "The Python client's ping fails if the server cannot reach its unit.", "quantifier": "every connection behaviour", "why_tests_cant": "needs a unit that stops answering", "anchors": ["python/comfo/client.py:ping", "comfoserver/server.go:GetBootInfo"]}
{"id": "C63", "title": "Documented comfort temperatures can be set", "statement": "Every comfort temperature that the Python client accepts is one the unit can be set to.", "quantifier": "every temperature 0-255", "why_tests_cant": "all temperatures against the server's conversion", "anchors": ["python/comfo/client.py:set_comfort_temperature", "comfoserver/server.go:SetComfortTemp", "libcomfo/request_types.go"]}
{"id": "C64", "title": "Packet functions do not share memory", "statement": "escapeData, unescapeData, MarshalPacket and leftPad32 return slices over newly allocated arrays and leave every array that existed before unchanged, whatever capacities the runtime gives to grown slices; so they may be seen as functions on byte strings.", "quantifier": "every heap, slice, offset and capacity", "why_tests_cant": "aliasing depends on capacities chosen by the runtime", "anchors": ["libcomfo/proto.go", "libcomfo/message.go:leftPad32"]}
{"id": "C65", "title": "Requests are routed by method, path and media type", "statement": "A handler is called exactly for a POST to /twirp/comfo.api.Comfo/<method> with media type application/protobuf or application/json and a body that decodes; with protobuf the arguments are what the body says by the protobuf encoding rules (any field order, repeated and unknown fields, overlong numbers, groups). Every other request is answered with 301, 400 or 404 and the server does nothing.", "quantifier": "every path, method, ASCII header and body", "why_tests_cant": "all byte strings as bodies, paths and headers", "anchors": ["routes.go", "rpc/comfo/comfo.twirp.go:ServeHTTP", "rpc/comfo/comfo.pb.go"]}
{"id": "C66", "title": "Arguments from the network are within their types", "statement": "Whatever bytes are posted, the arguments handed to the handlers are uint32 (enum: int32) values.", "quantifier": "every request", "why_tests_cant": "all byte strings as bodies", "anchors": ["rpc/comfo/comfo.twirp.go", "rpc/comfo/comfo.pb.go"]}
{"id": "C67", "title": "Replies are encoded faithfully", "statement": "A reply is sent with status 200 and a protobuf encoding of exactly its fields; an error of a handler has status 400 or 500 as its code requires; a device name that is not UTF-8 gives status 500.", "quantifier": "every reply", "why_tests_cant": "all field values", "anchors": ["rpc/comfo/comfo.twirp.go", "rpc/comfo/comfo.proto"]}
{"id": "C68", "title": "Requests and replies survive the network", "statement": "The request made by the Python stub for any call with arguments in range is dispatched as that very call, and the stub reads from the reply exactly the message the handler returned.", "quantifier": "every call and reply", "why_tests_cant": "all argument and field values", "anchors": ["python/comfo/comfo_twirp.py", "rpc/comfo/comfo.twirp.go", "rpc/comfo/comfo.proto"]}
{"id": "C69", "title": "Getters over HTTP", "statement": "After any history a get request over HTTP returns the record in the cache, whatever the unit sent.", "quantifier": "every history, unit and cache", "why_tests_cant": "needs units with unusual names", "anchors": ["rpc/comfo/comfo.twirp.go", "comfoserver/protobuf.go", "libcomfo/response_types.go"]}
{"id": "C70", "title": "The Python client over HTTP is the client on the server", "statement": "For every method of the Python client, going through HTTP, Twirp and protobuf has the same result and the same effect on the server as calling the handler directly (device names in UTF-8).", "quantifier": "every method, argument, history of the server", "why_tests_cant": "all argument values and server states", "anchors": ["python/comfo/client.py", "python/comfo/comfo_twirp.py", "routes.go", "rpc/comfo/comfo.twirp.go"]}
{"id": "C71", "title": "A set comfort temperature is in effect on the unit", "statement": "If SetComfortTemp succeeds, the comfort temperature of the unit is the requested one, after any history of requests and timer ticks.", "quantifier": "every history, temperature and state of the unit", "why_tests_cant": "needs a unit with memory and arbitrary histories; half degrees and negative temperatures", "anchors": ["comfoserver/server.go:SetComfortTemp", "libcomfo/api.go:SetComfort", "libcomfo/message.go:temperature"]}
{"id": "C72", "title": "GetTemps shows the comfort temperature of the unit", "statement": "On a reliable line, after any history of requests and timer ticks, GetTemps shows the comfort temperature the unit has (half degrees cut off).", "quantifier": "every history and state of the unit", "why_tests_cant": "needs a unit with memory and arbitrary histories", "anchors": ["comfoserver/server.go:GetTemps", "comfoserver/caches.go:tempCache", "libcomfo/response_types.go:Temps"]}
{"id": "C73", "title": "The HTTP server under concurrent requests", "statement": "Whatever is posted by any number of clients at a time, in every interleaving with the cache worker and the timers: no goroutine panics, no deadlock, every request gets answered, refused requests at once and the others with what the called procedures return; a getter answers with what a single fetch brought; the unit sees only complete exchanges.", "quantifier": "every set of HTTP requests, schedule and device", "why_tests_cant": "all interleavings and all request bodies", "anchors": ["rpc/comfo/comfo.twirp.go", "routes.go", "comfoserver/server.go", "comfoserver/timers.go"]}
{"id": "C74", "title": "Python clients at the same time", "statement": "Among any other requests, in every interleaving, the stub of each Python client is shown exactly the reply its procedure call produced on the server; a fan speed reported as set was confirmed by readings of the unit.", "quantifier": "every set of HTTP requests, schedule and device", "why_tests_cant": "all interleavings and all argument values", "anchors": ["python/comfo/comfo_twirp.py", "rpc/comfo/comfo.twirp.go", "comfoserver/server.go"]}
{"id": "C75", "title": "Getters are linearizable reads of the latest fetch", "statement": "In every interleaving a getter answers with the record that the latest successful fetch of its kind had brought at some moment between the arrival of the request and the answer; a getter that begins after another one has answered never shows an older fetch; a cache nobody is writing to holds the latest fetch.", "quantifier": "every set of requests, schedule and device", "why_tests_cant": "all interleavings; what SetFanProfile does between its two fetches", "anchors": ["comfoserver/caches.go", "comfoserver/server.go", "comfoserver/timers.go"]}
{"id": "C76", "title": "What each request does on the line among others", "statement": "In every interleaving the exchanges made for a request, between its arrival and its answer, are exactly determined by the request and the answer, complete, in this order, and never overlap those of other goroutines: none for getters and refused or unneeded changes, the queries of the flushed caches, write and read back for setters.", "quantifier": "every set of requests, schedule and device", "why_tests_cant": "all interleavings and all replies of the device", "anchors": ["comfoserver/server.go", "comfoserver/caches.go", "comfoserver/timers.go", "libcomfo/api.go"]}
{"id": "C77", "title": "Read your writes", "statement": "A getter that begins after a setter has reported a change (or after a flush has been answered) answers with data fetched after the exchange that made the change (after the flush was asked for), whatever else is going on, as long as the queries succeed.", "quantifier": "every set of requests, schedule and device", "why_tests_cant": "all interleavings, with flushes and timers between the write and the reads", "anchors": ["comfoserver/server.go", "comfoserver/caches.go", "comfoserver/timers.go"]}
{"id": "C78", "title": "The unit behind the concurrent server", "statement": "With a reliable unit on the line, in every interleaving of any requests, the cache worker and the timers, the log of the connection is one conversation: requests, replies and acknowledgements alternate, every reply that is read shows the unit as it is at that moment, and the unit changes exactly when a request to set something is written and exactly as one of the RPC requests says, nothing else. Handlers fail with an internal error only for an unconfirmed fan speed or a comfort temperature above 107.", "quantifier": "every set of requests, schedule and unit", "why_tests_cant": "all interleavings and all states of the unit", "anchors": ["comfoserver/server.go", "comfoserver/caches.go", "comfoserver/timers.go", "libcomfo/api.go", "libcomfo/conn.go"]}
{"id": "C79", "title": "A reported change has been made, in every interleaving", "statement": "If SetComfortTemp, SetFanProfile or SetFanSpeed reports a change, then at some moment between the arrival of the request and its answer the unit had exactly the value asked for.", "quantifier": "every set of requests, schedule and unit", "why_tests_cant": "all interleavings; two setters at the same time", "anchors": ["comfoserver/server.go", "libcomfo/api.go"]}
{"id": "C80", "title": "Getters show the unit after a change", "statement": "A getter of the temperatures or fan profiles that begins after a setter has reported a change shows the unit as it was at a moment not before the change was in effect; if all accepted requests ask for the same value it shows that value; after a flush it shows the unit at a moment after the flush was requested.", "quantifier": "every set of requests, schedule and unit", "why_tests_cant": "all interleavings with timers and flushes between write and read", "anchors": ["comfoserver/server.go", "comfoserver/caches.go", "comfoserver/timers.go"]}
{"id": "C81", "title": "What getters show is a state the unit had, in order", "statement": "Every answer of GetTemps and GetFanProfiles is the empty record or shows the unit as it was at one moment; a getter that begins after another has answered shows the unit at the same moment or later; once start-up is complete no getter shows the empty record unless a query failed.", "quantifier": "every set of requests, schedule and unit", "why_tests_cant": "all interleavings", "anchors": ["comfoserver/server.go", "comfoserver/caches.go", "comfoserver/timers.go", "comfo.go"]}
{"id": "C82", "title": "The Go client calls the method it names", "statement": "A call of the Go protobuf client, with a base URL that has a host and at most a scheme, is a request that the server takes for this method with these arguments; the reply is returned as given and errors arrive with the code the handler chose; after any history of the server a call does and returns what the handler does and returns.", "quantifier": "every request, base URL and history", "why_tests_cant": "all arguments and replies; encoder, router, decoder and error mapping together", "anchors": ["rpc/comfo/comfo.twirp.go", "routes.go", "comfoserver/server.go"]}
{"id": "C83", "title": "Every base URL that names the server works with the Go client", "statement": "A call with a base URL that names the server's host and port reaches the method, also if the URL ends in a slash or lacks the scheme (sanitizeBaseURL).", "quantifier": "every host, port and path", "why_tests_cant": "all base URLs", "anchors": ["rpc/comfo/comfo.twirp.go", "routes.go"]}
{"id": "C84", "title": "The Go client's path prefix", "statement": "With the option for another path prefix every call asks for a path with this prefix; the server, which mounts only the default prefix, refuses all of them without touching anything, unless the prefix means the default one.", "quantifier": "every prefix and request", "why_tests_cant": "all prefixes", "anchors": ["rpc/comfo/comfo.twirp.go", "routes.go"]}
{"id": "C85", "title": "How the Go client reads any response", "statement": "Whatever a server or an intermediary answers, the Go client returns a decoded reply only for status 200 with a body that decodes, and otherwise an error: the code of a well-formed Twirp error, or the code that belongs to the HTTP status, redirects being internal errors.", "quantifier": "every response", "why_tests_cant": "all status codes, headers and bodies", "anchors": ["rpc/comfo/comfo.twirp.go"]}
{"id": "C86", "title": "Where the settings come from", "statement": "Mode, target and listen address each come from the last flag that sets them, else from COMFO_MODE, COMFO_TARGET, COMFO_LISTEN if not empty, else from the default; the program connects and listens accordingly; a command line with an unknown flag, a missing value or a bad boolean does nothing at all.", "quantifier": "every command line and environment", "why_tests_cant": "all command lines", "anchors": ["config.go", "comfo.go"]}
{"id": "C87", "title": "Nothing is served without a unit", "statement": "The API is served only after a connection to the unit over TCP or a serial line at 9600 baud was opened and the caches were started.", "quantifier": "every command line, environment and outcome of connecting", "why_tests_cant": "all command lines", "anchors": ["comfo.go", "config.go"]}
{"id": "C88", "title": "Which JSON bodies are requests", "statement": "A POST with a JSON media type to a method calls it with arguments q exactly if the body begins (after white space) with a JSON object, nested at most 10000 deep, whose strings are all text and in which each field occurs at most once and has, in one of its written forms, the value in q; absent and null fields are zero. The body determines the object. All other bodies are refused as malformed without any call.", "quantifier": "every body, header and method", "why_tests_cant": "all bodies: escapes, exponents, nesting, duplicates", "anchors": ["rpc/comfo/comfo.twirp.go", "rpc/comfo/comfo.proto"]}
{"id": "C89", "title": "JSON arguments fit their types", "statement": "Arguments of a call that came as JSON are within uint32, bool and the 32-bit enum, and the method called is the one addressed.", "quantifier": "every JSON request", "why_tests_cant": "all numbers, also with exponents and fractions", "anchors": ["rpc/comfo/comfo.twirp.go", "rpc/comfo/comfo.proto"]}
{"id": "C90", "title": "Order and unknown members of JSON requests do not matter", "statement": "Two JSON requests for a method whose objects differ only in the order of the members, or in members whose names are not fields of the argument, make the same call or are both refused.", "quantifier": "every pair of bodies", "why_tests_cant": "all orders and all unknown members", "anchors": ["rpc/comfo/comfo.twirp.go"]}
{"id": "C91", "title": "JSON requests are read strictly", "statement": "A JSON body is accepted only if it is one object and nothing else, a number given as a string is alone in the string, and the name of a cache is one of those declared.", "quantifier": "every JSON request", "why_tests_cant": "all bodies", "anchors": ["rpc/comfo/comfo.twirp.go", "comfoserver/server.go", "rpc/comfo/comfo.proto"]}
{"id": "C92", "title": "What a JSON reply says", "statement": "The body of a successful response to a JSON request is exactly one JSON object whose members are the fields of the reply of this method, in order, by their declared names, zeros included, each with the value that the handler returned (numbers, booleans, properly escaped text, temperatures). It cannot be written exactly in the cases in which the protobuf reply cannot be written.", "quantifier": "every reply, every history of requests", "why_tests_cant": "all texts (escapes), all values", "anchors": ["rpc/comfo/comfo.twirp.go", "rpc/comfo/comfo.proto", "comfoserver/protobuf.go"]}
{"id": "C93", "title": "The Go JSON client and the server", "statement": "A call of the Go JSON client is one JSON request that calls this method with these arguments; the client returns the reply that the handler returned, or its error code; after any history it makes no difference whether the JSON or the protobuf client makes a call.", "quantifier": "every call, argument, base URL, reply and history", "why_tests_cant": "all arguments, replies and texts", "anchors": ["rpc/comfo/comfo.twirp.go", "comfoserver/server.go", "rpc/comfo/comfo.proto"]}
{"id": "C94", "title": "Go clients under concurrent HTTP requests", "statement": "Any number of Go clients, JSON and protobuf, may call the server at the same time, among any other requests: in every interleaving the server does what it would do if the procedures were called directly by as many goroutines, and each client returns the reply, or the error code, that its call was given.", "quantifier": "every schedule, every list of requests, every device", "why_tests_cant": "all interleavings", "anchors": ["rpc/comfo/comfo.twirp.go", "comfoserver/server.go", "routes.go", "comfoserver/caches.go"]}
{"id": "C95", "title": "ReqTime says how long the request took", "statement": "The ReqTime of a reply is text that, read as a sequence of decimal numbers with units, says exactly the measured duration and no other, for every duration; it always fits in a message and arrives unchanged in the reply.", "quantifier": "every duration of 64 bits", "why_tests_cant": "all durations: fractions, trailing zeros, units", "anchors": ["comfoserver/server.go", "rpc/comfo/comfo.proto"]}
{"id": "C96", "title": "Which responses are errors of the server", "statement": "The Go client takes a response for an error of a Twirp server with code c exactly if its status is not 200 and no redirect and the first value in its body is a JSON object that says this error: members only code, msg and meta (in any case), strings or null, the last one of each counting, the code not empty. Codes that Twirp does not have become internal; all other responses are understood by their status alone.", "quantifier": "every status and every body", "why_tests_cant": "all bodies: escapes, duplicates, unknown members, nesting", "anchors": ["rpc/comfo/comfo.twirp.go"]}
{"id": "C97", "title": "Errors arrive as sent", "statement": "The JSON of an error is one object with code, msg (cut after a million bytes) and meta, in which what is not UTF-8 is replaced by U+FFFD; metadata is listed by the bytes of its keys, so that an error has one text; the client reads from it the same code, message and metadata. Whatever the message and the metadata are, the client returns the code that the server gave.", "quantifier": "every code, message and metadata, also with bytes that are not text", "why_tests_cant": "all texts (escapes, invalid UTF-8)", "anchors": ["rpc/comfo/comfo.twirp.go", "comfoserver/server.go"]}
{"id": "C98", "title": "Messages are unambiguous", "statement": "Bytes are the protobuf encoding of at most one list of fields, so a body has one meaning; two messages one after the other in a body are read as one message with the fields of both.", "quantifier": "every body, with unknown fields and groups", "why_tests_cant": "all encodings, all nestings", "anchors": ["rpc/comfo/comfo.pb.go", "rpc/comfo/comfo.twirp.go"]}
{"id": "C99", "title": "Go and Python are generated from the same file", "statement": "The descriptor in the Go code and the one in the Python code both describe exactly the messages, fields (number, name, type, name in JSON), enum values and methods of comfo.proto, and a descriptor describes at most one such file; so client and server cannot differ in the meaning of a field.", "quantifier": "every field of every message and every method in both descriptors; every descriptor for the uniqueness", "why_tests_cant": "tests exercise some fields of some messages; uniqueness is over all byte strings", "anchors": ["rpc/comfo/comfo.proto", "rpc/comfo/comfo.pb.go", "python/comfo/comfo_pb2.py"]}
{"id": "C100", "title": "Generated code follows comfo.proto", "statement": "Every method of comfo.proto is routed by the server with the argument type of the file and answered with the reply type of the file, under its name, in both encodings, by both Go clients and by the Python stub and server, and nothing else is; the tags of the Go structs, the types and dependencies handed to the protobuf runtime and the names of the caches are those of the file.", "quantifier": "every method, message, field and enum value", "why_tests_cant": "tests call some of the methods in one encoding", "anchors": ["rpc/comfo/comfo.proto", "rpc/comfo/comfo.pb.go", "rpc/comfo/comfo.twirp.go", "python/comfo/comfo_twirp.py"]}
{"id": "C101", "title": "Interruptions within ReadPacket and Write change nothing", "statement": "If goroutines can be interrupted within ReadPacket and Write, at every read, scan and return, then every reachable state (answers, caches, clock, locks and, when no call is in progress, the connection with its log) is reached by some of the same steps when these calls are indivisible, and the other way round; at most one goroutine is ever within them and it holds the packet lock; no execution gets stuck or runs for ever without time passing, and every request can be answered from every state.", "quantifier": "any number of requests, every unit, every schedule of small steps, every prefix", "why_tests_cant": "schedulers rarely interrupt within a call; tests cannot enumerate the interruptions", "anchors": ["libcomfo/conn.go", "libcomfo/api.go", "libcomfo/message.go", "comfoserver/timers.go"]}
{"id": "C102", "title": "A rejected request names the argument at fault", "statement": "The Go client gets the code invalid_argument with the name of an argument, in the message and under the key argument, if and only if that argument of the request is at fault (comfort temperature above 255; Abs and Rel both given; speed not 1-4; mode not 1-4; target not 15-100 with the mode being fine); the server has then done nothing.", "quantifier": "every request but FlushCache, every state of the caches, every unit", "why_tests_cant": "all arguments and cached modes", "anchors": ["comfoserver/server.go", "comfoserver/helpers.go", "comfoserver/errors.go", "rpc/comfo/comfo.twirp.go"]}
{"id": "C103", "title": "A rejected speed is quoted in the message", "statement": "When SetFanSpeed rejects a speed, the message that reaches the Go client contains, in decimal, the speed that was asked for. (False for speeds that do not fit a byte: Abs=261 is reported as '5', one step down from cached mode 0 as '255'.)", "quantifier": "every speed and cached mode", "why_tests_cant": "all 32-bit values of Abs, all cached modes", "anchors": ["comfoserver/helpers.go", "comfoserver/server.go"]}
{"id": "C104", "title": "Errors of the library reach the client with their text", "statement": "When an operation fails with an error of the library or of the server, the Go client gets code internal and exactly the text of that error, so it can tell any two of them apart; errors of the connection arrive with their text, in which only what is not UTF-8 is replaced. SetFanProfile, and no other method, adds the type of the error.", "quantifier": "every error, every method", "why_tests_cant": "all errors", "anchors": ["libcomfo/errors.go", "comfoserver/errors.go", "comfoserver/server.go", "rpc/comfo/comfo.twirp.go"]}
{"id": "C105", "title": "A request that finds no handler is told why", "statement": "If the server answers a request with a Twirp error before calling a handler, the message states a reason that is true of this request (method other than POST, no such path, a prefix other than /twirp, a content type other than the two, a body that cannot be decoded), quotes the offending part, has method and path in the metadata, and reaches the Go client unchanged unless it is longer than a million bytes.", "quantifier": "every request", "why_tests_cant": "all methods, paths and content types, also with bytes that are not text", "anchors": ["rpc/comfo/comfo.twirp.go", "routes.go"]}
{"id": "C106", "title": "Quoted text can be read back", "statement": "What is quoted in a message is a Go string literal for exactly the bytes that were quoted, and a literal stands for one string only, so nothing in a path or header can forge the rest of the message.", "quantifier": "every byte string", "why_tests_cant": "all strings (control characters, invalid UTF-8, quotes)", "anchors": ["rpc/comfo/comfo.twirp.go"]}
{"id": "C107", "title": "What the client says about responses of others", "statement": "For every response with another status than 200 the Go client returns an error: the server's, if the body says one; otherwise one with the code for the status, a message with the status, its phrase and the location of a redirect, and metadata with the status and the body or the location.", "quantifier": "every status and every body", "why_tests_cant": "all bodies and statuses", "anchors": ["rpc/comfo/comfo.twirp.go"]}
{"id": "C108", "title": "A request that breaks off causes no other call", "statement": "If the body of a request breaks off (the connection fails, or the client gives up), the server either executes the very call that the whole request would have caused, or executes nothing and answers with the error it gives for the path and headers, or with an error that says that the request could not be read: canceled or deadline_exceeded if the request's context is done, otherwise malformed.", "quantifier": "every request, cut anywhere; every continuation", "why_tests_cant": "all requests and all points where they can break off", "anchors": ["rpc/comfo/comfo.twirp.go"]}
{"id": "C109", "title": "A request that breaks off has no effect", "statement": "A request of which only a part arrives is not executed. (False for JSON: the decoder stops at the closing brace, so that a request of which only later bytes are missing is executed.)", "quantifier": "every request, cut anywhere", "why_tests_cant": "all requests and all points where they can break off", "anchors": ["rpc/comfo/comfo.twirp.go"]}
{"id": "C110", "title": "What a Go client call returns when something fails", "statement": "A call returns a reply if and only if its request was sent, a response of status 200 came back whose body is this reply, and the context was never done; the protobuf client also demands that the body be complete, the JSON client that it can be closed. Otherwise it returns an error of code internal that says at which step it failed and why, or the error that the response is. What was sent, if anything, is the request of this call.", "quantifier": "every call, every answer or failure of the connection, the context being done at any of the checks", "why_tests_cant": "failures at every step of a call", "anchors": ["rpc/comfo/comfo.twirp.go"]}
{"id": "C111", "title": "A response that breaks off is never mistaken", "statement": "The protobuf client never returns a reply from a response that breaks off. If the JSON client returns a reply from a response that breaks off, it is the one it would have returned for the whole response, whatever the rest is.", "quantifier": "every response, cut anywhere", "why_tests_cant": "all points where a response can break off, all continuations", "anchors": ["rpc/comfo/comfo.twirp.go"]}
{"id": "C112", "title": "The log can be read back", "statement": "The output of the logger is a sequence of lines, one for each record that is shown at the configured level, each saying the record's time, level, message and attributes in order. It can be read in one way only; a line ends at its first newline, so no method, URI, error text or setting can forge a line or an attribute.", "quantifier": "every sequence of records with any byte strings as messages and values", "why_tests_cant": "all strings: newlines, quotes, equals signs, invalid UTF-8", "anchors": ["logger.go", "comfo.go", "comfoserver/caches.go"]}
{"id": "C113", "title": "A refresh that fails is reported once, with its cause", "statement": "Whatever the server does (RPC, timer, flush, start-up), it logs exactly one error record for each refresh of a cache that failed, in order, naming the cache and the cause: the error of the exchange, or a payload of the wrong length, or a zero counter. After such a record the caches are as before; a refresh without a record either was not due, or succeeded and stamped the cache. The traffic with the unit determines the records.", "quantifier": "every state, every device behaviour", "why_tests_cant": "every way an exchange can fail, for each cache and operation", "anchors": ["comfoserver/caches.go", "comfoserver/timers.go", "comfoserver/server.go", "libcomfo/errors.go"]}
{"id": "C114", "title": "Every API request is recorded once, in debug mode", "statement": "The logger does not change any response. A request for a path of the API is recorded exactly once, after it was answered, with its method, URI and the time it took, which is never negative; other requests are not recorded. The record is in the output if and only if debug logging is on.", "quantifier": "every request in every state", "why_tests_cant": "all requests and timings", "anchors": ["logger.go", "routes.go", "comfo.go"]}
{"id": "C115", "title": "The log tells how the program started", "statement": "From the log one can tell exactly what the program did at its start: which address it dialled or device it opened, whether it populated the caches, on which address it listened. If it gave up, the last record says why (unsupported mode, the connection's error, the listener's error), and there is no other error record except for failed refreshes. Debug records appear if and only if the setting debug is a word for true.", "quantifier": "every command line, environment and outcome of connecting and listening", "why_tests_cant": "all combinations of flags, variables and failures", "anchors": ["comfo.go", "config.go", "comfoserver/timers.go"]}
{"id": "C116", "title": "The compressed descriptor is that of the API", "statement": "What ServiceDescriptor returns can be decompressed by anyone who follows RFC 1951 and 1952, check sum and size included, to exactly one content: the descriptor of comfo.proto that is registered in Go; the index that is returned is that of the service Comfo.", "quantifier": "every reading of the bytes; uniqueness for every gzip file", "why_tests_cant": "that no other reading of the file exists, for any of the bytes", "anchors": ["rpc/comfo/comfo.twirp.go", "rpc/comfo/comfo.pb.go", "rpc/comfo/comfo.proto"]}
{"id": "C117", "title": "The text of a packet identifies it", "statement": "Packet.String says the command in hexadecimal, every byte of the payload in decimal and whether a reply is expected; packets with the same text are the same.", "quantifier": "every command and payload", "why_tests_cant": "256 commands, payloads of any length", "anchors": ["libcomfo/proto.go"]}
{"id": "C118", "title": "Nobody waits for the unit without end", "statement": "Whatever the unit and the other goroutines do, a request waits for the unit and the clock at most: getters and FlushCache not at all, SetComfortTemp 2 s, SetFanProfile 3 s, SetFanSpeed 16.5 s; the last is attained. The worker waits at most 6 s at the start, 2 s per tick, and 1 s (one cache) or 6 s (all) per flush; so all waiting together is bounded by the requests and ticks there are.", "quantifier": "every execution with any requests, device and interleaving", "why_tests_cant": "all interleavings and all behaviours of the unit", "anchors": ["comfoserver/server.go", "comfoserver/caches.go", "comfoserver/timers.go", "libcomfo/conn.go", "libcomfo/api.go"]}
{"id": "C119", "title": "The write timeout leaves room for the waiting", "statement": "What a request waits for the unit is less than the write timeout of the HTTP server, so that its reply can still be sent. (False for SetFanSpeed, which may wait 16.5 s and then report success, and for FlushCache of all caches, for which the worker may wait 6 s; the timeout is 5 s.)", "quantifier": "every request in every execution", "why_tests_cant": "all interleavings and all behaviours of the unit", "anchors": ["comfo.go", "comfoserver/server.go", "comfoserver/caches.go"]}
{"id": "C120", "title": "After the connection is lost the caches stay as they were", "statement": "Once no byte arrives from the unit any more (the stream has ended, reads fail or time out), whatever requests, ticks and flushes come, in any interleaving: no cache changes, getters go on answering with what is cached and without an error, no fan profile is reported as changed, and nothing that the server reads is more than an error or the empty packet.", "quantifier": "every execution from a server at rest, every way of a device to send nothing", "why_tests_cant": "unboundedly many requests and ticks in all interleavings, all mixtures of errors, ends of stream and timeouts", "anchors": ["libcomfo/conn.go", "libcomfo/api.go", "comfoserver/server.go", "comfoserver/caches.go", "comfoserver/timers.go"]}
{"id": "C121", "title": "No change is reported after the connection is lost", "statement": "Once no byte arrives from the unit any more, no reply says that a temperature, speed or profile was changed. (False when the unit has closed the connection but writes still succeed: ScanTimeout ignores that Scan returned false, and the end of the stream passes as an acknowledgement, so that SetComfortTemp reports a change. True if queries time out, or if writes fail.)", "quantifier": "every request in every execution", "why_tests_cant": "all interleavings, all mixtures of errors, ends of stream and timeouts", "anchors": ["libcomfo/conn.go", "libcomfo/api.go", "comfoserver/server.go"]}
{"id": "C122", "title": "Speed changes that meet are taken one after another", "statement": "After the start, whatever other requests, ticks and flushes run at the same time: if no request for a speed ends with a failed poll, the requests for a speed behave as if each began when the one before had ended, in the order in which they began. Each is judged against the speed the unit really has then (1 to 4 can be asked for), is told that speed and the new one, and the unit ends at the speed to which the last one leads.", "quantifier": "every execution with a healthy unit, every number and mixture of requests", "why_tests_cant": "unboundedly many requests in all interleavings, also with a refresh that has read the old speed and not stored it yet", "anchors": ["comfoserver/server.go", "comfoserver/caches.go", "comfoserver/helpers.go", "libcomfo/api.go"]}
{"id": "C123", "title": "No step is lost", "statement": "If k requests for one speed step up are handled, the unit runs k steps faster than before, at most at speed 4; steps down likewise, at least at 1. (False if polling fails: the speed is then set but the cache is not refreshed, so the next step is taken from the old speed and sets the same speed again.)", "quantifier": "every execution with a healthy unit, every number of requests", "why_tests_cant": "unboundedly many requests in all interleavings", "anchors": ["comfoserver/server.go", "comfoserver/helpers.go", "comfoserver/caches.go"]}
{"id": "C124", "title": "Profile changes that meet are taken one after another", "statement": "After the start, whatever other requests, ticks and flushes run at the same time: of the accepted SetFanProfile requests for one profile that have begun, all but at most one are answered; each was told the percentage that the unit really had and that the one before it had set, says whether it changed it, and the unit is at the percentage of the last one. Requests for other profiles and for speeds do not interfere.", "quantifier": "every execution with a healthy unit, every number and mixture of requests, each of the four profiles", "why_tests_cant": "unboundedly many requests in all interleavings, also with a refresh that has read the old percentages and not stored them yet", "anchors": ["comfoserver/server.go", "comfoserver/caches.go", "libcomfo/api.go"]}
{"id": "C125", "title": "Temperature changes that meet leave the last one in force, and each is told what it replaced", "statement": "After the start, whatever other requests, ticks and flushes run at the same time: the SetComfortTemp requests that are told of a change set the unit in some order, each once, which is never revised; the unit is at the temperature of the last one; everybody is told a temperature that the unit has had since the start, those of a change one from before theirs; and each is told the temperature it replaced. (The last is false: the handler looks in the cache before it waits for its turn, so a request can be told a temperature that others have replaced meanwhile; and while a refresh is under way, a request for the old temperature is told that there is nothing to change.)", "quantifier": "every execution with a healthy unit, every number and mixture of requests", "why_tests_cant": "unboundedly many requests in all interleavings, also with a refresh that has read the old temperature and not stored it yet", "anchors": ["comfoserver/server.go", "comfoserver/caches.go", "libcomfo/api.go"]}
{"id": "C126", "title": "Every failed refresh is reported by the goroutine that made it, whatever else goes on", "statement": "In every interleaving of requests, ticks and flushes the traffic with the unit consists of whole exchanges, each made by one goroutine. The error records of a request are the reports of those of its own refreshes that failed, in order, each with its cause; the records of the cache worker those of its own, after the two of the start. None is missing, and no goroutine reports another's failure.", "quantifier": "every execution, every behaviour of the unit, every number and mixture of requests", "why_tests_cant": "unboundedly many requests in all interleavings, all mixtures of failures", "anchors": ["comfoserver/caches.go", "comfoserver/server.go", "comfoserver/timers.go", "libcomfo/api.go"]}
{"id": "C127", "title": "Of requests for the same thing only one is told of a change", "statement": "If several requests ask for the same percentage of one profile, the same speed or the same comfort temperature, and no others interfere, at most one is told that it changed something, whatever else goes on; for profiles, and for speeds if no poll fails, it is the one that began first. (False for comfort temperatures: two requests for 22 degrees that meet can both be told that they changed 21 to 22, since the handler compares with the cache before it waits for its turn.)", "quantifier": "every execution with a healthy unit, every number of requests", "why_tests_cant": "unboundedly many requests in all interleavings", "anchors": ["comfoserver/server.go", "comfoserver/caches.go"]}
{"id": "C128", "title": "Speed changes that meet while polls fail are still taken one after another", "statement": "After the start, whatever other requests, ticks and flushes run at the same time, and whether polls succeed or not: the requests for a speed are taken in the order in which they began, all but at most the last are answered, and each is handled by what the profile cache shows then. A request that succeeds leaves cache and unit at its speed; one whose poll fails leaves the unit at its speed and the cache as it was or at the speed that the unit had; only refreshes correct the cache in between. If the last one is told of a change or of a failed poll, the unit runs at the speed it asked for.", "quantifier": "every execution with a healthy unit, every number and mixture of requests", "why_tests_cant": "unboundedly many requests in all interleavings, failing and succeeding polls in any order, also with a refresh that has read the old speed and not stored it yet", "anchors": ["comfoserver/server.go", "comfoserver/caches.go", "comfoserver/helpers.go", "libcomfo/api.go"]}
{"id": "C129", "title": "What a query makes of anything it hears", "statement": "Where no earlier reader is left, the result of a query is determined by the bytes that arrive until Read fails or nothing more comes in time, and by which of the two happens, however the bytes are divided: a data query succeeds exactly if they begin with two control sequences, a packet with the right command, length and checksum, and a third control sequence; something is set successfully exactly if they begin with a control sequence, or if Read fails before any has come (the code takes the end of the stream for an acknowledgement). Otherwise the error is the one of the case: stray bytes, timeout, too short, bad packet, wrong reply.", "quantifier": "every sequence of reads, errors and pauses of up to 4096 bytes and 100 empty reads, every request", "why_tests_cant": "all byte strings in all divisions, all errors at all points", "anchors": ["libcomfo/conn.go", "libcomfo/message.go", "libcomfo/api.go"]}
{"id": "C130", "title": "What a Python client is told holds of the unit", "statement": "With any number of Python clients and other HTTP requests at the same time: if a set method returns True, then at a moment between the arrival of its request and the reply the unit had the speed, temperature or percentages asked for (for a step: a speed from 1 to 4). A set method raises only if the fans were not seen to follow a new speed, or for a temperature above 107. After the start get_temps and get_fan_profiles return an object that shows the unit as it was at one moment; after a True every client sees the value set, if nobody asks for another.", "quantifier": "every execution with a healthy unit, every number and mixture of HTTP requests, well-formed or not", "why_tests_cant": "unboundedly many clients in all interleavings, through the HTTP front end, caches and line", "anchors": ["python/comfo/client.py", "rpc/comfo/comfo.twirp.go", "comfoserver/server.go", "comfoserver/caches.go", "libcomfo/api.go"]}
{"id": "C131", "title": "Server hooks and interceptors", "statement": "Whatever hooks, interceptor and service a comfo server is built with, every HTTP request is answered exactly once, followed by exactly one ResponseSent; the Error hook sees exactly the errors that are written (and failing writes), with their status in the context, and a panic of the service is answered with an internal error and raised again. The service is called only if RequestReceived and RequestRouted let the request through and it decodes, and whatever an interceptor does only the method addressed; without one exactly once, and with one in the order in which it passes requests on, each as passed on; a message of another method gives it an error without a call, and what it returns is what is written. What a hook refuses is answered with its error. Replies have the type of the method. Inert hooks and an interceptor that only passes on change nothing; without them it is the server of the other properties.", "quantifier": "every hooks record, interceptor (any program), service, context and request", "why_tests_cant": "hooks, interceptors and services are arbitrary functions and programs", "anchors": ["rpc/comfo/comfo.twirp.go", "rpc/comfo/comfo.proto", "routes.go"]}
{"id": "C132", "title": "Hooks and interceptors of the Go clients", "statement": "Whatever hooks and interceptor a Go client (protobuf or JSON) is built with: per request RequestPrepared is called at most once and before it is sent, then exactly one of ResponseReceived (if a reply is returned) and Error (with the error returned, or an internal one naming it if it is none of Twirp's); with an interceptor the hooks see such errands one after the other, in the contexts and with the messages it passes on. RequestPrepared is given the request drawn up for the call, what it hands back is sent, and its context is the later hooks'. What RequestPrepared refuses is not sent and its error is returned. If hooks leave requests alone, then whatever an interceptor does only the method called is asked for, and a reply has its type. With inert hooks it is the client of the other properties. (A Twirp error wrapped in another shows its code to a server's Error hook, but not to a client's.)", "quantifier": "every hooks record, interceptor, context, request, and behaviour of the network at each attempt", "why_tests_cant": "hooks and interceptors are arbitrary functions and programs; retries without bound", "anchors": ["rpc/comfo/comfo.twirp.go"]}
{"id": "C133", "title": "What clients of any kind are told holds of the unit", "statement": "With any number of Go clients (protobuf and JSON), Python clients and other HTTP requests at the same time: if a reply reports a change, then at a moment between the arrival of the request and the reply the unit was as asked. An error is invalid_argument, for bad arguments or a step, and bad arguments always get it; or internal, for a speed, a comfort temperature above 107, or the boot information (whose name may be no text). After the start the temperatures and profiles returned are those of the unit at one moment; after a flush, of a moment since it was asked for; and after a change reported to one client every other client of any kind sees it, if nobody asks for something else.", "quantifier": "every execution with a healthy unit, every number and mixture of clients and other HTTP requests", "why_tests_cant": "unboundedly many clients of three kinds in all interleavings, through encoders, front end, caches and line", "anchors": ["rpc/comfo/comfo.twirp.go", "python/comfo/client.py", "comfoserver/server.go", "comfoserver/caches.go", "libcomfo/api.go"]}
{"id": "C134", "title": "Base URLs with which a Go client can send nothing", "statement": "If the base URL contains a control character, begins with a colon, has a scheme other than http and https, or a port that is no number, then every call of either Go client, with any path prefix, fails with an internal error, no request is made, and the server is left alone. Whatever base URL and prefix, what is sent is a POST by http or https to a host, with the content type of the client.", "quantifier": "every such base URL, prefix, request and state of the server", "why_tests_cant": "all strings", "anchors": ["rpc/comfo/comfo.twirp.go"]}
{"id": "C135", "title": "A Go client and a server with the same path prefix find each other", "statement": "If a Go client (protobuf or JSON) and a server are built with the same path prefix, the server calls its service with every request of the client that its hooks let through. (False: the client joins and cleans its prefix, the server compares with its own as it stands, so with \"api\" or \"/api/\" at both ends, although the request goes to the path that PathPrefix of the server announces, it is answered 404 with bad_route. Exactly the server whose prefix is written with a slash before each element and none at the end is reached, by every form of the client's.)", "quantifier": "every prefix of any number of elements, base URL, request, hooks and service", "why_tests_cant": "all strings as prefixes at both ends, all requests, arbitrary hooks", "anchors": ["rpc/comfo/comfo.twirp.go"]}
{"id": "C136", "title": "The JSON options of a server do not matter to clients", "statement": "A server may be built to leave fields that are zero out of its JSON replies, or to use the JSON names of fields. Then the object has exactly the members of the reply that are not zero, false or empty (a negative zero stays), in order, under the same names, since no name in comfo.proto has an underscore; it can be written exactly if the protobuf reply can; and the Go JSON client reads from it the reply that the service gave, so that after any history a call does and returns the same whatever the options.", "quantifier": "both options, every reply of every method, every history", "why_tests_cant": "all replies with all combinations of zero fields, all histories", "anchors": ["rpc/comfo/comfo.twirp.go", "rpc/comfo/comfo.proto", "rpc/comfo/comfo.pb.go"]}
{"id": "C137", "title": "Request headers that a caller of a Go client adds", "statement": "A request of a Go client has Accept, Content-Type and Twirp-Version of the client and, under all other keys, the headers that the caller put into the context, and so the server finds them. Nothing that hooks or an HTTP client do with the headers of a request (set, append, delete, overwrite an element, share or reslice) changes those in the context, so that the next request has the same; and nothing done with the context's changes a request already made. (The server need not find the client's content type: with CONTENT-TYPE in the context, which is another key, the line of the caller comes first.)", "quantifier": "every heap, header map, content type, key and sequence of changes", "why_tests_cant": "all aliasing of maps and arrays, all sequences of changes", "anchors": ["rpc/comfo/comfo.twirp.go"]}
{"id": "C138", "title": "A request during which something panics is answered", "statement": "When something panics while a Twirp server of this API handles a request, the client is answered with an internal error (status 500), which is flushed, and the panic goes on up; whatever was done before stays as it would be without the panic, and nothing is done after it. (False of panics in server hooks, which leave the client without an answer even if the service has done its work, and of errors whose code Twirp does not know.)", "quantifier": "all hooks, interceptors, services and requests", "why_tests_cant": "Where hooks, interceptors and services panic, and with which contexts, is unbounded; so are the combinations.", "anchors": ["rpc/comfo/comfo.twirp.go"]}
{"id": "C139", "title": "The unit file of systemd chooses the device", "statement": "Started by systemd/comfo.service, the program opens the serial device that the variable COMFO_USB_DEVICE names in it. (False: the variable is not looked at; only COMFO_DEBUG, COMFO_MODE, COMFO_TARGET and COMFO_LISTEN have a meaning.)", "quantifier": "all environments, devices and command lines", "why_tests_cant": "the environment can hold any variables with any contents", "anchors": ["systemd/comfo.service", "comfo.go:main", "config.go"]}
{"id": "C140", "title": "How the program ends", "statement": "The program ends with status 2 if its command line is bad; with status 1 if the mode is unknown, the unit cannot be reached or the address cannot be listened on, and then the last record of the log is an error with the cause; and otherwise it goes on. It never ends with status 0.", "quantifier": "all command lines, environments and failures", "why_tests_cant": "command lines, environments and failures are unbounded; os.Exit cannot be observed inside a test", "anchors": ["comfo.go:main", "comfo.go:ConnectUnit", "config.go"]}
{"id": "C141", "title": "A hook of a Go client that panics", "statement": "When a hook of a Go client panics the call panics, and up to then all went as it would with a hook that does not; nothing is done after it. A request has been sent if it is ResponseReceived, none if it is RequestPrepared. An interceptor that recovers can ask again, and its requests are made one after the other, each up to its panic.", "quantifier": "all hooks, interceptors, requests and HTTP clients", "why_tests_cant": "where hooks panic, and how interceptors go on after it, is unbounded", "anchors": ["rpc/comfo/comfo.twirp.go"]}
{"id": "C142", "title": "Errors and replies from a server with hooks at a Go client with hooks", "statement": "Whichever hook, interceptor or service of a server an error comes from, a Go client's call returns it with its code, its message (UTF-8, up to a million bytes) and its metadata, and the client's Error hook is told the same, last of all. What RequestReceived says when it refuses is one case. A reply is returned as the service gave it, and ResponseReceived is called last.", "quantifier": "all servers, hooks, interceptors, services, clients, contexts, requests, errors and replies", "why_tests_cant": "hooks and interceptors are arbitrary functions, errors and their metadata are unbounded", "anchors": ["rpc/comfo/comfo.twirp.go"]}
