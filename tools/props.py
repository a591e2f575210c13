#!/usr/bin/env python3
"""Writes /verif/properties.jsonl (single source for the property texts)."""
import json
P=[]
def p(title, statement, quantifier, why, *anchors):
    P.append(dict(id="C%02d"%(len(P)+1), title=title, statement=statement,
      quantifier=quantifier, why_tests_cant=why, anchors=list(anchors)))

# ---- codec
p("Packet round trip",
  "For every command byte and every payload of at most 255 bytes, UnmarshalPacket applied to the bytes MarshalPacket returns yields exactly that command and that payload, without error or panic.",
  "every command 0-255 and every payload of 0-255 arbitrary bytes",
  "256^256 payloads; runs of 0x07 in every position matter",
  "libcomfo/proto.go:MarshalPacket","libcomfo/proto.go:UnmarshalPacket")
p("Wire format of a marshaled packet",
  "MarshalPacket never panics; it rejects exactly the payloads longer than 255 bytes; otherwise its output is 0x00, command, unescaped payload length, the payload with each 0x07 doubled and nothing else changed, and a final byte that makes command+length+payload bytes+173-checksum divisible by 256.",
  "every packet, including payloads of any length", "unbounded payload domain",
  "libcomfo/proto.go:MarshalPacket","libcomfo/proto.go:escapeData","libcomfo/proto.go:calculateChecksum")
p("Exact acceptance condition of UnmarshalPacket",
  "For every byte string UnmarshalPacket terminates without panicking and accepts it exactly when it has at least 4 bytes, its third byte equals the number of payload bytes after unescaping and its last byte is the checksum of command, length and unescaped payload; the returned command and payload are then those fields, and a rejected input yields the zero packet and the error that names the first failed condition.",
  "every byte string of every length", "all byte strings, including truncated and malformed ones",
  "libcomfo/proto.go:UnmarshalPacket")
p("Escaping is lossless",
  "Escaping a payload and unescaping it returns the payload; distinct payloads have distinct escaped forms; the escaped form is longer than the payload by exactly the number of 0x07 bytes in it; and in the escaped form 0x07 bytes come only in adjacent pairs.",
  "every payload of every length", "unbounded payloads; adjacent runs of the escape byte",
  "libcomfo/proto.go:escapeData","libcomfo/proto.go:unescapeData")
p("Checksum equals the protocol formula",
  "The checksum is (command + length + sum of payload bytes + 173) mod 256 for every payload length, i.e. the 64-bit accumulator never changes the result; two packets whose command, length and payload differ in exactly one byte always have different checksums.",
  "every command, length byte and payload", "unbounded sums, wrap-around at 8 and 64 bits",
  "libcomfo/proto.go:calculateChecksum","libcomfo/proto.go:verifyChecksum")
p("A single corrupted byte is detected",
  "If any one byte other than the first of a marshaled packet is replaced by a different byte value, UnmarshalPacket rejects the result.",
  "every packet, every position except the first, every replacement byte",
  "the replacement may create or destroy escape sequences; the case space is payload x position x value",
  "libcomfo/proto.go:UnmarshalPacket","libcomfo/proto.go:unescapeData","libcomfo/proto.go:verifyChecksum")
# ---- framing
p("A well-formed reply is decoded exactly or rejected, never misread",
  "When the unit sends ACK followed by a frame holding a marshaled packet, reading it with data expected returns exactly that packet, unless the packet contains a byte 0x07 immediately followed by 0x0F, 0xF0 or 0xF3 among (command, length, payload, checksum), in which case reading always returns an error; it never returns a different packet.",
  "every command and payload of at most 255 bytes", "the collision between escaped 0x07 and delimiter bytes depends on payload, length and checksum values",
  "libcomfo/conn.go:ReadPacket","libcomfo/proto.go:MarshalPacket","libcomfo/proto.go:UnmarshalPacket")
p("Every payload the unit can send is readable",
  "Every reply the unit frames according to the protocol (0x07 doubled in the payload) is read back successfully.",
  "every command and payload of at most 255 bytes", "needs the one payload pattern that collides with the delimiter scan",
  "libcomfo/conn.go:ReadPacket")
p("Reading does not depend on how bytes are chunked",
  "For a given sequence of bytes from the unit (up to 4096, without a read error), the packet or error returned by a read is the same whatever the sizes of the pieces in which the connection delivers them, including empty reads.",
  "every byte string of at most 4096 bytes and every way of cutting it into pieces", "exponentially many segmentations; delimiters can straddle pieces",
  "libcomfo/conn.go:ReadPacket","libcomfo/conn.go:ScanTimeout")
p("Reading never panics and always finishes",
  "Whatever the connection does (any bytes, any chunk sizes, read errors, EOF, silence), a read returns a packet or an error and never panics, and it returns a non-empty packet only if it passed all UnmarshalPacket checks.",
  "every sequence of read results of the connection", "arbitrary adversarial byte streams",
  "libcomfo/conn.go:ReadPacket")
p("One corrupted byte on the line never yields wrong data",
  "If exactly one byte of the unit's reply (ACK, frame start, body, frame end) is replaced by another value, a data query returns either the packet the unit sent or an error, never a different packet.",
  "every packet, every position of the reply, every replacement value", "interaction of corrupted delimiters, lengths, escapes and checksum",
  "libcomfo/conn.go:QueryPacket","libcomfo/conn.go:ReadPacket")
p("What a query puts on the wire",
  "A query writes the framed request once, before reading; it then writes one ACK exactly if the reply was read without error and (for data queries) carries the request command plus one; it writes nothing else, and nothing at all if the request cannot be marshaled.",
  "every request packet and every behaviour of the connection", "all failure points of the connection",
  "libcomfo/conn.go:QueryPacket","libcomfo/conn.go:WritePacket","libcomfo/conn.go:WriteAck")
p("A data query only succeeds with the matching reply",
  "If a data query returns no error, then the returned packet has command = request command + 1 (mod 256), its bytes passed length and checksum verification, and they were delivered by the connection after the request was written or left over from before it.",
  "every request and every behaviour of the connection", "adversarial connections",
  "libcomfo/conn.go:QueryPacket")
p("A successful set was acknowledged by the unit",
  "If a set operation (SetSpeed, SetComfort, SetFanProfiles) returns nil, the unit sent an ACK sequence (0x07 0xF3).",
  "every behaviour of the connection", "includes EOF, oversize noise and other control sequences",
  "libcomfo/conn.go:ReadPacket","libcomfo/conn.go:ScanTimeout","libcomfo/message.go:setQuery")
p("A query after a timeout receives its own reply",
  "After a query has timed out, a later query to which the unit replies promptly and correctly returns that reply.",
  "every history of queries with at least one timeout", "needs the abandoned reader goroutine of an earlier query",
  "libcomfo/conn.go:ScanTimeout","libcomfo/conn.go:QueryPacket")
p("Invalid set requests never reach the unit",
  "SetSpeed above 4, SetComfort above 107, SetFanProfile with mode above 3 or speed above 100 return an error and neither read from nor write to the connection; all other arguments write exactly one correctly encoded request (for SetFanProfile after the profile query succeeded).",
  "every 8-bit argument and every connection behaviour", "all arguments times all connection behaviours",
  "libcomfo/api.go:SetSpeed","libcomfo/api.go:SetComfort","libcomfo/api.go:SetFanProfile","libcomfo/message.go:EncodeSetRequest")
# ---- types
p("Temperature encoding",
  "For every whole temperature from -20 to 107 the encoded byte is 2*(t+20) and decoding it returns t; every byte b decodes to floor(b/2)-20 exactly (as a float32), and whole temperatures outside the range are rejected.",
  "every byte and every 8-bit comfort argument", "float32 rounding and truncation for all values",
  "libcomfo/message.go:temperature.MarshalBinary","libcomfo/message.go:temperature.UnmarshalBinary")
p("Reply layouts",
  "Each decoder (fans, boot info, fan profiles, temperatures, errors, hours, bypass) accepts exactly payloads of its fixed length (fans additionally non-zero tachometer values), never panics, and each result field is the big-endian integer or flag at the documented offset and depends on no other byte.",
  "every payload of every length", "all payloads; field-offset confusion",
  "libcomfo/response_types.go","libcomfo/message.go:leftPad32","libcomfo/message.go:DecodeResponse")
p("Reported fan RPM",
  "GetFans reports floor(1875000 / raw) RPM for both fans.",
  "every raw tachometer value 1-65535", "truncation to 16 bits for small raw values",
  "libcomfo/response_types.go:Fans.UnmarshalBinary")
p("Getters never panic",
  "No getter (temperatures, bypass, fans, hours, bootloader, firmware, fan profiles, errors) panics or returns a value together with an error, for any connection behaviour; on error the zero value is returned; on success the value is the documented decoding of the payload of the reply.",
  "every connection behaviour", "type assertions and indexing on adversarial replies",
  "libcomfo/api.go","libcomfo/message.go:getQuery","libcomfo/message.go:DecodeResponse")
p("SetFanProfile changes exactly one profile",
  "Against a unit that follows the protocol, a successful SetFanProfile(mode, speed) leaves in and out percentage of that mode equal to speed and all six other percentages unchanged, and a following GetFanProfiles reports exactly that.",
  "every unit state, mode 0-3 and speed 0-100, every chunking of the replies", "all unit states; read and write layouts differ",
  "libcomfo/api.go:SetFanProfile","libcomfo/request_types.go:FanProfiles.MarshalBinary","libcomfo/response_types.go:FanProfiles.UnmarshalBinary")
p("Profile numbering is consistent",
  "The profile changed by the SetFanProfile RPC for mode m (1-4) is the one Lookup(m) returns and the one SetFanSpeed(Abs=m) activates and polls for.",
  "every m and every profile table", "three different numberings (0-3, 1-4, field names) must agree for all values",
  "comfoserver/server.go:SetFanProfile","libcomfo/api.go:SetFanProfile","libcomfo/response_types.go:Lookup","comfoserver/caches.go:UpdatePoll")
# ---- server
p("Getter RPCs serve the last successful fetch",
  "Each getter RPC performs no I/O and returns exactly the value decoded from the most recent successful fetch of that cache (the zero value if there was none), whatever mixture of successful and failed refreshes, sets and flushes came before.",
  "every history of refreshes, flushes and set requests and every connection behaviour", "unbounded histories with failures",
  "comfoserver/caches.go","comfoserver/protobuf.go","comfoserver/server.go")
p("A failed refresh changes nothing",
  "If fetching fails, the cached value, its timestamp and all other caches stay as they were, and all locks are released.",
  "every cache, every state and every failing connection behaviour", "every failure point",
  "comfoserver/caches.go:Update")
p("Refresh decision",
  "An unforced refresh contacts the unit exactly when the cached value is more than 4.5 seconds old (or was never fetched); a forced refresh always does; a refresh sends exactly one query, the one for its cache.",
  "every pair of times, every cache", "time differences incl. saturation of Duration",
  "comfoserver/caches.go:isStale","comfoserver/caches.go:Update")
p("SetComfortTemp",
  "SetComfortTemp rejects arguments above 255 without I/O; arguments 108-255 produce an error and never change the unit; otherwise, if the cached comfort temperature differs, exactly one set request carrying the encoded target is sent, and on success the reply says Modified with the previous cached and the requested temperature.",
  "every 32-bit argument, every non-negative cached temperature, every connection behaviour", "all arguments times connection behaviours",
  "comfoserver/server.go:SetComfortTemp")
p("Only speeds 1-4 are ever requested",
  "SetFanSpeed only ever sends speed values 1-4 to the unit; Rel steps by exactly one; stepping past 1 or 4, and setting both Abs and Rel, is rejected as invalid argument without I/O.",
  "every request (32-bit Abs, Rel) and every cached mode 0-255", "8-bit wrap-around at both ends",
  "comfoserver/helpers.go:modifySpeed","comfoserver/server.go:SetFanSpeed")
p("SetFanSpeed honours Abs",
  "SetFanSpeed with Abs = n either sends n to the unit, does nothing because the unit is already at n, or fails; in particular it rejects every Abs above 4.",
  "every 32-bit Abs", "truncation of 32-bit values to 8 bits",
  "comfoserver/helpers.go:modifySpeed")
p("SetFanProfile argument range",
  "The SetFanProfile RPC rejects every Mode outside 1-4 and every TargetSpeed outside 15-100, without I/O.",
  "all pairs of 32-bit arguments", "truncation of 32-bit values to 8 bits",
  "comfoserver/server.go:SetFanProfile")
p("Success of SetFanSpeed means the unit runs at that speed",
  "If SetFanSpeed(Abs=n) succeeds, the unit's mode is n afterwards.",
  "every history of requests with a single protocol-conforming unit", "needs a failed poll earlier in the history that leaves a stale cached mode",
  "comfoserver/server.go:SetFanSpeed","comfoserver/caches.go:UpdatePoll")
p("Success of the SetFanProfile RPC means both percentages are set",
  "If the SetFanProfile RPC succeeds, both the in and the out percentage of the profile equal TargetSpeed on the unit.",
  "every unit and cache state", "only the in percentage is compared before skipping the write",
  "comfoserver/server.go:SetFanProfile")
p("Polling after a speed change",
  "UpdatePoll fetches fan data at most count times, stops at the first fetch after which the cached percentages equal those of the target profile and then returns success, and otherwise returns the poll error after exactly count fetches and count half-second pauses.",
  "every count, target, profile table and connection behaviour", "unbounded count, all sequences of readings",
  "comfoserver/caches.go:UpdatePoll")
p("No operation leaks a lock",
  "After any RPC or cache refresh has returned, every lock it took is released.",
  "every operation, argument, cache state and connection behaviour", "early-return paths",
  "comfoserver/caches.go:UpdatePoll","comfoserver/server.go","libcomfo/conn.go:QueryPacket","libcomfo/api.go:SetFanProfile")
p("FlushCache",
  "FlushCache for BootInfo, Fans, Temps, Profiles, Bypass sends exactly one query (for that cache), for All exactly six queries, for any other value none; it reports Success exactly for the known values.",
  "every 32-bit cache value, every connection behaviour", "open enum domain",
  "comfoserver/caches.go:FlushCaches","comfoserver/server.go:FlushCache")
p("FlushCache success means refreshed",
  "If FlushCache reports Success the requested cache holds data fetched after the request started.",
  "every connection behaviour", "failing fetches",
  "comfoserver/caches.go:FlushCaches")
p("FlushCache replies match requests under concurrency",
  "With any number of concurrent FlushCache callers and cache-worker ticks, every caller receives the outcome of its own request.",
  "every number of callers and every interleaving", "schedules",
  "comfoserver/server.go:FlushCache","comfoserver/timers.go:CacheWorker","comfoserver/caches.go:FlushCaches")
p("The server cannot deadlock",
  "With any number of concurrent RPCs of any kind and the cache worker, in every reachable state in which some RPC is unfinished, some thread can take a step; with no further timer ticks every RPC can be completed.",
  "every multiset of concurrent requests, every interleaving, every connection behaviour", "schedules",
  "comfoserver/server.go","comfoserver/caches.go","comfoserver/timers.go","libcomfo/conn.go","libcomfo/api.go")
p("Queries on the connection are serialised",
  "Whatever the interleaving, the exchanges of concurrent queries never mix on the wire: results, bytes written and connection state are those of running the queries one after another in some order.",
  "every number of concurrent queries, every interleaving, every connection behaviour", "schedules",
  "libcomfo/conn.go:QueryPacket")
p("Getter RPCs return consistent snapshots",
  "Under any interleaving with refreshes, the fields returned by one getter RPC all stem from one and the same successful fetch (or the initial zero value).",
  "every set of concurrent requests and every interleaving", "field-wise interleavings",
  "comfoserver/protobuf.go","comfoserver/caches.go")
p("Poll decisions use a consistent reading",
  "When UpdatePoll returns success, some single fetched fan reading had both target percentages.",
  "every interleaving with the cache worker", "unlocked field reads",
  "comfoserver/caches.go:UpdatePoll")
p("Concurrent profile changes are not lost",
  "Concurrent SetFanProfile calls on one protocol-conforming unit have the same effect as running them one after another in some order.",
  "every number of concurrent calls, every interleaving", "schedules",
  "libcomfo/api.go:SetFanProfile")
p("SetFanProfile and SetFanProfiles together lose no update",
  "A SetFanProfiles call running concurrently with SetFanProfile has the effect of running both in some order.",
  "every interleaving", "schedules", "libcomfo/api.go:SetFanProfile","libcomfo/api.go:SetFanProfiles")
p("Staleness bound",
  "If every fast tick is served within D seconds and every query succeeds, the temperature data served by a getter RPC is never older than 9.5 + D seconds; and slow/glacial ticks behave correspondingly.",
  "every tick/delay history", "unbounded timing histories, 10% margin can skip a tick",
  "comfoserver/timers.go:CacheWorker","comfoserver/caches.go:isStale")
p("Python client range checks",
  "The Python client raises before any request for speeds outside 1-4, profiles outside 1-4, percentages outside 15-100 and temperatures outside 0-255; every request it does send is one the server does not truncate, and increase/decrease return False exactly when the server reports an out-of-range step.",
  "every integer argument and cached mode", "all integers",
  "python/comfo/client.py","comfoserver/helpers.go:modifySpeed","comfoserver/server.go")
p("A failed poll is reported to the caller",
  "If polling fails, the caller of SetFanSpeed receives the internal error.",
  "every run in which polling fails", "elapsed time of the poll loop versus the HTTP write deadline",
  "comfoserver/caches.go:UpdatePoll","comfo.go:main")
p("Device name is trimmed only at the ends",
  "The device name of boot info is the longest substring of the ten name bytes obtained by removing white space at both ends; no other byte is changed.",
  "every 10-byte name", "UTF-8 decoding of arbitrary bytes from both ends",
  "libcomfo/response_types.go:BootInfo.UnmarshalBinary")
p("RPC messages carry the cached values unchanged",
  "Each getter RPC message equals the cached record field by field, without truncation, and two different cached records give different messages.",
  "every cached record", "field mix-ups between eleven similar fields",
  "comfoserver/protobuf.go")
p("Shared frame constants are never modified",
  "Building a frame never writes to the package-level start, end or ACK byte slices, so concurrent or later frames are unaffected.",
  "every packet and every number of frames", "append aliasing depends on capacities",
  "libcomfo/conn.go:WritePacket","libcomfo/proto.go")
p("What each timer tick refreshes",
  "A fast tick refreshes at most temperatures then fans, a slow tick at most profiles then bypass, a glacial tick at most boot info then errors, each only if stale; start-up fetches all six caches once, in a fixed order, and no timer ever fetches hours.",
  "every cache state and connection behaviour", "all staleness combinations and failures",
  "comfoserver/timers.go","comfoserver/caches.go:UpdateCaches")
p("UpdatePoll releases its read lock",
  "UpdatePoll returns with no lock held, for every target speed.",
  "every server state, count and target speed", "the error path is never taken by the RPCs",
  "comfoserver/caches.go:fanCacheType.UpdatePoll")
p("The server sends only permitted requests",
  "Whatever sequence of RPCs, timer ticks and start-ups is performed and however the connection behaves, the server writes nothing to the unit but complete frames of: the six cache queries, set-speed with one byte 1-4, set-comfort with the encoding of 0-107 degrees, set-profiles with exactly eight bytes, and ACKs; in particular no reset, no ventilation-level change outside these and no hours query.",
  "every sequence of operations, every cache state and connection behaviour", "unbounded sequences with arbitrary faults in between",
  "comfoserver/server.go","comfoserver/timers.go","libcomfo/conn.go")
p("Left-over readers take turns with the current query",
  "When earlier queries have timed out, their readers are still blocked in Read. Arriving pieces go to all of these readers and the current query, in turn or in whatever order they are served; as long as nobody finds a control sequence the query times out and its reader stays behind with the bytes it got.",
  "every number of left-over readers, every sequence of pieces", "needs several timeouts and precise arrival of data",
  "libcomfo/conn.go:ScanTimeout","libcomfo/conn.go:WaitTimeout")
p("Only timeouts leave readers behind",
  "However the connection is used, the number of readers left behind is at most the number of ReadPacket calls that timed out.",
  "every program using the connection, every behaviour of the line", "all interleavings of timeouts and data",
  "libcomfo/conn.go:ScanTimeout","libcomfo/conn.go:ReadPacket")
p("The profile cache follows the unit",
  "On a reliable line to a unit that sends readable packets, after start-up and as long as no SetFanSpeed reported a failed poll, GetFanProfiles returns the percentages and mode the unit really has.",
  "every unit state, every sequence of RPCs, timer ticks and flushes", "unbounded histories",
  "comfoserver/caches.go","comfoserver/server.go")
p("Exchanges stay whole under concurrency",
  "With any number of concurrent RPCs and the cache worker, whenever nobody holds the packet lock the bytes written and packets read so far are a sequence of complete permitted exchanges.",
  "every multiset of concurrent requests, every interleaving, every connection behaviour", "interleavings at the level of single reads and writes",
  "libcomfo/conn.go:QueryPacket","comfoserver/server.go","comfoserver/timers.go")
p("Reported originals are real",
  "Under any interleaving the original value in the answer of SetFanProfile, SetComfortTemp and SetFanSpeed is the one of some successful fetch, or the initial zero value.",
  "every set of concurrent requests and every interleaving", "the caches are read without locks",
  "comfoserver/server.go:SetFanProfile","comfoserver/server.go:SetComfortTemp","comfoserver/server.go:SetFanSpeed")
p("No goroutine panics",
  "Under any interleaving no handler and not the worker panics, in particular none unlocks a mutex it does not hold.",
  "every multiset of concurrent requests, every interleaving, every connection behaviour", "all interleavings with all faults",
  "comfoserver/server.go","comfoserver/caches.go","comfoserver/timers.go","libcomfo/conn.go")
p("Cached records are free of data races",
  "No goroutine reads a cached record while another is about to write it.",
  "every multiset of concurrent requests and every interleaving", "the race detector sees only the schedules that happen",
  "comfoserver/caches.go","comfoserver/protobuf.go","comfoserver/server.go")
p("The async client methods do what the plain ones do",
  "Every async_ method of the Python client behaves as the method without the prefix, whether the event loop was passed to the constructor or taken from the running one.",
  "every method, every way of constructing the client", "the tests construct the client in one way only",
  "python/comfo/client.py")
p("Python objects show the server's records",
  "The objects returned by the Python get methods have exactly the field values of the record in the server's cache.",
  "every record content", "all field values",
  "python/comfo/client.py","python/comfo/types.py","comfoserver/protobuf.go")
p("True from the Python client means the unit was changed",
  "When set_fan_speed, increase/decrease_fan_speed or configure_fan_profile returns True, the unit is in the requested mode, or has the requested percentages in that profile and all others unchanged.",
  "every unit state, cache contents, argument, and line that may lose packets", "needs a unit and a lossy line",
  "python/comfo/client.py","comfoserver/server.go","libcomfo/api.go")
p("ping verifies connectivity to the unit",
  "The Python client's ping fails if the server cannot reach its unit.",
  "every connection behaviour", "needs a unit that stops answering",
  "python/comfo/client.py:ping","comfoserver/server.go:GetBootInfo")
p("Documented comfort temperatures can be set",
  "Every comfort temperature that the Python client accepts is one the unit can be set to.",
  "every temperature 0-255", "all temperatures against the server's conversion",
  "python/comfo/client.py:set_comfort_temperature","comfoserver/server.go:SetComfortTemp","libcomfo/request_types.go")
p("Packet functions do not share memory",
  "escapeData, unescapeData, MarshalPacket and leftPad32 return slices over newly allocated arrays and leave every array that existed before unchanged, whatever capacities the runtime gives to grown slices; so they may be seen as functions on byte strings.",
  "every heap, slice, offset and capacity", "aliasing depends on capacities chosen by the runtime",
  "libcomfo/proto.go","libcomfo/message.go:leftPad32")
p("Requests are routed by method, path and media type",
  "A handler is called exactly for a POST to /twirp/comfo.api.Comfo/<method> with media type application/protobuf or application/json and a body that decodes; with protobuf the arguments are what the body says by the protobuf encoding rules (any field order, repeated and unknown fields, overlong numbers, groups). Every other request is answered with 301, 400 or 404 and the server does nothing.",
  "every path, method, ASCII header and body", "all byte strings as bodies, paths and headers",
  "routes.go","rpc/comfo/comfo.twirp.go:ServeHTTP","rpc/comfo/comfo.pb.go")
p("Arguments from the network are within their types",
  "Whatever bytes are posted, the arguments handed to the handlers are uint32 (enum: int32) values.",
  "every request", "all byte strings as bodies",
  "rpc/comfo/comfo.twirp.go","rpc/comfo/comfo.pb.go")
p("Replies are encoded faithfully",
  "A reply is sent with status 200 and a protobuf encoding of exactly its fields; an error of a handler has status 400 or 500 as its code requires; a device name that is not UTF-8 gives status 500.",
  "every reply", "all field values",
  "rpc/comfo/comfo.twirp.go","rpc/comfo/comfo.proto")
p("Requests and replies survive the network",
  "The request made by the Python stub for any call with arguments in range is dispatched as that very call, and the stub reads from the reply exactly the message the handler returned.",
  "every call and reply", "all argument and field values",
  "python/comfo/comfo_twirp.py","rpc/comfo/comfo.twirp.go","rpc/comfo/comfo.proto")
p("Getters over HTTP",
  "After any history a get request over HTTP returns the record in the cache, whatever the unit sent.",
  "every history, unit and cache", "needs units with unusual names",
  "rpc/comfo/comfo.twirp.go","comfoserver/protobuf.go","libcomfo/response_types.go")
p("The Python client over HTTP is the client on the server",
  "For every method of the Python client, going through HTTP, Twirp and protobuf has the same result and the same effect on the server as calling the handler directly (device names in UTF-8).",
  "every method, argument, history of the server", "all argument values and server states",
  "python/comfo/client.py","python/comfo/comfo_twirp.py","routes.go","rpc/comfo/comfo.twirp.go")
p("A set comfort temperature is in effect on the unit",
  "If SetComfortTemp succeeds, the comfort temperature of the unit is the requested one, after any history of requests and timer ticks.",
  "every history, temperature and state of the unit", "needs a unit with memory and arbitrary histories; half degrees and negative temperatures",
  "comfoserver/server.go:SetComfortTemp","libcomfo/api.go:SetComfort","libcomfo/message.go:temperature")
p("GetTemps shows the comfort temperature of the unit",
  "On a reliable line, after any history of requests and timer ticks, GetTemps shows the comfort temperature the unit has (half degrees cut off).",
  "every history and state of the unit", "needs a unit with memory and arbitrary histories",
  "comfoserver/server.go:GetTemps","comfoserver/caches.go:tempCache","libcomfo/response_types.go:Temps")
p("The HTTP server under concurrent requests",
  "Whatever is posted by any number of clients at a time, in every interleaving with the cache worker and the timers: no goroutine panics, no deadlock, every request gets answered, refused requests at once and the others with what the called procedures return; a getter answers with what a single fetch brought; the unit sees only complete exchanges.",
  "every set of HTTP requests, schedule and device", "all interleavings and all request bodies",
  "rpc/comfo/comfo.twirp.go","routes.go","comfoserver/server.go","comfoserver/timers.go")
p("Python clients at the same time",
  "Among any other requests, in every interleaving, the stub of each Python client is shown exactly the reply its procedure call produced on the server; a fan speed reported as set was confirmed by readings of the unit.",
  "every set of HTTP requests, schedule and device", "all interleavings and all argument values",
  "python/comfo/comfo_twirp.py","rpc/comfo/comfo.twirp.go","comfoserver/server.go")
p("Getters are linearizable reads of the latest fetch",
  "In every interleaving a getter answers with the record that the latest successful fetch of its kind had brought at some moment between the arrival of the request and the answer; a getter that begins after another one has answered never shows an older fetch; a cache nobody is writing to holds the latest fetch.",
  "every set of requests, schedule and device", "all interleavings; what SetFanProfile does between its two fetches",
  "comfoserver/caches.go","comfoserver/server.go","comfoserver/timers.go")
p("What each request does on the line among others",
  "In every interleaving the exchanges made for a request, between its arrival and its answer, are exactly determined by the request and the answer, complete, in this order, and never overlap those of other goroutines: none for getters and refused or unneeded changes, the queries of the flushed caches, write and read back for setters.",
  "every set of requests, schedule and device", "all interleavings and all replies of the device",
  "comfoserver/server.go","comfoserver/caches.go","comfoserver/timers.go","libcomfo/api.go")
p("Read your writes",
  "A getter that begins after a setter has reported a change (or after a flush has been answered) answers with data fetched after the exchange that made the change (after the flush was asked for), whatever else is going on, as long as the queries succeed.",
  "every set of requests, schedule and device", "all interleavings, with flushes and timers between the write and the reads",
  "comfoserver/server.go","comfoserver/caches.go","comfoserver/timers.go")
p("The unit behind the concurrent server",
  "With a reliable unit on the line, in every interleaving of any requests, the cache worker and the timers, the log of the connection is one conversation: requests, replies and acknowledgements alternate, every reply that is read shows the unit as it is at that moment, and the unit changes exactly when a request to set something is written and exactly as one of the RPC requests says, nothing else. Handlers fail with an internal error only for an unconfirmed fan speed or a comfort temperature above 107.",
  "every set of requests, schedule and unit", "all interleavings and all states of the unit",
  "comfoserver/server.go","comfoserver/caches.go","comfoserver/timers.go","libcomfo/api.go","libcomfo/conn.go")
p("A reported change has been made, in every interleaving",
  "If SetComfortTemp, SetFanProfile or SetFanSpeed reports a change, then at some moment between the arrival of the request and its answer the unit had exactly the value asked for.",
  "every set of requests, schedule and unit", "all interleavings; two setters at the same time",
  "comfoserver/server.go","libcomfo/api.go")
p("Getters show the unit after a change",
  "A getter of the temperatures or fan profiles that begins after a setter has reported a change shows the unit as it was at a moment not before the change was in effect; if all accepted requests ask for the same value it shows that value; after a flush it shows the unit at a moment after the flush was requested.",
  "every set of requests, schedule and unit", "all interleavings with timers and flushes between write and read",
  "comfoserver/server.go","comfoserver/caches.go","comfoserver/timers.go")
p("What getters show is a state the unit had, in order",
  "Every answer of GetTemps and GetFanProfiles is the empty record or shows the unit as it was at one moment; a getter that begins after another has answered shows the unit at the same moment or later; once start-up is complete no getter shows the empty record unless a query failed.",
  "every set of requests, schedule and unit", "all interleavings",
  "comfoserver/server.go","comfoserver/caches.go","comfoserver/timers.go","comfo.go")
p("The Go client calls the method it names",
  "A call of the Go protobuf client, with a base URL that has a host and at most a scheme, is a request that the server takes for this method with these arguments; the reply is returned as given and errors arrive with the code the handler chose; after any history of the server a call does and returns what the handler does and returns.",
  "every request, base URL and history", "all arguments and replies; encoder, router, decoder and error mapping together",
  "rpc/comfo/comfo.twirp.go","routes.go","comfoserver/server.go")
p("Every base URL that names the server works with the Go client",
  "A call with a base URL that names the server's host and port reaches the method, also if the URL ends in a slash or lacks the scheme (sanitizeBaseURL).",
  "every host, port and path", "all base URLs", "rpc/comfo/comfo.twirp.go","routes.go")
p("The Go client's path prefix",
  "With the option for another path prefix every call asks for a path with this prefix; the server, which mounts only the default prefix, refuses all of them without touching anything, unless the prefix means the default one.",
  "every prefix and request", "all prefixes", "rpc/comfo/comfo.twirp.go","routes.go")
p("How the Go client reads any response",
  "Whatever a server or an intermediary answers, the Go client returns a decoded reply only for status 200 with a body that decodes, and otherwise an error: the code of a well-formed Twirp error, or the code that belongs to the HTTP status, redirects being internal errors.",
  "every response", "all status codes, headers and bodies", "rpc/comfo/comfo.twirp.go")
p("Where the settings come from",
  "Mode, target and listen address each come from the last flag that sets them, else from COMFO_MODE, COMFO_TARGET, COMFO_LISTEN if not empty, else from the default; the program connects and listens accordingly; a command line with an unknown flag, a missing value or a bad boolean does nothing at all.",
  "every command line and environment", "all command lines", "config.go","comfo.go")
p("Nothing is served without a unit",
  "The API is served only after a connection to the unit over TCP or a serial line at 9600 baud was opened and the caches were started.",
  "every command line, environment and outcome of connecting", "all command lines", "comfo.go","config.go")
p("Which JSON bodies are requests",
  "A POST with a JSON media type to a method calls it with arguments q exactly if the body begins (after white space) with a JSON object, nested at most 10000 deep, whose strings are all text and in which each field occurs at most once and has, in one of its written forms, the value in q; absent and null fields are zero. The body determines the object. All other bodies are refused as malformed without any call.",
  "every body, header and method", "all bodies: escapes, exponents, nesting, duplicates", "rpc/comfo/comfo.twirp.go","rpc/comfo/comfo.proto")
p("JSON arguments fit their types",
  "Arguments of a call that came as JSON are within uint32, bool and the 32-bit enum, and the method called is the one addressed.",
  "every JSON request", "all numbers, also with exponents and fractions", "rpc/comfo/comfo.twirp.go","rpc/comfo/comfo.proto")
p("Order and unknown members of JSON requests do not matter",
  "Two JSON requests for a method whose objects differ only in the order of the members, or in members whose names are not fields of the argument, make the same call or are both refused.",
  "every pair of bodies", "all orders and all unknown members", "rpc/comfo/comfo.twirp.go")
p("JSON requests are read strictly",
  "A JSON body is accepted only if it is one object and nothing else, a number given as a string is alone in the string, and the name of a cache is one of those declared.",
  "every JSON request", "all bodies", "rpc/comfo/comfo.twirp.go","comfoserver/server.go","rpc/comfo/comfo.proto")
p("What a JSON reply says",
  "The body of a successful response to a JSON request is exactly one JSON object whose members are the fields of the reply of this method, in order, by their declared names, zeros included, each with the value that the handler returned (numbers, booleans, properly escaped text, temperatures). It cannot be written exactly in the cases in which the protobuf reply cannot be written.",
  "every reply, every history of requests", "all texts (escapes), all values", "rpc/comfo/comfo.twirp.go","rpc/comfo/comfo.proto","comfoserver/protobuf.go")
p("The Go JSON client and the server",
  "A call of the Go JSON client is one JSON request that calls this method with these arguments; the client returns the reply that the handler returned, or its error code; after any history it makes no difference whether the JSON or the protobuf client makes a call.",
  "every call, argument, base URL, reply and history", "all arguments, replies and texts", "rpc/comfo/comfo.twirp.go","comfoserver/server.go","rpc/comfo/comfo.proto")
p("Go clients under concurrent HTTP requests",
  "Any number of Go clients, JSON and protobuf, may call the server at the same time, among any other requests: in every interleaving the server does what it would do if the procedures were called directly by as many goroutines, and each client returns the reply, or the error code, that its call was given.",
  "every schedule, every list of requests, every device", "all interleavings", "rpc/comfo/comfo.twirp.go","comfoserver/server.go","routes.go","comfoserver/caches.go")
p("ReqTime says how long the request took",
  "The ReqTime of a reply is text that, read as a sequence of decimal numbers with units, says exactly the measured duration and no other, for every duration; it always fits in a message and arrives unchanged in the reply.",
  "every duration of 64 bits", "all durations: fractions, trailing zeros, units", "comfoserver/server.go","rpc/comfo/comfo.proto")
p("Which responses are errors of the server",
  "The Go client takes a response for an error of a Twirp server with code c exactly if its status is not 200 and no redirect and the first value in its body is a JSON object that says this error: members only code, msg and meta (in any case), strings or null, the last one of each counting, the code not empty. Codes that Twirp does not have become internal; all other responses are understood by their status alone.",
  "every status and every body", "all bodies: escapes, duplicates, unknown members, nesting", "rpc/comfo/comfo.twirp.go")
p("Errors arrive as sent",
  "The JSON of an error is one object with code, msg (cut after a million bytes) and meta, in which what is not UTF-8 is replaced by U+FFFD; metadata is listed by the bytes of its keys, so that an error has one text; the client reads from it the same code, message and metadata. Whatever the message and the metadata are, the client returns the code that the server gave.",
  "every code, message and metadata, also with bytes that are not text", "all texts (escapes, invalid UTF-8)", "rpc/comfo/comfo.twirp.go","comfoserver/server.go")
p("Messages are unambiguous",
  "Bytes are the protobuf encoding of at most one list of fields, so a body has one meaning; two messages one after the other in a body are read as one message with the fields of both.",
  "every body, with unknown fields and groups", "all encodings, all nestings", "rpc/comfo/comfo.pb.go","rpc/comfo/comfo.twirp.go")
p("Go and Python are generated from the same file",
  "The descriptor in the Go code and the one in the Python code both describe exactly the messages, fields (number, name, type, name in JSON), enum values and methods of comfo.proto, and a descriptor describes at most one such file; so client and server cannot differ in the meaning of a field.",
  "every field of every message and every method in both descriptors; every descriptor for the uniqueness", "tests exercise some fields of some messages; uniqueness is over all byte strings",
  "rpc/comfo/comfo.proto","rpc/comfo/comfo.pb.go","python/comfo/comfo_pb2.py")
p("Generated code follows comfo.proto",
  "Every method of comfo.proto is routed by the server with the argument type of the file and answered with the reply type of the file, under its name, in both encodings, by both Go clients and by the Python stub and server, and nothing else is; the tags of the Go structs, the types and dependencies handed to the protobuf runtime and the names of the caches are those of the file.",
  "every method, message, field and enum value", "tests call some of the methods in one encoding",
  "rpc/comfo/comfo.proto","rpc/comfo/comfo.pb.go","rpc/comfo/comfo.twirp.go","python/comfo/comfo_twirp.py")
p("Interruptions within ReadPacket and Write change nothing",
  "If goroutines can be interrupted within ReadPacket and Write, at every read, scan and return, then every reachable state (answers, caches, clock, locks and, when no call is in progress, the connection with its log) is reached by some of the same steps when these calls are indivisible, and the other way round; at most one goroutine is ever within them and it holds the packet lock; no execution gets stuck or runs for ever without time passing, and every request can be answered from every state.",
  "any number of requests, every unit, every schedule of small steps, every prefix", "schedulers rarely interrupt within a call; tests cannot enumerate the interruptions",
  "libcomfo/conn.go","libcomfo/api.go","libcomfo/message.go","comfoserver/timers.go")
p("A rejected request names the argument at fault",
  "The Go client gets the code invalid_argument with the name of an argument, in the message and under the key argument, if and only if that argument of the request is at fault (comfort temperature above 255; Abs and Rel both given; speed not 1-4; mode not 1-4; target not 15-100 with the mode being fine); the server has then done nothing.",
  "every request but FlushCache, every state of the caches, every unit", "all arguments and cached modes", "comfoserver/server.go","comfoserver/helpers.go","comfoserver/errors.go","rpc/comfo/comfo.twirp.go")
p("A rejected speed is quoted in the message",
  "When SetFanSpeed rejects a speed, the message that reaches the Go client contains, in decimal, the speed that was asked for. (False for speeds that do not fit a byte: Abs=261 is reported as '5', one step down from cached mode 0 as '255'.)",
  "every speed and cached mode", "all 32-bit values of Abs, all cached modes", "comfoserver/helpers.go","comfoserver/server.go")
p("Errors of the library reach the client with their text",
  "When an operation fails with an error of the library or of the server, the Go client gets code internal and exactly the text of that error, so it can tell any two of them apart; errors of the connection arrive with their text, in which only what is not UTF-8 is replaced. SetFanProfile, and no other method, adds the type of the error.",
  "every error, every method", "all errors", "libcomfo/errors.go","comfoserver/errors.go","comfoserver/server.go","rpc/comfo/comfo.twirp.go")
p("A request that finds no handler is told why",
  "If the server answers a request with a Twirp error before calling a handler, the message states a reason that is true of this request (method other than POST, no such path, a prefix other than /twirp, a content type other than the two, a body that cannot be decoded), quotes the offending part, has method and path in the metadata, and reaches the Go client unchanged unless it is longer than a million bytes.",
  "every request", "all methods, paths and content types, also with bytes that are not text", "rpc/comfo/comfo.twirp.go","routes.go")
p("Quoted text can be read back",
  "What is quoted in a message is a Go string literal for exactly the bytes that were quoted, and a literal stands for one string only, so nothing in a path or header can forge the rest of the message.",
  "every byte string", "all strings (control characters, invalid UTF-8, quotes)", "rpc/comfo/comfo.twirp.go")
p("What the client says about responses of others",
  "For every response with another status than 200 the Go client returns an error: the server's, if the body says one; otherwise one with the code for the status, a message with the status, its phrase and the location of a redirect, and metadata with the status and the body or the location.",
  "every status and every body", "all bodies and statuses", "rpc/comfo/comfo.twirp.go")
p("A request that breaks off causes no other call",
  "If the body of a request breaks off (the connection fails, or the client gives up), the server either executes the very call that the whole request would have caused, or executes nothing and answers with the error it gives for the path and headers, or with an error that says that the request could not be read: canceled or deadline_exceeded if the request's context is done, otherwise malformed.",
  "every request, cut anywhere; every continuation", "all requests and all points where they can break off", "rpc/comfo/comfo.twirp.go")
p("A request that breaks off has no effect",
  "A request of which only a part arrives is not executed. (False for JSON: the decoder stops at the closing brace, so that a request of which only later bytes are missing is executed.)",
  "every request, cut anywhere", "all requests and all points where they can break off", "rpc/comfo/comfo.twirp.go")
p("What a Go client call returns when something fails",
  "A call returns a reply if and only if its request was sent, a response of status 200 came back whose body is this reply, and the context was never done; the protobuf client also demands that the body be complete, the JSON client that it can be closed. Otherwise it returns an error of code internal that says at which step it failed and why, or the error that the response is. What was sent, if anything, is the request of this call.",
  "every call, every answer or failure of the connection, the context being done at any of the checks", "failures at every step of a call", "rpc/comfo/comfo.twirp.go")
p("A response that breaks off is never mistaken",
  "The protobuf client never returns a reply from a response that breaks off. If the JSON client returns a reply from a response that breaks off, it is the one it would have returned for the whole response, whatever the rest is.",
  "every response, cut anywhere", "all points where a response can break off, all continuations", "rpc/comfo/comfo.twirp.go")
p("The log can be read back",
  "The output of the logger is a sequence of lines, one for each record that is shown at the configured level, each saying the record's time, level, message and attributes in order. It can be read in one way only; a line ends at its first newline, so no method, URI, error text or setting can forge a line or an attribute.",
  "every sequence of records with any byte strings as messages and values", "all strings: newlines, quotes, equals signs, invalid UTF-8", "logger.go","comfo.go","comfoserver/caches.go")
p("A refresh that fails is reported once, with its cause",
  "Whatever the server does (RPC, timer, flush, start-up), it logs exactly one error record for each refresh of a cache that failed, in order, naming the cache and the cause: the error of the exchange, or a payload of the wrong length, or a zero counter. After such a record the caches are as before; a refresh without a record either was not due, or succeeded and stamped the cache. The traffic with the unit determines the records.",
  "every state, every device behaviour", "every way an exchange can fail, for each cache and operation", "comfoserver/caches.go","comfoserver/timers.go","comfoserver/server.go","libcomfo/errors.go")
p("Every API request is recorded once, in debug mode",
  "The logger does not change any response. A request for a path of the API is recorded exactly once, after it was answered, with its method, URI and the time it took, which is never negative; other requests are not recorded. The record is in the output if and only if debug logging is on.",
  "every request in every state", "all requests and timings", "logger.go","routes.go","comfo.go")
p("The log tells how the program started",
  "From the log one can tell exactly what the program did at its start: which address it dialled or device it opened, whether it populated the caches, on which address it listened. If it gave up, the last record says why (unsupported mode, the connection's error, the listener's error), and there is no other error record except for failed refreshes. Debug records appear if and only if the setting debug is a word for true.",
  "every command line, environment and outcome of connecting and listening", "all combinations of flags, variables and failures", "comfo.go","config.go","comfoserver/timers.go")
p("The compressed descriptor is that of the API",
  "What ServiceDescriptor returns can be decompressed by anyone who follows RFC 1951 and 1952, check sum and size included, to exactly one content: the descriptor of comfo.proto that is registered in Go; the index that is returned is that of the service Comfo.",
  "every reading of the bytes; uniqueness for every gzip file", "that no other reading of the file exists, for any of the bytes", "rpc/comfo/comfo.twirp.go","rpc/comfo/comfo.pb.go","rpc/comfo/comfo.proto")
p("The text of a packet identifies it",
  "Packet.String says the command in hexadecimal, every byte of the payload in decimal and whether a reply is expected; packets with the same text are the same.",
  "every command and payload", "256 commands, payloads of any length", "libcomfo/proto.go")
p("Nobody waits for the unit without end",
  "Whatever the unit and the other goroutines do, a request waits for the unit and the clock at most: getters and FlushCache not at all, SetComfortTemp 2 s, SetFanProfile 3 s, SetFanSpeed 16.5 s; the last is attained. The worker waits at most 6 s at the start, 2 s per tick, and 1 s (one cache) or 6 s (all) per flush; so all waiting together is bounded by the requests and ticks there are.",
  "every execution with any requests, device and interleaving", "all interleavings and all behaviours of the unit", "comfoserver/server.go","comfoserver/caches.go","comfoserver/timers.go","libcomfo/conn.go","libcomfo/api.go")
p("The write timeout leaves room for the waiting",
  "What a request waits for the unit is less than the write timeout of the HTTP server, so that its reply can still be sent. (False for SetFanSpeed, which may wait 16.5 s and then report success, and for FlushCache of all caches, for which the worker may wait 6 s; the timeout is 5 s.)",
  "every request in every execution", "all interleavings and all behaviours of the unit", "comfo.go","comfoserver/server.go","comfoserver/caches.go")
p("After the connection is lost the caches stay as they were",
  "Once no byte arrives from the unit any more (the stream has ended, reads fail or time out), whatever requests, ticks and flushes come, in any interleaving: no cache changes, getters go on answering with what is cached and without an error, no fan profile is reported as changed, and nothing that the server reads is more than an error or the empty packet.",
  "every execution from a server at rest, every way of a device to send nothing", "unboundedly many requests and ticks in all interleavings, all mixtures of errors, ends of stream and timeouts", "libcomfo/conn.go","libcomfo/api.go","comfoserver/server.go","comfoserver/caches.go","comfoserver/timers.go")
p("No change is reported after the connection is lost",
  "Once no byte arrives from the unit any more, no reply says that a temperature, speed or profile was changed. (False when the unit has closed the connection but writes still succeed: ScanTimeout ignores that Scan returned false, and the end of the stream passes as an acknowledgement, so that SetComfortTemp reports a change. True if queries time out, or if writes fail.)",
  "every request in every execution", "all interleavings, all mixtures of errors, ends of stream and timeouts", "libcomfo/conn.go","libcomfo/api.go","comfoserver/server.go")
p("Speed changes that meet are taken one after another",
  "After the start, whatever other requests, ticks and flushes run at the same time: if no request for a speed ends with a failed poll, the requests for a speed behave as if each began when the one before had ended, in the order in which they began. Each is judged against the speed the unit really has then (1 to 4 can be asked for), is told that speed and the new one, and the unit ends at the speed to which the last one leads.",
  "every execution with a healthy unit, every number and mixture of requests", "unboundedly many requests in all interleavings, also with a refresh that has read the old speed and not stored it yet", "comfoserver/server.go","comfoserver/caches.go","comfoserver/helpers.go","libcomfo/api.go")
p("No step is lost",
  "If k requests for one speed step up are handled, the unit runs k steps faster than before, at most at speed 4; steps down likewise, at least at 1. (False if polling fails: the speed is then set but the cache is not refreshed, so the next step is taken from the old speed and sets the same speed again.)",
  "every execution with a healthy unit, every number of requests", "unboundedly many requests in all interleavings", "comfoserver/server.go","comfoserver/helpers.go","comfoserver/caches.go")
p("Profile changes that meet are taken one after another",
  "After the start, whatever other requests, ticks and flushes run at the same time: of the accepted SetFanProfile requests for one profile that have begun, all but at most one are answered; each was told the percentage that the unit really had and that the one before it had set, says whether it changed it, and the unit is at the percentage of the last one. Requests for other profiles and for speeds do not interfere.",
  "every execution with a healthy unit, every number and mixture of requests, each of the four profiles", "unboundedly many requests in all interleavings, also with a refresh that has read the old percentages and not stored them yet", "comfoserver/server.go","comfoserver/caches.go","libcomfo/api.go")
p("Temperature changes that meet leave the last one in force, and each is told what it replaced",
  "After the start, whatever other requests, ticks and flushes run at the same time: the SetComfortTemp requests that are told of a change set the unit in some order, each once, which is never revised; the unit is at the temperature of the last one; everybody is told a temperature that the unit has had since the start, those of a change one from before theirs; and each is told the temperature it replaced. (The last is false: the handler looks in the cache before it waits for its turn, so a request can be told a temperature that others have replaced meanwhile; and while a refresh is under way, a request for the old temperature is told that there is nothing to change.)",
  "every execution with a healthy unit, every number and mixture of requests", "unboundedly many requests in all interleavings, also with a refresh that has read the old temperature and not stored it yet", "comfoserver/server.go","comfoserver/caches.go","libcomfo/api.go")
p("Every failed refresh is reported by the goroutine that made it, whatever else goes on",
  "In every interleaving of requests, ticks and flushes the traffic with the unit consists of whole exchanges, each made by one goroutine. The error records of a request are the reports of those of its own refreshes that failed, in order, each with its cause; the records of the cache worker those of its own, after the two of the start. None is missing, and no goroutine reports another's failure.",
  "every execution, every behaviour of the unit, every number and mixture of requests", "unboundedly many requests in all interleavings, all mixtures of failures", "comfoserver/caches.go","comfoserver/server.go","comfoserver/timers.go","libcomfo/api.go")
p("Of requests for the same thing only one is told of a change",
  "If several requests ask for the same percentage of one profile, the same speed or the same comfort temperature, and no others interfere, at most one is told that it changed something, whatever else goes on; for profiles, and for speeds if no poll fails, it is the one that began first. (False for comfort temperatures: two requests for 22 degrees that meet can both be told that they changed 21 to 22, since the handler compares with the cache before it waits for its turn.)",
  "every execution with a healthy unit, every number of requests", "unboundedly many requests in all interleavings", "comfoserver/server.go","comfoserver/caches.go")
p("Speed changes that meet while polls fail are still taken one after another",
  "After the start, whatever other requests, ticks and flushes run at the same time, and whether polls succeed or not: the requests for a speed are taken in the order in which they began, all but at most the last are answered, and each is handled by what the profile cache shows then. A request that succeeds leaves cache and unit at its speed; one whose poll fails leaves the unit at its speed and the cache as it was or at the speed that the unit had; only refreshes correct the cache in between. If the last one is told of a change or of a failed poll, the unit runs at the speed it asked for.",
  "every execution with a healthy unit, every number and mixture of requests", "unboundedly many requests in all interleavings, failing and succeeding polls in any order, also with a refresh that has read the old speed and not stored it yet", "comfoserver/server.go","comfoserver/caches.go","comfoserver/helpers.go","libcomfo/api.go")
p("What a query makes of anything it hears",
  "Where no earlier reader is left, the result of a query is determined by the bytes that arrive until Read fails or nothing more comes in time, and by which of the two happens, however the bytes are divided: a data query succeeds exactly if they begin with two control sequences, a packet with the right command, length and checksum, and a third control sequence; something is set successfully exactly if they begin with a control sequence, or if Read fails before any has come (the code takes the end of the stream for an acknowledgement). Otherwise the error is the one of the case: stray bytes, timeout, too short, bad packet, wrong reply.",
  "every sequence of reads, errors and pauses of up to 4096 bytes and 100 empty reads, every request", "all byte strings in all divisions, all errors at all points", "libcomfo/conn.go","libcomfo/message.go","libcomfo/api.go")
p("What a Python client is told holds of the unit",
  "With any number of Python clients and other HTTP requests at the same time: if a set method returns True, then at a moment between the arrival of its request and the reply the unit had the speed, temperature or percentages asked for (for a step: a speed from 1 to 4). A set method raises only if the fans were not seen to follow a new speed, or for a temperature above 107. After the start get_temps and get_fan_profiles return an object that shows the unit as it was at one moment; after a True every client sees the value set, if nobody asks for another.",
  "every execution with a healthy unit, every number and mixture of HTTP requests, well-formed or not", "unboundedly many clients in all interleavings, through the HTTP front end, caches and line", "python/comfo/client.py","rpc/comfo/comfo.twirp.go","comfoserver/server.go","comfoserver/caches.go","libcomfo/api.go")
p("Server hooks and interceptors",
  "Whatever hooks, interceptor and service a comfo server is built with, every HTTP request is answered exactly once, followed by exactly one ResponseSent; the Error hook sees exactly the errors that are written (and failing writes), with their status in the context, and a panic of the service is answered with an internal error and raised again. The service is called only if RequestReceived and RequestRouted let the request through and it decodes, and whatever an interceptor does only the method addressed; without one exactly once, and with one in the order in which it passes requests on, each as passed on; a message of another method gives it an error without a call, and what it returns is what is written. What a hook refuses is answered with its error. Replies have the type of the method. Inert hooks and an interceptor that only passes on change nothing; without them it is the server of the other properties.",
  "every hooks record, interceptor (any program), service, context and request", "hooks, interceptors and services are arbitrary functions and programs", "rpc/comfo/comfo.twirp.go","rpc/comfo/comfo.proto","routes.go")
p("Hooks and interceptors of the Go clients",
  "Whatever hooks and interceptor a Go client (protobuf or JSON) is built with: per request RequestPrepared is called at most once and before it is sent, then exactly one of ResponseReceived (if a reply is returned) and Error (with the error returned, or an internal one naming it if it is none of Twirp's); with an interceptor the hooks see such errands one after the other, in the contexts and with the messages it passes on. RequestPrepared is given the request drawn up for the call, what it hands back is sent, and its context is the later hooks'. What RequestPrepared refuses is not sent and its error is returned. If hooks leave requests alone, then whatever an interceptor does only the method called is asked for, and a reply has its type. With inert hooks it is the client of the other properties. (A Twirp error wrapped in another shows its code to a server's Error hook, but not to a client's.)",
  "every hooks record, interceptor, context, request, and behaviour of the network at each attempt", "hooks and interceptors are arbitrary functions and programs; retries without bound", "rpc/comfo/comfo.twirp.go")
p("What clients of any kind are told holds of the unit",
  "With any number of Go clients (protobuf and JSON), Python clients and other HTTP requests at the same time: if a reply reports a change, then at a moment between the arrival of the request and the reply the unit was as asked. An error is invalid_argument, for bad arguments or a step, and bad arguments always get it; or internal, for a speed, a comfort temperature above 107, or the boot information (whose name may be no text). After the start the temperatures and profiles returned are those of the unit at one moment; after a flush, of a moment since it was asked for; and after a change reported to one client every other client of any kind sees it, if nobody asks for something else.",
  "every execution with a healthy unit, every number and mixture of clients and other HTTP requests", "unboundedly many clients of three kinds in all interleavings, through encoders, front end, caches and line", "rpc/comfo/comfo.twirp.go","python/comfo/client.py","comfoserver/server.go","comfoserver/caches.go","libcomfo/api.go")
p("Base URLs with which a Go client can send nothing",
  "If the base URL contains a control character, begins with a colon, has a scheme other than http and https, or a port that is no number, then every call of either Go client, with any path prefix, fails with an internal error, no request is made, and the server is left alone. Whatever base URL and prefix, what is sent is a POST by http or https to a host, with the content type of the client.",
  "every such base URL, prefix, request and state of the server", "all strings", "rpc/comfo/comfo.twirp.go")
p("A Go client and a server with the same path prefix find each other",
  "If a Go client (protobuf or JSON) and a server are built with the same path prefix, the server calls its service with every request of the client that its hooks let through. (False: the client joins and cleans its prefix, the server compares with its own as it stands, so with \"api\" or \"/api/\" at both ends, although the request goes to the path that PathPrefix of the server announces, it is answered 404 with bad_route. Exactly the server whose prefix is written with a slash before each element and none at the end is reached, by every form of the client's.)",
  "every prefix of any number of elements, base URL, request, hooks and service", "all strings as prefixes at both ends, all requests, arbitrary hooks", "rpc/comfo/comfo.twirp.go")
p("The JSON options of a server do not matter to clients",
  "A server may be built to leave fields that are zero out of its JSON replies, or to use the JSON names of fields. Then the object has exactly the members of the reply that are not zero, false or empty (a negative zero stays), in order, under the same names, since no name in comfo.proto has an underscore; it can be written exactly if the protobuf reply can; and the Go JSON client reads from it the reply that the service gave, so that after any history a call does and returns the same whatever the options.",
  "both options, every reply of every method, every history", "all replies with all combinations of zero fields, all histories", "rpc/comfo/comfo.twirp.go","rpc/comfo/comfo.proto","rpc/comfo/comfo.pb.go")
p("Request headers that a caller of a Go client adds",
  "A request of a Go client has Accept, Content-Type and Twirp-Version of the client and, under all other keys, the headers that the caller put into the context, and so the server finds them. Nothing that hooks or an HTTP client do with the headers of a request (set, append, delete, overwrite an element, share or reslice) changes those in the context, so that the next request has the same; and nothing done with the context's changes a request already made. (The server need not find the client's content type: with CONTENT-TYPE in the context, which is another key, the line of the caller comes first.)",
  "every heap, header map, content type, key and sequence of changes", "all aliasing of maps and arrays, all sequences of changes", "rpc/comfo/comfo.twirp.go")
p("A request during which something panics is answered",
  "When something panics while a Twirp server of this API handles a request, the client is answered with an internal error (status 500), which is flushed, and the panic goes on up; whatever was done before stays as it would be without the panic, and nothing is done after it. (False of panics in server hooks, which leave the client without an answer even if the service has done its work, and of errors whose code Twirp does not know.)",
  "all hooks, interceptors, services and requests",
  "Where hooks, interceptors and services panic, and with which contexts, is unbounded; so are the combinations.",
  "rpc/comfo/comfo.twirp.go")

p("The unit file of systemd chooses the device",
  "Started by systemd/comfo.service, the program opens the serial device that the variable COMFO_USB_DEVICE names in it. (False: the variable is not looked at; only COMFO_DEBUG, COMFO_MODE, COMFO_TARGET and COMFO_LISTEN have a meaning.)",
  "all environments, devices and command lines",
  "the environment can hold any variables with any contents",
  "systemd/comfo.service", "comfo.go:main", "config.go")
p("How the program ends",
  "The program ends with status 2 if its command line is bad; with status 1 if the mode is unknown, the unit cannot be reached or the address cannot be listened on, and then the last record of the log is an error with the cause; and otherwise it goes on. It never ends with status 0.",
  "all command lines, environments and failures",
  "command lines, environments and failures are unbounded; os.Exit cannot be observed inside a test",
  "comfo.go:main", "comfo.go:ConnectUnit", "config.go")

p("A hook of a Go client that panics",
  "When a hook of a Go client panics the call panics, and up to then all went as it would with a hook that does not; nothing is done after it. A request has been sent if it is ResponseReceived, none if it is RequestPrepared. An interceptor that recovers can ask again, and its requests are made one after the other, each up to its panic.",
  "all hooks, interceptors, requests and HTTP clients",
  "where hooks panic, and how interceptors go on after it, is unbounded",
  "rpc/comfo/comfo.twirp.go")

p("Errors and replies from a server with hooks at a Go client with hooks",
  "Whichever hook, interceptor or service of a server an error comes from, a Go client's call returns it with its code, its message (UTF-8, up to a million bytes) and its metadata, and the client's Error hook is told the same, last of all. What RequestReceived says when it refuses is one case. A reply is returned as the service gave it, and ResponseReceived is called last.",
  "all servers, hooks, interceptors, services, clients, contexts, requests, errors and replies",
  "hooks and interceptors are arbitrary functions, errors and their metadata are unbounded",
  "rpc/comfo/comfo.twirp.go")

with open("/verif/properties.jsonl","w") as f:
    for x in P: f.write(json.dumps(x)+"\n")
print(len(P))
