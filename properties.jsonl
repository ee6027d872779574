{"id": "C01", "title": "Reading a header flag returns exactly its bit field", "statement": "For every flag table entry that fits in 32 bits, reading the flag from a header returns the len bits that start msb bits from the most significant end, and nothing else of the header influences the result.", "quantifier": "every 32-bit header, every flag table, every field with len+msb<=32", "why_tests_cant": "2^32 headers times all tables; a test samples a handful of headers", "anchors": ["sarflags/sarflags.go: Get, Flagtype", "saratoga/saratoga.json"]}
{"id": "C02", "title": "Setting a header flag writes exactly its bit field", "statement": "Setting a flag to a named option makes that flag read back as that option, leaves every bit outside the field unchanged (so every non-overlapping flag keeps its value), stays within 32 bits, and is idempotent; an unknown flag or option name terminates the process instead of producing a header.", "quantifier": "every 32-bit header, every well-formed flag table, every flag and option name (known or not)", "why_tests_cant": "quantifies over all headers and all option names, including names not in the table", "anchors": ["sarflags/sarflags.go: Set, SetFlags, Good, Test"]}
{"id": "C03", "title": "Building a header does not depend on the order in which flags are set", "statement": "For flags of one frame type, setting a collection of distinct flags on a header gives the same header whatever order they are set in, even though Go iterates over the map in random order.", "quantifier": "every permutation of every set of flag settings of every frame type, every starting header", "why_tests_cant": "map iteration order is random per run; a test sees one order", "anchors": ["sarflags/sarflags.go: SetFlags", "saratoga/saratoga.json: frameflags, flags"]}
{"id": "C04", "title": "Flag names are read back deterministically", "statement": "Translating a header field to its option name gives the same answer for every map iteration order, gives back the name that was set, and terminates the process exactly when the value of the field has no name in the table.", "quantifier": "every header, every permutation of the option map", "why_tests_cant": "random map iteration order and all 2^32 headers", "anchors": ["sarflags/sarflags.go: GetStr, Name"]}
{"id": "C05", "title": "Directory-entry and timestamp flags obey the same laws", "statement": "The 16-bit directory entry flags and the 8-bit timestamp type read and write exactly their own bits, with the same round trip, frame and termination laws as header flags.", "quantifier": "every 16-bit directory header, every 8-bit timestamp header, every name", "why_tests_cant": "exhaustive over headers and names", "anchors": ["sarflags/sarflags.go: GetD, SetD, GetDStr, GetT, SetT, GetTStr"]}
{"id": "C06", "title": "The shipped configuration loads, whatever the map order, and is internally consistent", "statement": "Reading saratoga.json succeeds and yields the same flag tables for every order in which the JSON object is iterated; every option fits its field, no two options of a field share a value, fields of one frame type do not overlap, and each default flag value is valid.", "quantifier": "every iteration order of the top-level JSON object", "why_tests_cant": "Go randomises map iteration on each run", "anchors": ["sarflags/sarflags.go: ReadConfig, Valid", "saratoga/saratoga.json"]}
{"id": "C07", "title": "Configuration with an invalid default flag is rejected", "statement": "If any default global flag names an unknown flag or option, loading the configuration returns an error; if all are valid it does not return that error.", "quantifier": "every flag table and every set of default flags", "why_tests_cant": "unbounded set of configurations", "anchors": ["sarflags/sarflags.go: ReadConfig, Valid"]}
{"id": "C08", "title": "Flag-list strings behave as a map", "statement": "Replacing a flag in a flag-list string makes a later lookup return the new value and leaves the value of every other flag in the list unchanged; adding a flag to a list that does not contain it does the same; invalid names terminate the process.", "quantifier": "every well-formed flag list, every valid flag and option", "why_tests_cant": "unbounded strings", "anchors": ["sarflags/sarflags.go: ReplaceFlag, AddFlag, FlagValue"]}
{"id": "C09", "title": "Global defaults are projected onto a frame type exactly", "statement": "The flag string built from the global defaults for a frame type contains exactly the globally set flags that apply to that frame type, each once, in the frame type's field order, and does not depend on map iteration order.", "quantifier": "every set of global flags, every frame type, every iteration order", "why_tests_cant": "random map order, unbounded set of global settings", "anchors": ["sarflags/sarflags.go: Setglobal, Values"]}
{"id": "C10", "title": "Copying the CLI flags is not a faithful copy (defect)", "statement": "The copy of the current CLI settings taken for a new transfer equals the original except that the IPv6 multicast group is replaced by the IPv4 group and the beacon count is reset to zero; it therefore differs from the original whenever the two groups differ or the beacon count is not zero; an empty set of flags is refused.", "quantifier": "every CLI settings record", "why_tests_cant": "must hold for all settings", "anchors": ["sarflags/sarflags.go: CopyCliflags"]}
{"id": "C11", "title": "Timestamps survive the wire", "statement": "For the five numeric timestamp types, encoding a timestamp and decoding the 16 bytes returns the same type, seconds and nanoseconds.", "quantifier": "every timestamp value built successfully from any point in time", "why_tests_cant": "all times, all types", "anchors": ["timestamp/timestamp.go: New, Put, Get"]}
{"id": "C12", "title": "Out-of-range times are rejected, in-range times are stored exactly", "statement": "Building a timestamp stores the seconds (and nanoseconds) of the given time relative to the type's epoch when they fit, and returns an error when the seconds do not fit the 32-bit types.", "quantifier": "every time instant and every timestamp type name", "why_tests_cant": "all instants including pre-1970, post-2038, post-2106", "anchors": ["timestamp/timestamp.go: New, Now"]}
{"id": "C13", "title": "Local-interpretation timestamps can be sent but never read (defect)", "statement": "A timestamp of type localinterp is built, keeping whatever time the receiver held, and encodes without error, but decoding those bytes always returns an error.", "quantifier": "every local timestamp", "why_tests_cant": "universal negative", "anchors": ["timestamp/timestamp.go: Put, Get"]}
{"id": "C14", "title": "Decoding a timestamp either succeeds, reports an error or kills the process, exactly by its type byte", "statement": "Decoding 16 bytes succeeds exactly when the type byte is 1..5, returns an error exactly when it is 0, and terminates the process exactly when it is 6 or more.", "quantifier": "every 16-byte string", "why_tests_cant": "2^128 inputs", "anchors": ["timestamp/timestamp.go: Get", "sarflags/sarflags.go: GetTStr"]}
{"id": "C15", "title": "Pre-1970 sub-second times corrupt posix32_32 timestamps (defect)", "statement": "For a time in the last second before 1970, building a posix32_32 timestamp succeeds although the nanoseconds stored are not below 10^9 and what is decoded after sending differs from what was stored; the posix64_32 type reports an error for the same instant.", "quantifier": "every instant strictly between one second before the epoch and the epoch", "why_tests_cant": "all instants of the interval", "anchors": ["timestamp/timestamp.go: New"]}
{"id": "C16", "title": "The record of received ranges covers exactly what was received", "statement": "After any sequence of received ranges, a byte position is recorded as received if and only if one of the non-empty ranges contained it.", "quantifier": "every finite sequence of ranges, in any order, overlapping, duplicated or empty", "why_tests_cant": "unbounded histories", "anchors": ["holes/holes.go: Add, optimise"]}
{"id": "C17", "title": "The record of received ranges is canonical", "statement": "After any sequence of received ranges the record is sorted, its ranges are non-empty, disjoint and separated by at least one missing byte, so it is the unique minimal list for the set of bytes received.", "quantifier": "every finite sequence of ranges", "why_tests_cant": "unbounded histories", "anchors": ["holes/holes.go: Add, optimise"]}
{"id": "C18", "title": "Arrival order, duplication and sort instability do not matter", "statement": "Two histories that received the same set of bytes have equal records: any reordering of the ranges, any duplication, and any tie-breaking of the unstable sort give the same record.", "quantifier": "every pair of histories, every permutation, every result sort.Slice may return", "why_tests_cant": "sort.Slice is not stable, and all permutations of an unbounded history cannot be tested", "anchors": ["holes/holes.go: Add"]}
{"id": "C19", "title": "The reported holes are exactly the missing bytes", "statement": "A position is inside a reported hole if and only if it is non-negative, below the end of the last received range, and was not received; the holes are non-empty, sorted, disjoint, and there is none beyond the last received byte.", "quantifier": "every history of received ranges with non-negative starts", "why_tests_cant": "unbounded histories", "anchors": ["holes/holes.go: Getholes, Lenholes"]}
{"id": "C20", "title": "A transfer is complete exactly when the record is one range", "statement": "For a file of n>0 bytes, all bytes 0..n-1 and no others have been received if and only if the record is the single range [0,n); and then there are no holes.", "quantifier": "every history, every n", "why_tests_cant": "unbounded histories", "anchors": ["holes/holes.go: Add, Getholes"]}
{"id": "C21", "title": "Merging ranges always terminates", "statement": "Consolidating a list of ranges terminates for every list, with recursion depth bounded by its length.", "quantifier": "every list of ranges", "why_tests_cant": "termination is universal", "anchors": ["holes/holes.go: optimise"]}
{"id": "C22", "title": "Adding a range may alter an earlier copy of the record (defect)", "statement": "When the record's backing array has spare capacity, adding a range overwrites entries seen through previously kept copies of the record; when it has none, earlier copies are unchanged.", "quantifier": "every backing array contents and capacity", "why_tests_cant": "depends on the hidden capacity of the slice", "anchors": ["holes/holes.go: Add, remove"]}
{"id": "C23", "title": "Data frames have the documented layout", "statement": "Encoding a data frame yields header, session, the 16-byte timestamp if requested, the offset in the width of the descriptor, then the payload, all big-endian, with no other bytes; d128 is refused with an error; encoding never panics.", "quantifier": "every data frame value", "why_tests_cant": "all headers, offsets and payloads", "anchors": ["data/data.go: Encode"]}
{"id": "C24", "title": "Data frames survive the wire", "statement": "Decoding an encoded data frame returns the same header, session, timestamp, offset and payload whenever the offset fits the descriptor and the timestamp is numeric and in range; the one exception is an empty payload with a timestamp and a 16-bit descriptor, which is reported as an error.", "quantifier": "every data frame value, every previous content of the receiver", "why_tests_cant": "all values", "anchors": ["data/data.go: Encode, Decode"]}
{"id": "C25", "title": "Which datagrams crash the data decoder", "statement": "Decoding arbitrary bytes as a data frame panics exactly when the frame has at least 10 bytes but is too short for the timestamp or offset its header announces, terminates the process exactly when the announced timestamp type is unknown, and otherwise returns.", "quantifier": "every byte string", "why_tests_cant": "all byte strings", "anchors": ["data/data.go: Decode"]}
{"id": "C26", "title": "Building a data frame", "statement": "Building a data frame from a flag string gives a version-1 data frame whose header has exactly the requested flags, carries a copy of the payload, the session and offset, and stamps the time iff a timestamp type is requested; requesting a bundle or an unknown flag returns an error; the transfer flag is silently ignored.", "quantifier": "every well-formed flag list, every session, offset and payload", "why_tests_cant": "unbounded strings and payloads", "anchors": ["data/data.go: New, Make"]}
{"id": "C27", "title": "Status frames have the documented layout when no timestamp is requested", "statement": "Encoding a status frame without timestamp yields header, session, progress, in-response-to and the hole pairs in the descriptor width, big-endian, and nothing else; d128 is an error.", "quantifier": "every status frame value without timestamp", "why_tests_cant": "all values and hole lists", "anchors": ["status/status.go: Encode"]}
{"id": "C28", "title": "Status frames survive the wire when no timestamp is requested", "statement": "Decoding an encoded status frame without timestamp into a fresh receiver returns the same header, session, progress, in-response-to and holes when these fit the descriptor.", "quantifier": "every such frame", "why_tests_cant": "all values and hole lists", "anchors": ["status/status.go: Encode, Decode"]}
{"id": "C29", "title": "Status frames with a timestamp never carry it (defect)", "statement": "Encoding a status frame whose header requests a timestamp writes no timestamp: the progress field follows the session directly and sixteen zero bytes are appended; decoding the result never returns the original frame.", "quantifier": "every status frame value with a timestamp requested", "why_tests_cant": "universal negative", "anchors": ["status/status.go: Encode"]}
{"id": "C30", "title": "Which datagrams crash the status decoder", "statement": "Decoding arbitrary bytes as a status frame panics exactly when the frame has at least 12 bytes but is too short for the timestamp, progress and in-response-to fields its header announces, terminates the process exactly when the announced timestamp type is unknown, and otherwise returns.", "quantifier": "every byte string", "why_tests_cant": "all byte strings", "anchors": ["status/status.go: Decode"]}
{"id": "C31", "title": "Decoding a status frame appends to the receiver's holes", "statement": "The holes after decoding are the holes the receiver held before followed by those in the frame; the number decoded is the number of complete pairs in the rest of the frame and a trailing partial pair is ignored.", "quantifier": "every receiver, every byte string", "why_tests_cant": "all byte strings", "anchors": ["status/status.go: Decode"]}
{"id": "C32", "title": "Request frames have the documented layout", "statement": "Encoding a request yields header, session, file name, one zero byte, then the authentication bytes; it never fails.", "quantifier": "every request value", "why_tests_cant": "all names and auth fields", "anchors": ["request/request.go: Encode"]}
{"id": "C33", "title": "Request frames with ASCII names survive the wire", "statement": "Decoding an encoded request into a fresh receiver returns the same header, session, file name and authentication bytes whenever the name is ASCII without zero bytes.", "quantifier": "every request with such a name", "why_tests_cant": "all names and auth fields", "anchors": ["request/request.go: Encode, Decode"]}
{"id": "C34", "title": "Non-ASCII file names never survive, and can crash the decoder (defect)", "statement": "If the file name contains a byte of 0x80 or above, decoding never returns the name that was sent: either the decoder panics (exactly when the name has more such bytes than there are authentication bytes) or the name is longer and the authentication bytes are cut short.", "quantifier": "every request whose name contains a byte >= 0x80", "why_tests_cant": "universal negative over names", "anchors": ["request/request.go: Decode"]}
{"id": "C35", "title": "Which datagrams crash the request decoder", "statement": "Decoding bytes as a request into a fresh receiver panics exactly when there are at least 9 bytes and either no zero byte terminates the name or the bytes after the terminator are fewer than the bytes >= 0x80 in the name; it never terminates the process.", "quantifier": "every byte string", "why_tests_cant": "all byte strings", "anchors": ["request/request.go: Decode"]}
{"id": "C36", "title": "Decoding into a used request concatenates names (defect)", "statement": "Decoding a request into a receiver that already holds a file name appends the new name to the old one.", "quantifier": "every receiver with a non-empty name, every frame that decodes", "why_tests_cant": "all receivers", "anchors": ["request/request.go: Decode"]}
{"id": "C37", "title": "Authentication data given to the request constructor is lost (defect)", "statement": "A request built from flags on a fresh receiver never carries the authentication bytes supplied; the header-based constructor always panics.", "quantifier": "every flag list, header and request information", "why_tests_cant": "universal negative", "anchors": ["request/request.go: New, Make"]}
{"id": "C38", "title": "A beacon's free-space descriptor always fits its value", "statement": "Building a beacon selects an advertised width that holds the free space given, or measured, so that encoding never truncates it; it is the smallest such width, except that a value equal to the maximum of a width goes to the next one, and 2^64-1 is refused.", "quantifier": "every free space value and every file system answer", "why_tests_cant": "all 2^64 sizes", "anchors": ["beacon/beacon.go: New, Make"]}
{"id": "C39", "title": "Beacons survive the wire", "statement": "Decoding an encoded beacon returns the same header, endpoint id and free space, for every beacon built by the constructors and every beacon whose free space fits its descriptor.", "quantifier": "every such beacon, every endpoint id", "why_tests_cant": "all values", "anchors": ["beacon/beacon.go: Encode, Decode"]}
{"id": "C40", "title": "Which datagrams crash the beacon decoder", "statement": "Decoding arbitrary bytes as a beacon panics exactly when they are shorter than the header or than the free space field the header announces, and returns an error exactly for a 128-bit free space.", "quantifier": "every byte string", "why_tests_cant": "all byte strings", "anchors": ["beacon/beacon.go: Decode"]}
{"id": "C41", "title": "The peer table is a map from address to the latest beacon", "statement": "After any history of beacons the table has at most one entry per peer address, holding the values of the latest beacon from that address with the creation time of the first; other peers' entries are untouched; and the call reports true exactly when the peer is new or one of its recorded values changed.", "quantifier": "every history of beacons from any addresses", "why_tests_cant": "unbounded histories", "anchors": ["beacon/beacon.go: NewPeer"]}
{"id": "C42", "title": "The peer table is not safe for concurrent callers (defect)", "statement": "If two callers may register beacons concurrently, some schedule leaves two entries for one address; every sequential schedule leaves one.", "quantifier": "every interleaving of two registrations of a new address", "why_tests_cant": "schedules", "anchors": ["beacon/beacon.go: NewPeer"]}
{"id": "C43", "title": "Directory entries survive the wire", "statement": "Decoding an encoded directory entry returns the same header, size and path and the same times in 2000-epoch seconds, for every entry that encodes, with ASCII path without zero bytes.", "quantifier": "every directory entry", "why_tests_cant": "all values", "anchors": ["dirent/dirent.go: Encode, Decode"]}
{"id": "C44", "title": "Which directory entries can be encoded", "statement": "Encoding succeeds exactly when the descriptor is d16, d32 or d64, the path has at most 1024 bytes and the size fits 16 bits for d16 and 32 bits for d32 and also for d64: sizes of 4 GiB and above are refused even with the 64-bit descriptor (defect).", "quantifier": "every directory entry", "why_tests_cant": "all sizes", "anchors": ["dirent/dirent.go: Encode"]}
{"id": "C45", "title": "Which bytes crash the directory entry decoder", "statement": "Decoding panics exactly when there are at least 12 bytes but fewer than the announced size and two times need; it returns an error when there are fewer than 12 or the descriptor is d128.", "quantifier": "every byte string", "why_tests_cant": "all byte strings", "anchors": ["dirent/dirent.go: Decode"]}
{"id": "C46", "title": "Metadata frames survive the wire", "statement": "Decoding an encoded metadata frame returns the same header, session, checksum and directory entry, whenever the checksum length agrees with the header and the entry can be encoded.", "quantifier": "every such metadata frame", "why_tests_cant": "all values", "anchors": ["metadata/metadata.go: Encode, Decode"]}
{"id": "C47", "title": "Metadata of an unencodable entry is silently truncated (defect)", "statement": "If the directory entry cannot be encoded, for instance because the file is 4 GiB or larger, encoding the metadata reports success with a frame that has no directory entry, which no receiver can decode.", "quantifier": "every metadata frame whose directory entry does not encode", "why_tests_cant": "universal negative", "anchors": ["metadata/metadata.go: Encode"]}
{"id": "C48", "title": "Which datagrams crash the metadata decoder", "statement": "Decoding bytes as metadata panics exactly when they are shorter than header, session and announced checksum, or the directory entry decoder panics on the rest; it never terminates the process.", "quantifier": "every byte string", "why_tests_cant": "all byte strings", "anchors": ["metadata/metadata.go: Decode"]}
{"id": "C49", "title": "Metadata loses the modification time (defect)", "statement": "Metadata built for a file carries the file's creation time in both time fields.", "quantifier": "every file", "why_tests_cant": "all files", "anchors": ["metadata/metadata.go: New, statfile"]}
{"id": "C50", "title": "File writes change exactly the bytes written", "statement": "Seeking to a position and writing a buffer makes those bytes read back, leaves every other byte of the file unchanged (a gap reads as zero), and does not touch any other file; positions of 2^63 and above are refused.", "quantifier": "every file content, position and buffer", "why_tests_cant": "unbounded contents", "anchors": ["fileio/fileio.go: FileSeek, FileWrite, FileRead"]}
{"id": "C51", "title": "Reassembly: the received file equals the sent file", "statement": "If every data chunk carries the bytes of the source file at its offset, then after writing any sequence of chunks, in any order with any duplication, each received position holds the source byte, and when the record of received ranges is the single range [0,n) the file's first n bytes are the source.", "quantifier": "every source file, every sequence of chunks", "why_tests_cant": "unbounded histories", "anchors": ["fileio/fileio.go: FileSeek, FileWrite", "holes/holes.go: Add"]}
{"id": "C52", "title": "Opening a file to receive into may destroy an existing file (defect)", "statement": "Opening a local file for a get truncates an already existing file of that name unless a file exists at the path obtained by prefixing the sardir twice; opening for a put fails for an existing file unless that doubled path exists.", "quantifier": "every file system, sardir and name", "why_tests_cant": "all file systems", "anchors": ["fileio/fileio.go: FileOpen, FileExists"]}
{"id": "C53", "title": "File names are not confined to the sardir (defect)", "statement": "For every file below the root there is a file name for which the delete operation removes it; without parent components in the name only files under the sardir are affected.", "quantifier": "every file system, sardir and name", "why_tests_cant": "all names", "anchors": ["fileio/fileio.go: FileRm, FileExists"]}
{"id": "C54", "title": "Checksums are refused for existing files (defect) and otherwise have the announced length", "statement": "Requesting a checksum of an existing file returns an error unless the doubled sardir path exists; when it succeeds the checksum has exactly 4 times the announced checksum length in bytes.", "quantifier": "every file system and file", "why_tests_cant": "all file systems", "anchors": ["fileio/checksum.go: Checksum"]}
{"id": "C55", "title": "The listener never delivers a truncated or oversized datagram", "statement": "A frame handed on by the listener is the decoding of the complete datagram that was received, of at least 8 and at most MTU-60 bytes; all other datagrams are dropped.", "quantifier": "every datagram of every length", "why_tests_cant": "all datagrams", "anchors": ["saratoga/saratoga.go: listen"]}
{"id": "C56", "title": "Exactly which datagrams kill the daemon (defect)", "statement": "For each datagram, the listener either drops it, hands on one frame, answers one error status, or the process dies; the process dies exactly for the listed malformed datagrams (undefined version or frame type, undefined error code, undefined timestamp type, fields cut short, unterminated or non-ASCII request names).", "quantifier": "every datagram", "why_tests_cant": "all byte strings", "anchors": ["saratoga/saratoga.go: listen", "sarflags/sarflags.go: GetStr"]}
{"id": "C57", "title": "Every well-formed request kills the daemon (defect)", "statement": "With the shipped configuration, every request frame that the listener accepts terminates the process when it is handled, because the request type is looked up under a flag name that does not exist.", "quantifier": "every request frame", "why_tests_cant": "universal negative", "anchors": ["trans/trans.go: AddRxTran", "saratoga/saratoga.json"]}
{"id": "C58", "title": "The request decision table", "statement": "Were the request type read from the existing flag, a request would be answered with the documented error for unsupported version, UDP-lite, streams, willingness, missing and existing files, deletes would remove exactly the named file, and each accepted get/put would terminate the process because of an unknown timestamp type name.", "quantifier": "every request, every file system", "why_tests_cant": "all requests", "anchors": ["trans/trans.go: AddRxTran"]}
{"id": "C59", "title": "The main loop blocks itself when it answers (defect)", "statement": "The main loop is the only receiver of the transmit channels; whenever it sends an answer itself it never continues, in every schedule.", "quantifier": "every schedule of listeners and main loop", "why_tests_cant": "schedules", "anchors": ["saratoga/saratoga.go: main", "trans/trans.go: AddRxTran"]}
{"id": "C60", "title": "Frames are handled once, in arrival order per address family", "statement": "In every schedule, the frames the main loop has handled are an interleaving of prefixes of the two listeners' decoded frames: none is lost, duplicated or reordered within a listener. Once a socket cannot be read any more its listener reads nothing further, and the daemon ends when the main loop takes note of it.", "quantifier": "every schedule, every datagram history", "why_tests_cant": "schedules", "anchors": ["saratoga/saratoga.go: listen, main"]}
{"id": "C61", "title": "Session identifiers are unique until they wrap", "statement": "The session ids handed out by consecutive calls are pairwise distinct for the first 2^32 - pid calls, after which the sequence starts again; so until then the transfers in the table always have different ids.", "quantifier": "every process id, every number of calls", "why_tests_cant": "2^32 calls", "anchors": ["sarwin/sarwin.go: newsession"]}
{"id": "C62", "title": "Removing a transfer removes the wrong one (defect)", "statement": "Removing a transfer that is in the table removes the last transfer of the table, so it removes the requested one exactly when that is the last.", "quantifier": "every transfer table", "why_tests_cant": "all tables", "anchors": ["sarwin/sarwin.go: Transfer.Remove, Lookup"]}
{"id": "C63", "title": "Looking up a transfer yields a copy (defect)", "statement": "Lookup finds a transfer exactly when one with that direction, session and address exists, and returns the first; changes made through the returned pointer never change the table. Match finds the last transfer connected to that address with that session, in the table itself, and panics exactly when it meets a transfer without a connection first.", "quantifier": "every transfer table", "why_tests_cant": "all tables", "anchors": ["sarwin/sarwin.go: Lookup, Match"]}
{"id": "C64", "title": "Rejected metadata still replaces the transfer's description (defect)", "statement": "Metadata for a transfer without a buffer gives it a zero-filled one of the announced size (and panics if that is more than memory). When metadata of a different size arrives for a transfer that already has a buffer, the change is refused with an error but the checksum and directory entry have already been replaced; the buffered data is never resized. Metadata with an undefined checksum type terminates the process. Nothing else of the transfer changes.", "quantifier": "every transfer and metadata", "why_tests_cant": "all values", "anchors": ["sarwin/sarwin.go: Change"]}
{"id": "C65", "title": "Status reports repeat all holes in every frame (defect)", "statement": "Reporting holes produces len(holes)/max+1 frames and each carries the complete hole list, so a report of more holes than fit always exceeds the maximum payload.", "quantifier": "every hole list and flag list", "why_tests_cant": "unbounded lists", "anchors": ["sarwin/sarwin.go: WriteStatus, stpaylen"]}
{"id": "C66", "title": "CLI commands keep the global flags valid, except txwilling", "statement": "Starting from valid global flags, every sequence of flag commands without 'txwilling on/off' keeps every global flag valid, so building a beacon from them never terminates the process; after 'txwilling on' or 'txwilling off' the next beacon terminates the process (defect).", "quantifier": "every sequence of command lines", "why_tests_cant": "unbounded histories", "anchors": ["sarwin/sarwin.go: cmdTxwilling, cmdRxwilling, cmdStream, cmdDescriptor, cmdChecksum, cmdFreespace, cmdTimestamp, cmdBeacon"]}
{"id": "C67", "title": "A blank command line crashes the program (defect)", "statement": "Running a command line that consists only of spaces panics; a line whose first word is an unknown command only reports an error.", "quantifier": "every command line", "why_tests_cant": "all lines", "anchors": ["sarwin/sarwin.go: Run"]}
{"id": "C68", "title": "Removing an address removes exactly its occurrences", "statement": "Removing an address value from a list of addresses returns the list without any occurrence of it, in the same order, and leaves the original list unchanged.", "quantifier": "every list and address", "why_tests_cant": "unbounded lists", "anchors": ["sarnet/sarnet.go: RemoveUDPAddrValue"]}
{"id": "C69", "title": "Building a status frame", "statement": "Building a status frame from a list of flag settings is refused, crashes or terminates the process exactly as the first offending item dictates; when every item is acceptable the header says version 1, status frame and exactly the requested flags, and the session, progress, in-response-to and hole values are the caller's.", "quantifier": "every flag list (any length), receiver and caller values", "why_tests_cant": "unbounded flag lists", "anchors": ["status/status.go: New, Make"]}
{"id": "C70", "title": "Building a request frame", "statement": "Building a request from a list of flag settings (trailing commas allowed) is refused or terminates the process exactly as the first offending item dictates; when every item is acceptable the header says version 1, request frame and exactly the requested flags, and session and file name are the caller's. An empty flag string panics.", "quantifier": "every flag list (any length), receiver and caller values", "why_tests_cant": "unbounded flag lists", "anchors": ["request/request.go: New"]}
{"id": "C71", "title": "Building a beacon", "statement": "Building a beacon from a list of flag settings is refused, crashes or terminates the process exactly as the first offending item dictates; when every item is acceptable the header says version 1, beacon frame and exactly the requested flags. An empty flag string panics.", "quantifier": "every flag list (any length), receiver and caller values", "why_tests_cant": "unbounded flag lists", "anchors": ["beacon/beacon.go: New"]}
{"id": "C72", "title": "Building a directory entry", "statement": "Building a directory entry from a list of flag settings is refused or terminates the process exactly as the first offending item dictates; when every item is acceptable the header has the start flag and exactly the requested flags, a normal file gets the size and times the operating system reports for sardir/path, a special file gets size zero and the current time; paths above 1024 bytes, missing files and files last changed before 2000 or after 2136 are refused, and any other lookup failure (for instance a path through a file) panics.", "quantifier": "every flag list, path, file system and clock", "why_tests_cant": "unbounded flag lists and file systems", "anchors": ["dirent/dirent.go: New, Statfile", "fileio/fileio.go: FileMeta"]}
{"id": "C73", "title": "Building metadata", "statement": "Building metadata from a list of flag settings is refused or terminates the process exactly as the first offending item dictates; when every item is acceptable the header says version 1, metadata frame and exactly the requested flags with the checksum length of the checksum type; the kind is checked on the file of that name in the working directory while size and time come from sardir (defect); without a checksum type only streams succeed; the header-based constructor ignores the file name it is given (defect).", "quantifier": "every flag list, file name and file system", "why_tests_cant": "unbounded flag lists and file systems", "anchors": ["metadata/metadata.go: New, Make, statfile"]}
{"id": "C74", "title": "Deleting through an open file misses the file (defect)", "statement": "Deleting an open file (as returned by opening a name) removes whatever is at the sardir path prefixed with the sardir again; with an ordinary absolute sardir this always fails and the file stays.", "quantifier": "every file system, sardir, name and transfer type", "why_tests_cant": "quantifies over all file systems", "anchors": ["fileio/fileio.go: FileDelete, FileOpen, FileRm"]}
{"id": "C75", "title": "What the main loop does with each frame it is handed", "statement": "Of the frames a listener hands on, the main loop survives every beacon, data and status frame and every metadata frame whose checksum type is defined; only a beacon changes anything (the peer table, as registering it does), and nothing is sent. A metadata frame with an undefined checksum type terminates the process when it is printed, and so does every request. Answers that the listeners make are printed without harm.", "quantifier": "every datagram, clock, file system and peer table", "why_tests_cant": "quantifies over all datagrams; the fatal values are rare", "anchors": ["saratoga/saratoga.go: main, listen", "metadata/metadata.go: ShortPrint", "status/status.go: ShortPrint", "data/data.go: ShortPrint"]}
{"id": "C76", "title": "The peer table in every run of the daemon", "statement": "In every state of every run in which the daemon lives, the peer table has exactly one entry per address a handled beacon came from, showing what the latest of them said, created when the first and updated when the last change arrived.", "quantifier": "every schedule, every datagram history", "why_tests_cant": "quantifies over schedules and unbounded histories", "anchors": ["saratoga/saratoga.go: main, listen", "beacon/beacon.go: NewPeer"]}
{"id": "C77", "title": "Which texts are accepted as peer addresses", "statement": "A text given as an address is accepted exactly when it looks like IPv4 (exactly three dots) or IPv6 (at least two colons, put in brackets) and the system resolver resolves it together with the Saratoga port 7542, in which case the resolver's address is returned; any other text is refused whatever the resolver would say.", "quantifier": "every text and every resolver", "why_tests_cant": "all texts", "anchors": ["sarnet/sarnet.go: UDPAddress, IsIPv4, IsIPv6"]}
{"id": "C78", "title": "Disk usage arithmetic", "statement": "The size, free, available and used figures of a volume are the block counts times the block size modulo 2^64; below 2^64 bytes they are exact, and used plus free is always the size modulo 2^64.", "quantifier": "every answer of the operating system", "why_tests_cant": "all 64-bit values", "anchors": ["sarsys/sys_linux.go: DiskUsage"]}
{"id": "C79", "title": "No status report can be sent on a transfer's connection (defect)", "statement": "Every connection of every transfer in the table, in every history, is a dialled one, on which an addressed send is an error; so reporting status on a transfer never sends a frame and answers badstatus.", "quantifier": "every history of the transfer table, every flag list", "why_tests_cant": "quantifies over histories", "anchors": ["sarwin/sarwin.go: WriteStatus, NewInitiator", "status/status.go: Send"]}
{"id": "C80", "title": "When a transfer can be started", "statement": "Starting a transfer is refused exactly when the table has a transfer without a connection (which also removes the last transfer of the table), or the same file to the same peer, or when a get-like transfer would overwrite an existing file and the table is not empty; with an empty table the overwrite is not noticed (defect). Otherwise the transfer is added at the end, with the next session id, the caller's peer, file and type, a connection if dialling worked, and a copy of the settings.", "quantifier": "every transfer table, file system, peer and name", "why_tests_cant": "quantifies over all tables and file systems", "anchors": ["sarwin/sarwin.go: NewInitiator"]}
{"id": "C81", "title": "Transfers of the same file with the same peer", "statement": "In every history without overlapping calls the table never has two transfers of the same file with the same peer. When two calls overlap both are added exactly when both look before either adds (defect).", "quantifier": "every history; every interleaving of two callers", "why_tests_cant": "schedules and unbounded histories", "anchors": ["sarwin/sarwin.go: NewInitiator, Remove, Change, NewResponder"]}
{"id": "C82", "title": "No request is ever accepted by NewResponder (defect)", "statement": "Answering a request with a new responder is refused without change when the transfer exists already or the peer cannot be dialled, and terminates the process otherwise, for every request header: it asks for a flag that does not exist. Even with that flag name corrected to anything else no request is ever accepted.", "quantifier": "every request, table, file system and peer", "why_tests_cant": "quantifies over all requests", "anchors": ["sarwin/sarwin.go: NewResponder"]}
{"id": "C83", "title": "What each settings command sets", "statement": "A settings command (bcount, checksum, descriptor, freespace, interval, reqtstamp, rxwilling, stream, timeout, timestamp, timezone, txwilling) sets exactly what its words order, as written in a small table, and leaves every other setting as it was; words that order nothing change nothing.", "quantifier": "every settings command, list of words and previous settings", "why_tests_cant": "all word lists and all settings", "anchors": ["sarwin/sarwin.go: cmdBcount, cmdChecksum, cmdDescriptor, cmdFreespace, cmdInterval, cmdReqtstamp, cmdRxwilling, cmdStream, cmdTimeout, cmdTimestamp, cmdTimezone, cmdTxwilling"]}
{"id": "C84", "title": "When a settings command reports an error", "statement": "A settings command shows an error exactly when its words are none of the forms it understands, and then changes no setting; with the single argument '?' it shows its help and usage and changes nothing.", "quantifier": "every settings command, list of words and previous settings", "why_tests_cant": "all word lists and all settings", "anchors": ["sarwin/sarwin.go: cmdBcount, cmdChecksum, cmdDescriptor, cmdFreespace, cmdInterval, cmdReqtstamp, cmdRxwilling, cmdStream, cmdTimeout, cmdTimestamp, cmdTimezone, cmdTxwilling, prhelp, prusage"]}
{"id": "C85", "title": "Showing the timers (defect for metadata)", "statement": "'timeout <name>' shows the named timer's value, or that it is off; but for metadata whether it is shown or said to be off depends on the request timer (defect).", "quantifier": "every value of every timer", "why_tests_cant": "all timer values", "anchors": ["sarwin/sarwin.go: cmdTimeout"]}
{"id": "C86", "title": "Which lines end the program (defect for 'exit 1')", "statement": "Entering a line ends the program exactly when the text after the prompt's colon is 'exit' or 'quit' with nothing around it. Any other line with these commands, such as 'exit 1' or 'quit ', only shows a text and sets a variable nothing reads: the program goes on (defect).", "quantifier": "every line", "why_tests_cant": "all lines", "anchors": ["sarwin/sarwin.go: GetLine, Run, cmdExit"]}
{"id": "C87", "title": "put, putblind, give and delete never finish (defect)", "statement": "Of the commands that start a transfer, exactly put, putblind, give and delete wait for its end. Once such a command waits it waits forever, in every continuation of every run, since the goroutine that should do the transfer comes to a standstill without answering.", "quantifier": "every run, whatever is typed and however the goroutines are scheduled", "why_tests_cant": "quantifies over infinite continuations and all schedules", "anchors": ["sarwin/sarwin.go: cmdPut, cmdPutblind, cmdGive, cmdDelete, Do"]}
{"id": "C88", "title": "A beacon command keeps the settings locked", "statement": "At most one beacon command runs at a time. From its beginning to its end no setting changes, and neither do the flags and number of its beacons. A goroutine that begins is made to wait exactly when its command reads or changes settings (or is beacon) and a beacon command has not finished.", "quantifier": "every run, whatever is typed and however the goroutines are scheduled", "why_tests_cant": "quantifies over schedules", "anchors": ["sarwin/sarwin.go: cmdBeacon, Climu, Run"]}
{"id": "C89", "title": "What 'beacon' reports (defect)", "statement": "'beacon' without arguments reports the multicast groups that were ever asked for by an earlier 'beacon v4' or 'beacon v6', with the current beacon count, and nothing else: addresses given to beacon commands are never reported, 'beacon off' does not change the report, and it does not depend on whether beacons are being sent.", "quantifier": "every run, whatever is typed and however the goroutines are scheduled", "why_tests_cant": "unbounded histories", "anchors": ["sarwin/sarwin.go: cmdBeacon"]}
{"id": "C90", "title": "The configuration file is read faithfully", "statement": "Reading a configuration panics exactly when a known member of the document has the wrong type; unknown and absent members are harmless. Otherwise every setting is the document's (empty or zero if absent), the SARDIR environment variable, if not empty, replacing the directory; and the commands, the field lists of the frames, and all flags with their positions, lengths and options are exactly the document's.", "quantifier": "every JSON document, environment and member order", "why_tests_cant": "all documents; map iteration order is random", "anchors": ["sarflags/sarflags.go: ReadConfig"]}
{"id": "C91", "title": "What a beacon command sends (the first of several addresses is dropped: defect)", "statement": "Only beacon commands send datagrams. Whatever else happens, a beacon command sends, for each of its addresses in turn, at most the set number of copies of one beacon, and nothing else; if the system lets it send and the command finishes, exactly that number to each text that is an address. Each beacon is a version 1 beacon that says what the settings say, with the system's free space and the local address and process id. Of several addresses the first is never sent anything (defect).", "quantifier": "every run, whatever is typed, however the goroutines are scheduled and whatever the system answers", "why_tests_cant": "quantifies over schedules, system answers and settings", "anchors": ["sarwin/sarwin.go: cmdBeacon, sendbeacons"]}
{"id": "C92", "title": "What rmtran removes (defect)", "statement": "'rmtran <type> <address> <session>' goes through the table from its end until it meets a transfer connected to that address with that session. If it does, the LAST transfer of the table is removed, whichever that is, so a transfer that is not the last one stays and another one goes (defect); if none is met and all are connected nothing changes and 'No such transfer' is shown; if it first meets a transfer without a connection the program ends (defect). With any other words nothing is removed. The type does not matter.", "quantifier": "every table, every list of words", "why_tests_cant": "all tables and texts", "anchors": ["sarwin/sarwin.go: cmdRmtran, Match, Remove"]}
{"id": "C93", "title": "What the commands list (take, give and delete list nothing: defect)", "statement": "'files' and 'tran' list every transfer once (sorted by their texts, C104), 'tran <type>' those of the type. 'get', 'getdir', 'put' and 'putblind' alone list exactly the transfers they started. In every run each transfer in the table has one of the seven types the commands give, so 'take', 'give' and 'delete' alone, and 'tran' with getrm, putrm, rm or rmdir, never list anything, and 'tran take' is an error (defect).", "quantifier": "every run, whatever is typed and however the goroutines are scheduled", "why_tests_cant": "quantifies over histories and schedules", "anchors": ["sarwin/sarwin.go: Info, cmdFiles, cmdTran, cmdGet, cmdTake, cmdGive, cmdDelete, Ttypes"]}
{"id": "C94", "title": "Commands that only show", "statement": "cancel, clear, files, help, ?, history, home, ls, tran and usage with any words, peers while every peer's times can be written, and '?' after a command, never wait and change nothing: no setting, transfer, peer, file, other goroutine, and nothing is sent.", "quantifier": "every state, every list of words", "why_tests_cant": "all states and texts", "anchors": ["sarwin/sarwin.go: cmdCancel, cmdClear, cmdFiles, cmdHelp, cmdHistory, cmdHome, cmdLs, cmdPeers, cmdTran, cmdUsage"]}
{"id": "C95", "title": "Exactly which commands end the program (defect)", "statement": "In every run, a step of a goroutine ends the whole program exactly when it is: 'peers' with a peer whose times have an unknown type; 'rmtran' meeting a transfer without a connection before the one that is meant; a beacon about to be sent while txwilling is on or off; or starting a transfer of a file that cannot be looked at for another reason than not existing, or that is a dangling link. Here each look of a command at a table is part of one step; races within it are apart (C135, C155).", "quantifier": "every run, whatever is typed, however the goroutines are scheduled and whatever the system answers", "why_tests_cant": "quantifies over schedules and system answers", "anchors": ["sarwin/sarwin.go: Run, cmdPeers, cmdRmtran, sendbeacons, NewInitiator", "fileio/fileio.go: FileMeta"]}
{"id": "C96", "title": "help and usage show every command (help <command> does not: defect)", "statement": "'help' and '?' show one line per command, 'help ?' its usage as well, 'usage' the usage, each command exactly once and the lines in increasing order. 'help <command>' shows only the line of help itself (defect).", "quantifier": "every iteration order of the command map, every list of words", "why_tests_cant": "map iteration order is random", "anchors": ["sarwin/sarwin.go: cmdHelp, cmdUsage"]}
{"id": "C97", "title": "What clear clears", "statement": "'clear' alone clears the message, error and packet windows. With words it clears the windows named, in order, and stops with a usage error at the first word that is not the name of one.", "quantifier": "every list of words", "why_tests_cant": "all lists of words", "anchors": ["sarwin/sarwin.go: cmdClear"]}
{"id": "C98", "title": "What 'peers' shows in the running program", "statement": "In the running program, while both the network side and the user interface run, the peers command never fails and never ends the program. It says 'No Peers' exactly if no beacon has been heard; otherwise it shows one entry per address a beacon was heard from, each saying what the latest beacon from there said, when the first came and when what it said last changed.", "quantifier": "every run of the whole program: any datagrams, typed lines, schedules and system answers; clocks between 2000 and 2106", "why_tests_cant": "quantifies over histories and schedules of two parts of the program", "anchors": ["saratoga/saratoga.go: main, listen", "beacon/beacon.go: NewPeer", "sarwin/sarwin.go: cmdPeers"]}
{"id": "C99", "title": "Exactly what ends the running program (defect)", "statement": "A step ends the program exactly if it is: reading a datagram that a decoder or printer cannot cope with; main taking a request, a metadata frame with checksum type 4 or more, or a read error; main noticing that the user interface has ended; a typed line that is 'exit' or 'quit', has no colon, or is blank but not empty; or one of the deadly commands other than 'peers'. Here a command takes the state of the tables in one step; what more can happen when two commands are at work at once is said where the races of the tables are (C135, C155).", "quantifier": "every reachable state of the whole program and every possible step", "why_tests_cant": "quantifies over histories, schedules and inputs", "anchors": ["saratoga/saratoga.go: main, listen", "sarwin/sarwin.go: getLine, Run"]}
{"id": "C100", "title": "Nodes on a network do not end each other", "statement": "If several instances of the program hear only datagrams that they send each other, over a network that may lose, delay, repeat and reorder them, then none of them is ended by anything it receives: an instance ends only through what its own user types and runs, its own user interface ending, or its own socket failing.", "quantifier": "every number of nodes, network, history and schedule", "why_tests_cant": "distributed histories with loss, duplication and reordering", "anchors": ["saratoga/saratoga.go: main, listen", "sarwin/sarwin.go: cmdBeacon", "beacon/beacon.go: New, Encode, Decode, NewPeer"]}
{"id": "C101", "title": "The table of peers says what the peers said", "statement": "Every entry in the table of a live node was told by another node: at some earlier time the user of that node gave a beacon command for an address from which the network carried a datagram to this node, and the entry shows the willingness, descriptor, free space and name that node's settings and system had then, under the address the network gave. Conversely a beacon that arrives, fits the MTU and finds the listener idle is in the table once main has taken it.", "quantifier": "every number of nodes, network, history and schedule", "why_tests_cant": "distributed histories with loss, duplication and reordering", "anchors": ["saratoga/saratoga.go: main, listen", "sarwin/sarwin.go: cmdBeacon, sendbeacons", "beacon/beacon.go: New, Encode, Decode, NewPeer"]}
{"id": "C102", "title": "How timestamps read", "statement": "A timestamp of one of the five numeric types prints as the weekday, date and time, in UTC of the proleptic Gregorian calendar, of exactly the instant it holds: to the millisecond if its type has nanoseconds, to the second otherwise. Two timestamps of the same precision print alike exactly if they hold the same second (millisecond). A timestamp of type 0 prints its text, and a timestamp of any other type ends the program.", "quantifier": "every timestamp: all 64-bit seconds and nanoseconds whose instant package time can represent, every type byte", "why_tests_cant": "the calendar has to be right for every day of 584 thousand million years", "anchors": ["timestamp/timestamp.go: Print"]}
{"id": "C103", "title": "What the table of peers looks like (defect)", "statement": "In the running program, the text of the peers command is a table: a border, a heading, a border, one row per peer in increasing order, and a border. Each column is as wide as the longest text in it (the endpoint at least 3, free space 6, descriptor 3, times 32), and texts stand at its right. Each row says the peer's address, its free space in whole gigabytes, endpoint, descriptor, willingness to receive and to send, and the UTC times at which it was first heard and last changed what it said. The lines have equal widths exactly if no peer uses 128-bit descriptors and none has a million gigabytes or more free.", "quantifier": "every run of the whole program, every table of peers it can have, every endpoint text (any bytes)", "why_tests_cant": "all histories, all texts including ones that are not UTF-8", "anchors": ["sarwin/sarwin.go: cmdPeers", "beacon/beacon.go: Peer"]}
{"id": "C104", "title": "What the table of transfers looks like (defect)", "statement": "The table of transfers has one row per transfer, in increasing order, between borders and under a heading; each row says the type, the peer and the file of the transfer. Every row says 'Initiator', also for transfers that answer a peer; that word is wider than its column, so the rows are never as wide as the border.", "quantifier": "every list of transfers", "why_tests_cant": "all tables and all texts", "anchors": ["sarwin/sarwin.go: Info, FmtPrint"]}
{"id": "C105", "title": "How the user interface ends the program (defect)", "statement": "The user interface goes on whatever is printed and whatever windows are chosen, until Ctrl-C is pressed or the screen is drawn on a terminal with less than 12 columns or less than 12 rows: making the terminal smaller than that ends the whole program.", "quantifier": "every sequence of printed texts, keys, sizes of the terminal and orders in which the texts reach the screen", "why_tests_cant": "quantifies over histories and all sizes", "anchors": ["sarwin/sarwin.go: Layout, fprintf, fprintln, switchView, showPacket, Quit", "saratoga/saratoga.go: gocuimainloop, main"]}
{"id": "C106", "title": "Every cell of the terminal shows one window", "statement": "On a terminal of any size on which the program runs, and after any history, the messages, the command line and the errors share the whole screen without overlap: the messages above, the command line below on the left and the errors below on the right. The packet window covers its part of the messages exactly after an odd number of presses of Ctrl-P. No window reaches beyond the terminal.", "quantifier": "every size of the terminal, every cell, every history of keys, texts and changes of size", "why_tests_cant": "all sizes and histories", "anchors": ["sarwin/sarwin.go: Layout, showPacket, switchView, setCurrentViewOnTop"]}
{"id": "C107", "title": "Ctrl-Space takes the cursor round the windows (defect)", "statement": "The cursor starts on the command line. Ctrl-Space takes it to the messages, to the packets if their window is on, to the errors, and back to the command line; whatever else happens, of any four presses one reaches the command line. But Ctrl-P pressed while the cursor is in the packet window leaves the cursor there although that window is no longer seen anywhere.", "quantifier": "every history of keys, texts and changes of size", "why_tests_cant": "quantifies over histories", "anchors": ["sarwin/sarwin.go: switchView, showPacket, setCurrentViewOnTop"]}
{"id": "C108", "title": "Printed text appears whole and once, in any order (defect)", "statement": "Every text the program prints is written whole and exactly once into its window, or still waits to be; nothing else gets into a window. The order is not kept: any texts that the program prints one after the other, even from one goroutine, can appear in every possible order.", "quantifier": "every history and schedule; every list of texts and every permutation of it", "why_tests_cant": "quantifies over schedules; tests see one order", "anchors": ["sarwin/sarwin.go: fprintf, fprintln, MsgPrintln, ErrPrintln, CmdPrintf, PacketPrintln"]}
{"id": "C109", "title": "Colours of texts", "statement": "A colour is the name of one of eight colours, plain, underlined or inverse, alone or with a background after an underscore: it is set by its ANSI escape sequence before the text, and turned off after it. Texts in any other colour are still printed, in white on red. The text itself is not changed.", "quantifier": "every colour name and every text", "why_tests_cant": "all strings", "anchors": ["sarwin/sarwin.go: setcolour, fgexists, bgexists, fprintf, fprintln"]}
{"id": "C110", "title": "Exactly when the program starts (defect)", "statement": "The program starts exactly if it is given two arguments, the first names a file with a JSON object whose settings are all valid, the directory (SARDIR, else the one of the configuration) is found from where the program is started and then, by the same name, again from within that directory, the second argument names an interface, and the terminal and both multicast groups can be used; otherwise the first of these that fails is reported. A directory given by its absolute name is found again; one given by a plain name is not, unless it contains something of that very name, so the program does not start. With wrong arguments or an unusable configuration the exit status is 0, and if the interface does not exist the message names the configuration file instead.", "quantifier": "every list of arguments, environment, file system, configuration and answer of the system", "why_tests_cant": "all configurations and file systems", "anchors": ["saratoga/saratoga.go: main", "sarflags/sarflags.go: ReadConfig, getmaxdesc", "sarnet/sarnet.go: SetMulticastLoop"]}
{"id": "C111", "title": "What the program starts with", "statement": "A program that starts has the MTU of the interface it was given, listens there for the IPv4 and IPv6 groups of its configuration at the configured port, works in its directory, has the settings of its configuration, has heard nothing and runs nothing. It shows its directory, the available space in whole megabytes (as long as that is below 2^64 bytes), the sizes of integers, and the groups. With the shipped configuration it is in the state from which all properties of running programs are proved.", "quantifier": "every system on which the program starts", "why_tests_cant": "all configurations and systems", "anchors": ["saratoga/saratoga.go: main", "sarflags/sarflags.go: ReadConfig, MtuSet"]}
{"id": "C112", "title": "What the text of a frame says (defect)", "statement": "The short text the program shows of a frame lists exactly its header in base 16, and, by kind: free space if it is advertised and endpoint id; session, time, offset and length of the payload; session, file name and authentication; session, time, the name of the error, progress, the frame answered and the number of holes; session, the checksum if there is one, and the directory entry. Numbers are in base 10 without zeros in front. The long text lists the flags by name as well, and all holes. Every frame a listener hands on has a short text unless it is metadata with an undefined kind of checksum; a frame without one ends the program when it is to be shown. No request has a long text: asking for it ends the program.", "quantifier": "every frame of every kind, every datagram received", "why_tests_cant": "all frames; unit tests compare a few texts", "anchors": ["beacon/beacon.go: Print, ShortPrint", "data/data.go: Print, ShortPrint", "request/request.go: Print, ShortPrint", "status/status.go: Print, ShortPrint", "metadata/metadata.go: Print, ShortPrint", "dirent/dirent.go: Print, ShortPrint", "saratoga/saratoga.go: main"]}
{"id": "C113", "title": "The text of a frame identifies what it shows", "statement": "Two frames that listeners hand on have the same short text exactly if they are of the same kind and agree in everything the text lists, whatever bytes the names in them contain; of a request, the file name and the authentication are taken together. The long text of a status tells everything the status holds: header, session, time, progress, the frame answered, and every hole.", "quantifier": "every pair of frames", "why_tests_cant": "quantifies over all pairs of frames", "anchors": ["beacon/beacon.go: ShortPrint", "data/data.go: ShortPrint", "request/request.go: ShortPrint", "status/status.go: Print, ShortPrint", "metadata/metadata.go: ShortPrint", "dirent/dirent.go: ShortPrint"]}
{"id": "C114", "title": "One received beacon can look like any packets (defect)", "statement": "Names in frames are shown as they are, with line ends and colour codes. So for every beacon and every list of frames there is a longer beacon, the same with some bytes added, which if it still fits the MTU is received and then shown in the packet window exactly as that beacon followed by all those frames. Likewise the text of a request does not show where the file name ends and the authentication starts.", "quantifier": "every datagram with a beacon, every list of frames, every MTU that the longer datagram fits", "why_tests_cant": "quantifies over all lists of packets; an attacker picks one", "anchors": ["beacon/beacon.go: Decode, ShortPrint", "request/request.go: ShortPrint", "saratoga/saratoga.go: listen, main", "sarwin/sarwin.go: fprintln, PacketPrintln"]}
{"id": "C115", "title": "Sending a frame writes it whole, once, and says truly whether it was taken", "statement": "Sending any frame writes exactly the bytes the frame encodes to, in one datagram, to the address given (a beacon: along its connection). If the frame cannot be encoded nothing is written and that error is returned. Otherwise no error is returned exactly when the system took all the bytes; the system's error is returned as it is, and a partial write gives an error with both lengths and the address.", "quantifier": "every frame, address and answer of the system to the write", "why_tests_cant": "quantifies over all frames and all behaviours of the socket", "anchors": ["frames/frames.go: Send", "beacon/beacon.go: Send", "request/request.go: Send", "metadata/metadata.go: Send", "data/data.go: Send", "status/status.go: Send"]}
{"id": "C116", "title": "What one program sends, another receives unchanged", "statement": "Every well-formed frame of any of the five kinds (version 1, numbers within the widths it announces, ASCII names, a checksum of the announced length, a time stamp only where announced) has a wire form; sending writes that form, and a listener whose MTU it fits hands on exactly that frame with the address it came from. Two different well-formed frames never have the same wire form.", "quantifier": "every well-formed frame, every MTU it fits, every source address and time", "why_tests_cant": "quantifies over all frames; tests try a few and never through a real listener", "anchors": ["frames/frames.go: Send", "saratoga/saratoga.go: listen", "beacon/beacon.go: Send, Encode, Decode", "request/request.go: Send, Encode, Decode", "metadata/metadata.go: Send, Encode, Decode", "data/data.go: Send, Encode, Decode", "status/status.go: Send, Encode, Decode"]}
{"id": "C117", "title": "Frames that are reported as sent but cannot be received (defect)", "statement": "Sending reports success although no listener can use the frame in these cases: it is longer than the MTU less 60 bytes (dropped without a word); it is metadata of a file of 4 GiB or more or with a path of more than 1024 bytes (sent without its directory entry, answered as a bad packet); it is data with a time stamp, a 16-bit offset and no payload (answered as a bad packet quoting its session and offset); it is a status that announces a time stamp (what is received never has the progress, in-response-to and holes sent).", "quantifier": "every such frame, every socket that takes it, every listener", "why_tests_cant": "quantifies over all frames and listeners", "anchors": ["metadata/metadata.go: Send, Encode", "data/data.go: Send, Decode", "status/status.go: Send, Encode, Decode", "saratoga/saratoga.go: listen"]}
{"id": "C118", "title": "The host's own address (IPv6: defect)", "statement": "Asked for \"IPv4\", OutboundIP returns, in four bytes, the first of the addresses the host's name resolves to that is an IPv4 address (also one mapped into IPv6), and ends the program if there is none. Asked for \"IPv6\", it returns the first address whatever its kind, an IPv4 address mapped into IPv6 if that one comes first, because every address has a 16-byte form. Any other word ends the program.", "quantifier": "every host name, every answer of the resolver, every type word", "why_tests_cant": "the answer depends on the order in which a resolver lists addresses, which no test controls", "anchors": ["sarnet/sarnet.go OutboundIP"]}
{"id": "C119", "title": "Moving the cursor in a window", "statement": "Up and Down move the cursor by one line and never out of the window; from any line the cursor can be on, k times Down ends on the last line at most and k times Up on the first line that is shown when the last lines are (a following window cannot be scrolled back). Left stops behind the prompt, Right behind the text, Backspace removes the character before the cursor but none of the prompt, a character typed replaces the one at the cursor or is added behind the line; in the other windows these keys do nothing. In an empty window, or below its text, Down goes on without an end (defect).", "quantifier": "every window, size, text, position of the cursor and number of key presses", "why_tests_cant": "positions depend on window size, scroll position and text length; tests see a few", "anchors": ["sarwin/sarwin.go CursorDown, CursorUp, CursorLeft, CursorRight, BackSpace, promptlen"]}
{"id": "C120", "title": "What of a window's text is shown (defect)", "statement": "A window that follows its text (messages, errors, commands) shows its last lines whenever there are more than fit; and always, if Down was not used and it was not cleared. After clearing, new lines are not shown from the first on: as many of them are missing as were above the window before, until they fill the window. Down in an empty window hides the first lines printed afterwards in the same way. The packet window does not follow: once it is full, what is printed does not change what is shown. Ctrl-Space puts the cursor on the last line, in a full packet window on the last but one.", "quantifier": "every history of key presses, printed texts and clearings, every window size", "why_tests_cant": "the state after a history of scrolling and clearing decides what is visible", "anchors": ["sarwin/sarwin.go Clearwin, gotolastrow, Layout, CursorDown"]}
{"id": "C121", "title": "A session at the command line", "statement": "If each prompt is waited for before the next command is typed, every command typed is run, once and in order; the window holds the commands behind prompts numbered from 0, shows its last lines, and the cursor is behind the last prompt.", "quantifier": "every list of commands that fit into a line and are not blank, exit or quit; every prompt without colon; every window size", "why_tests_cant": "the cursor, the scroll position and the number of the prompt must agree after any number of commands, also when the window is full", "anchors": ["sarwin/sarwin.go GetLine, prompt, promptlen, CmdPrintf, Layout", "saratoga/saratoga.go main"]}
{"id": "C122", "title": "Typing ahead at the command line (defect)", "statement": "The prompt is printed by a goroutine. Enter pressed again before it has arrived ends the program in a panic, unless the window is full: then the command is run twice for one prompt. What is typed before the prompt has arrived is not a command: Enter then ends the program in a panic, or does nothing once the window is full. With the cursor moved up to an earlier line every Enter runs that command again and no prompt follows.", "quantifier": "every session as in C121, every next command, every text typed ahead, every number of key presses", "why_tests_cant": "depends on the speed of typing against the scheduling of goroutines", "anchors": ["sarwin/sarwin.go GetLine, prompt, CmdPrintf, CursorUp"]}
{"id": "C123", "title": "Sending the contents of a file", "statement": "Sending a file hands to the socket, in order, one data frame for each run of as many bytes as a frame has room for, at that run's offset, and a last frame with what is left, perhaps nothing; together they carry the file exactly. The frames have the session, the flags asked for and no others; the last one, and no other, says it is the end of the data; every hundredth and the last ask for a status; they are stamped iff that is asked for. Each fits the MTU together with the largest IP header. Failed sends are reported and do not stop it; a failed read stops it with accessdenied. With an MTU smaller than the headers it panics; with one that leaves no room it sends empty frames forever.", "quantifier": "every file, every MTU, every list of valid flags, every session, every clock, every sequence of results of the socket and of reads", "why_tests_cant": "the number of frames and the boundary cases (multiples of the room, empty file) are unbounded", "anchors": ["client/client.go senddata", "sarwin/sarwin.go maxpaylen", "frames/data/data.go New"]}
{"id": "C124", "title": "A file sent and received is the same file", "statement": "If offsets are as wide as the size of the file requires (the width the client chooses is wide enough), every frame sent that arrives is decoded by the receiver to its bytes at its offset. In whatever order, and however often, frames arrive, the receiver's record of received bytes is the whole file iff each frame that is not empty has arrived at least once, and then the file written is the file sent.", "quantifier": "every file, every MTU, every list of valid flags, every loss, duplication and reordering of the frames", "why_tests_cant": "needs all interleavings of loss, duplication and reordering", "anchors": ["client/client.go senddata", "sarwin/sarwin.go filedescriptor", "frames/data/data.go Encode, Decode", "fileio/fileio.go FileWrite", "holes/holes.go"]}
{"id": "C125", "title": "How the end of the data is told (defect)", "statement": "Only the last frame says it is the end of the data. The receiver can decode that frame unless all of these hold: frames are stamped, offsets have 16 bits, and the size of the file is a multiple of the room in a frame. Then the frame has 26 bytes, which the decoder rejects as too short, and the end is never told.", "quantifier": "every file, every MTU, every list of valid flags", "why_tests_cant": "depends on the file size modulo the payload size together with two flags", "anchors": ["client/client.go senddata", "frames/data/data.go Decode"]}
{"id": "C126", "title": "Missing bytes are not sent again (defect)", "statement": "For a hole that is shorter than the room in a frame nothing is sent. For a longer one that does not begin at byte 0 the client panics. For a longer one from byte 0 it sends frames from the hole's end downwards, the first of them empty. A hole whose length is negative in 64-bit arithmetic, or above 2^48, makes it panic; one outside the file ends the put. The bytes at the beginning of a hole are never sent again, so no hole is ever filled.", "quantifier": "every hole, every file, every MTU, every list of valid flags", "why_tests_cant": "every hole length, start and MTU", "anchors": ["client/client.go readstatus"]}
{"id": "C127", "title": "How a put ends (defect)", "statement": "A put ends with the first message that is not success, whichever of the two tasks it comes from, and never with success. A put of which all is confirmed by the receiver ends with cantreceive, when no more status frames come. A put that is to remove its file never does.", "quantifier": "every interleaving of the messages of the two tasks; every number of confirmations", "why_tests_cant": "depends on the interleaving of two goroutines", "anchors": ["client/client.go cput, cputrm, readstatus"]}
{"id": "C128", "title": "What a datagram does to a put (defect)", "statement": "A datagram of fewer than four bytes makes the client panic; a frame of version 0 ends the put with badpacket; other versions and frames that are not status frames terminate the program. A status frame that cannot be decoded ends the put with badpacket. A status with an error ends it with that error; with an error code that has no name the program terminates. Any other status resends the metadata iff it says it was not received, tells the progress, tells success once if all is received, deals with its holes and tells success.", "quantifier": "every datagram, every state of the transfer", "why_tests_cant": "the datagrams come from the network and can be anything", "anchors": ["client/client.go readstatus", "sarflags/sarflags.go GetStr"]}
{"id": "C129", "title": "What starting a transfer from the client does (defect)", "statement": "Of the eight listed types of transfer, five are answered with undefined. A put hands over the request and then the metadata before any data; the first failure is reported and nothing follows, except that the client panics if the socket cannot be made. A blind put sends only the metadata, never any of the file, and reports success. A put that is to remove its file afterwards does exactly what a put does and removes nothing.", "quantifier": "every type of transfer, every answer of the system while the transfer is set up, every sequence of messages of its tasks", "why_tests_cant": "needs every failure point of the set-up and every outcome of the transfer", "anchors": ["client/client.go Doclient, cput, cputblind, cputrm", "sarwin/sarwin.go Ttypes"]}
{"id": "C130", "title": "The share of a disk in use, and disk usage on Windows (defect)", "statement": "The share of a file system in use is a number between 0 and 1 and within one part in four millions of the true share of blocks in use. If the system cannot be asked it is not a number and all sizes are 0. On Windows what is called free is what is available to the user and what is called available is what is free, so the bytes used are wrong exactly if the two differ.", "quantifier": "every size of block, every number of blocks, free blocks and available blocks whose sizes in bytes fit 64 bits", "why_tests_cant": "floating point rounding over all 64-bit sizes", "anchors": ["sarsys/sys_linux.go Usage, NewDiskUsage", "sarsys/sys_windows.go NewDiskUsage, Free, Available, Size, Used, Usage"]}
{"id": "C131", "title": "The text of a configuration is read as JSON", "statement": "A text is accepted exactly if it is JSON nested at most 10000 deep. No text has two readings, and how it is laid out or how its strings are escaped makes no difference. A lone half of a surrogate pair, or a byte that is not UTF-8, in a string is read as U+FFFD. An object gives a map in which the last of several members with one name counts, null gives an empty map, and any other text, and an object with a number too large for a float64, is an error.", "quantifier": "every text of any length; for the map, objects whose numbers are those of C151", "why_tests_cant": "all texts, including malformed ones", "anchors": ["sarflags/sarflags.go ReadConfig (json.Unmarshal)"]}
{"id": "C132", "title": "The shipped file itself gives the shipped settings", "statement": "The bytes of saratoga.json are the JSON text of the configuration all other properties about the shipped settings are about, with no name repeated. Laid out in any other way it gives the same settings and flag tables, whatever the order in which the members are visited, and the program started with it is the same. In any configuration, what is found under a name is what the last member of that name in the text says.", "quantifier": "every layout of the shipped file, every order of visiting, every host; every configuration text", "why_tests_cant": "all layouts and member orders", "anchors": ["saratoga/saratoga.json", "sarflags/sarflags.go ReadConfig", "saratoga/saratoga.go main"]}
{"id": "C133", "title": "What any text of flags says", "statement": "Any text of flags is read in one way: blanks are dropped, it is cut at its commas, and each item is a name alone or a name and the value up to a second equals sign. Asking for a flag gives the value of the first item of that name, or crashes if that item is a name alone. Replacing a flag does not drop blanks; the first item that is a name alone crashes the program, the first setting that does not exist ends it, otherwise the settings come back with the new value in place. Building any of the six kinds of frame or entry from a text does what building it from the plainly written settings does, and the first item at fault decides between an error, a crash and the end of the process; a name alone crashes the program where the name is a flag of the frame (for requests and beacons always), except that a status frame takes the name of a kind of timestamp alone.", "quantifier": "every text of any length, every flag table (for asking and replacing), every receiver and arguments of the constructors", "why_tests_cant": "all texts, including malformed ones: stray blanks, commas, missing values, further equals signs", "anchors": ["sarflags/sarflags.go FlagValue, ReplaceFlag, ReplaceFlagD", "data/data.go New", "status/status.go New", "request/request.go New", "beacon/beacon.go New", "metadata/metadata.go New", "dirent/dirent.go New"]}
{"id": "C134", "title": "Commands on the settings given at once do not disturb each other", "statement": "Every command line runs beside those before it. However the accesses of commands on the settings and of beacon commands are interleaved, whenever none of them is at work the settings are what the finished ones make of them one after the other, in the order in which they finished. They never end the program, and never block each other for good.", "quantifier": "every starting settings, every number and mix of such commands and of transfers being started, every interleaving of single accesses to the settings", "why_tests_cant": "every interleaving of memory accesses of any number of goroutines", "anchors": ["sarwin/sarwin.go cmdBcount, cmdChecksum, cmdDescriptor, cmdFreespace, cmdInterval, cmdReqtstamp, cmdRxwilling, cmdStream, cmdTimeout, cmdTimestamp, cmdTimezone, cmdTxwilling, cmdBeacon", "sarflags/sarflags.go Climu"]}
{"id": "C135", "title": "Starting a transfer while the settings are changed (defect)", "statement": "The settings are copied for a new transfer without the lock the commands hold. The program can die of it exactly if some command starts a transfer while some command sets a header flag. If it lives, each setting has in the copy a value it had at some moment, except that the IPv4 group is copied in place of the IPv6 group and the count of beacons is not copied. The copy as a whole may be one the settings never were: with the second of two commands given one after the other, but without the first.", "quantifier": "every starting settings, every set of commands and transfers, every order in which the map is visited, every interleaving of single accesses", "why_tests_cant": "every interleaving of memory accesses of any number of goroutines", "anchors": ["sarwin/sarwin.go NewInitiator", "sarflags/sarflags.go CopyCliflags, Climu"]}
{"id": "C136", "title": "What a command on the settings says", "statement": "Given alone, each of the twelve commands on the settings tells the present value of what it sets. After setting something, checksum, descriptor, freespace and timeout tell the new value and the others say nothing; a data counter of 0 is reported as the default. To words that are not understood every command answers with its usage as an error (bcount, checksum and interval with too much: twice; descriptor, freespace and reqtstamp with the word usage twice: defects). A 128 bit descriptor is declined in words, and switching off a timer that does not exist is passed over in silence (defect).", "quantifier": "every state of the settings, each of the twelve commands, every list of words", "why_tests_cant": "all settings and all words", "anchors": ["sarwin/sarwin.go cmdBcount, cmdChecksum, cmdDescriptor, cmdFreespace, cmdInterval, cmdReqtstamp, cmdRxwilling, cmdStream, cmdTimeout, cmdTimestamp, cmdTimezone, cmdTxwilling"]}
{"id": "C137", "title": "What '?' and the remaining commands say (ls and cancel do nothing: defect)", "statement": "Followed by '?', every command but cancel, help, ?, usage and ls shows its help and usage and does nothing else (quit those of exit; beacon also takes over the present settings). ls answers every use with its usage as an error, and cancel repeats its words and cancels nothing (defects). history and home say that they are not made yet. files, tran, exit and quit answer words they do not know, or too many, with their usage as an error.", "quantifier": "every state in which the settings are not locked, every command, every list of words", "why_tests_cant": "all states and texts", "anchors": ["sarwin/sarwin.go cmdCancel, cmdExit, cmdFiles, cmdHistory, cmdHome, cmdLs, cmdTran, cmdBeacon, Prhelp, Prusage"]}
{"id": "C138", "title": "What a command that starts a transfer says (defect)", "statement": "get, getdir, take, put, putblind, give and delete without an address and a file show their usage as an error; give says that there is no such command. If the address cannot be understood nothing is started; getdir, take, put, putblind and delete say so, give shows the usage of putblind, and get says nothing at all. If another transfer is in the way nothing is started, the reason is shown (the first transfer without a connection, the file that would be overwritten, or the same transfer under way), followed by help and usage; put says that there is no such command, and give that the address is invalid, though it is not. Otherwise the transfer goes on to be added, and when it has been added exactly this is said, with its kind, peer and file.", "quantifier": "every state of the transfers and files, every resolver, every list of words", "why_tests_cant": "all tables of transfers, addresses and words", "anchors": ["sarwin/sarwin.go cmdGet, cmdGetdir, cmdTake, cmdPut, cmdPutblind, cmdGive, cmdDelete, NewInitiator"]}
{"id": "C139", "title": "What ends the daemon", "statement": "As long as no datagram arrives that is among the exactly described lethal ones (those that cannot be decoded safely, C56, requests, metadata with an undefined checksum type), no socket fails and the user does not quit, the daemon lives, in every schedule. Each of the three does end it, in every reachable state, as soon as it is read or the main loop takes note.", "quantifier": "every history of datagrams, every schedule of the listeners and the main loop, all files", "why_tests_cant": "all schedules and datagrams", "anchors": ["saratoga/saratoga.go main, listen", "trans/trans.go AddRxTran"]}
{"id": "C140", "title": "What opening the file of a transfer does and reports", "statement": "Opening the file for get, take, put or give returns an error exactly if it returns no file, and then nothing has changed. What it returns is the file of that name in the sardir, at its start: for get and take to be written, and then it is there and empty and no other file has changed; for put and give to be read, and no file has changed. Opening for getdir makes the directory and makes it the working directory of the whole process (defect); with an error the working directory is unchanged. For delete nothing is opened, and every other kind, putblind among them, always fails (defect).", "quantifier": "every file system, working directory, sardir, name and kind of transfer", "why_tests_cant": "all file systems and names", "anchors": ["fileio/fileio.go FileOpen"]}
{"id": "C141", "title": "Decoding part of a larger buffer never uses what is behind it (timestamps: defect)", "statement": "A slice of Go may end before the memory it is part of. Decoding the first n bytes of any buffer as data, status, beacon, directory entry or metadata gives exactly what decoding a copy of those n bytes gives, whatever lies behind them; where the copy crashes the decoder the part is never taken for a good frame. Requests agree in every case. A slice that ends where its memory ends, as the listener and the client make them, is decoded as the list of its bytes. Get of a timestamp, given any slice that is not empty, reads its sixteen bytes from the memory behind the slice, wherever the slice ends (defect).", "quantifier": "every buffer, every n up to its length, every value of the receiver, each of the six kinds of frames and timestamps", "why_tests_cant": "all buffers, all lengths and all contents of the memory behind a slice", "anchors": ["data/data.go Decode", "status/status.go Decode", "beacon/beacon.go Decode", "request/request.go Decode", "dirent/dirent.go Decode", "metadata/metadata.go Decode", "timestamp/timestamp.go Get", "saratoga/saratoga.go listen"]}
{"id": "C142", "title": "Where the keyboard is while commands clear windows (defect)", "statement": "A clear command makes each window it clears the current one for a moment, from a goroutine of its own. A user who enters one line after the other and waits for each command to end keeps the keyboard in the command window, and every line is run. Ctrl-Space goes to the next window of command, messages, packets, errors, leaving out the packets unless Ctrl-P was pressed an odd number of times. In any history without Ctrl-Space the keyboard is in the command window or in a window that some line entered so far asked to clear. When a clear command has ended, its windows show at most what arrived after it was entered, and windows nobody asked to clear lose nothing. With two clear commands at once, whatever they ask for, there is a schedule after which nothing is at work and the keyboard is in a window of the first; from then on nothing typed arrives and Enter runs nothing, until Ctrl-Space is pressed, up to three times (defect).", "quantifier": "every list of lines, every two clear commands and each window, every interleaving of the commands with keys and arriving texts", "why_tests_cant": "all interleavings of the goroutines of any number of commands with all that is typed and printed", "anchors": ["sarwin/sarwin.go Clearwin", "sarwin/sarwin.go cmdClear", "sarwin/sarwin.go GetLine", "sarwin/sarwin.go Run", "sarwin/sarwin.go switchView", "sarwin/sarwin.go Layout"]}
{"id": "C143", "title": "No deadlock: every mutex that is locked is unlocked, whatever the goroutines do", "statement": "Any number of goroutines call, on any paths and in any order, the functions that use the program's six shared mutexes (peers, transfers, session numbers, received transfers, settings, windows). A mutex is unlocked only while it is locked, and by the goroutine inside it. Two goroutines are never inside the same mutex. Every function unlocks what it locked on each of its paths, and no goroutine holds a mutex while it waits forever for a channel. As long as some goroutine has not come to its end, or to the channel it waits for forever, one of them can move; from every state all of them can get there, and no mutex is locked then. A mutex is waited for inside another one only for a session number, while a transfer is added. A goroutine inside the mutex of the settings, such as a beacon command that sleeps between beacons, keeps nobody from getting any other mutex.", "quantifier": "every number of goroutines, every list of calls of each, every path through the functions, every schedule", "why_tests_cant": "all schedules of any number of goroutines", "anchors": ["beacon/beacon.go NewPeer", "sarwin/sarwin.go NewInitiator", "sarwin/sarwin.go NewResponder", "sarwin/sarwin.go Change", "sarwin/sarwin.go Remove", "sarwin/sarwin.go newsession", "sarwin/sarwin.go cmdBeacon", "sarwin/sarwin.go fprintf", "sarflags/sarflags.go ReadConfig", "sarflags/sarflags.go Climu", "trans/trans.go AddRxTran"]}
{"id": "C144", "title": "Why a frame is refused, and what a refused frame leaves behind", "statement": "Decoding a refused datagram names one of a fixed list of reasons, decided by its bytes alone: too short, a timestamp of local text, 128-bit fields, an empty payload behind a timestamp, a directory entry cut short. What was read before the reason was met stays in the receiver: nothing of a datagram that is too short, header, session and timestamp of one that is refused later; offset, payload, progress and holes are not taken over (except the offset in front of an empty payload). Building a frame from a list of flags names the first item that frame type does not take; describing a file names the file that is not what the flags say; encoding names the path, the size or the width that cannot be sent; and an instant that does not fit names the timestamp type.", "quantifier": "every receiver, every byte sequence, every list of flags, every file, every instant", "why_tests_cant": "The reason depends on every bit of the header, the length and the order of the checks; the texts must be right for all of them, and what remains in the receiver for all earlier contents.", "anchors": ["data/data.go: New, Decode, Encode", "status/status.go: New, Decode, Encode", "request/request.go: New, Decode", "beacon/beacon.go: New, Decode, Encode", "dirent/dirent.go: New, Decode, Encode", "metadata/metadata.go: statfile, New, Decode", "timestamp/timestamp.go: New, Now, Get"]}
{"id": "C145", "title": "Only the named header fields steer a decoder or an encoder; version, frame type and all else are just carried", "statement": "Two datagrams that differ only in their headers are decoded alike (same error, same panic, same contents, other than the stored header itself) as soon as the headers agree in these fields: descriptor and timestamp flag for data and status; the free-space flag and, when it is set, the free-space descriptor for a beacon; the checksum length for metadata; the descriptor for a directory entry; none for a request. In particular the first byte, with the version and the frame type, has no effect on any of the five decoders: a decoder called on a frame of another type does not notice. The same fields, and for metadata none at all, are the only ones the encoders use: otherwise the header is copied unchanged to the front of the bytes.", "quantifier": "All datagrams of any length, all old frame values decoded into, all headers, all frame contents encoded.", "why_tests_cant": "The headers are 32-bit values: a test tries some pairs of headers, the claim is about all pairs that agree in the named bits, for every body.", "anchors": ["data/data.go:Encode,Decode", "status/status.go:Encode,Decode", "request/request.go:Encode,Decode", "beacon/beacon.go:Encode,Decode", "metadata/metadata.go:Encode,Decode", "dirent/dirent.go:Encode,Decode"]}
{"id": "C146", "title": "Decoded, created and encoded frames share no memory with the buffers they were made from", "statement": "Decoding a data, request or metadata frame, or a status without holes so far, writes to no existing array; the frame's payload, authentication field, checksum or holes are in arrays of their own. Whatever is written later to the decoded buffer, or to any other array that existed before, the frame keeps its value. The same holds for the payload of a data frame, and for the holes of a status, created from the caller's slices. The bytes an encoder returns are in a new array as well: writing to them does not change the frame, nor do later writes to the frame's slices change them. In all of these the value is the one the function gives without regard to memory.", "quantifier": "every memory, every slice, every frame and all later writes to older arrays", "why_tests_cant": "all layouts of slices over arrays and all later writes", "anchors": ["data/data.go Decode", "data/data.go Encode", "data/data.go New", "request/request.go Decode", "request/request.go Encode", "metadata/metadata.go Decode", "metadata/metadata.go Encode", "status/status.go Decode", "status/status.go Encode", "status/status.go New"]}
{"id": "C147", "title": "Frames handed on by the listeners are not changed by datagrams that arrive later", "statement": "Each listener reads all its datagrams into one buffer. Nevertheless, after any sequence of datagrams at any of the listeners, every frame that was handed on holds what its own datagram said, exactly as if each datagram had come alone; and it goes on doing so whatever is written to the buffers. A listener gets a buffer of MTU + 40 bytes; it panics at its start exactly if the MTU is below -40.", "quantifier": "every sequence of datagrams, listeners, times and senders, every MTU", "why_tests_cant": "all sequences of datagrams", "anchors": ["saratoga/saratoga.go listen"]}
{"id": "C148", "title": "A copy of a request or status shares its authentication field or holes (defect)", "statement": "New on a request writes the new authentication field over the one the request has, as many bytes as both have: the rest of the old one stays, and every copy of the request changes in the same way (defect). Decoding into a status appends to its holes: if a status and a copy of it are decoded into one after the other, and their array has room for the first one's holes, then the second one's holes replace the first one's, position by position (defect); if it has no room both keep theirs.", "quantifier": "every memory, every request or status and its copies, every two frames", "why_tests_cant": "all capacities and lengths of slices and all frames", "anchors": ["request/request.go New", "status/status.go Decode"]}
{"id": "C149", "title": "What is read through an open file is what was written to that file, whatever else goes on", "statement": "After any history of opening, reading, writing, closing, removing and deleting, through any handles and names, the content of the file of a handle is what it was, changed by exactly the writes that succeeded through handles of the same file, and emptied by exactly the openings for receiving that gave another handle of it, in their order. Whether two handles are of one file never changes. A read gives the bytes at the position asked for whatever the handle was used for before; a write succeeds exactly through an open handle that was opened for receiving, below position 2^63, and is seen by all handles of that file and no others.", "quantifier": "every history of calls of the file operations, all handles, positions, buffers and file systems", "why_tests_cant": "all histories and all numbers of handles", "anchors": ["fileio/fileio.go FileOpen", "fileio/fileio.go FileRead", "fileio/fileio.go FileWrite", "fileio/fileio.go FileSeek", "fileio/fileio.go FileClose", "fileio/fileio.go FileRm", "fileio/fileio.go FileDelete"]}
{"id": "C150", "title": "Closing and removing open files (defect)", "statement": "A handle is open until FileClose or FileDelete is called on it; from then on every read, write and close through it reports an error, for ever. Closing succeeds exactly once. nil in place of a file is an error and changes nothing, but a read of fewer than 0 bytes panics. Removing the name of an open file leaves it readable and writable through its handles, and no later opening leads to it. FileDelete is FileClose followed by FileRm of a name that already has the directory in front: with an ordinary absolute directory it always reports an error and removes nothing, but closes the file (defect). Opening for receiving a file that is open empties it under the handle that has it open (defect).", "quantifier": "every history of calls, every handle, every name, all file systems", "why_tests_cant": "all histories of calls", "anchors": ["fileio/fileio.go FileClose", "fileio/fileio.go FileDelete", "fileio/fileio.go FileRm", "fileio/fileio.go FileOpen"]}
{"id": "C151", "title": "The numbers of a configuration", "statement": "A number in the configuration counts as the whole part of the float64 closest to it (ties to the even one), however it is written. So an integer up to 2^53 counts as itself, with or without a point or an exponent; a fraction is dropped, except that a number is rounded up when it lies within 2^-54 below 1, and correspondingly below larger integers; between -1 and 0 a number counts as 0. A number too large for a float64 anywhere in the text makes the configuration unreadable. Where a name is given several times, the last number counts.", "quantifier": "every number text with an exponent of at most five digits whose value is above -1 and below 2^63 or too large for a float64; every configuration text", "why_tests_cant": "all texts of numbers, including those next to the boundaries of rounding", "anchors": ["sarflags/sarflags.go ReadConfig (json.Unmarshal, int(value.(float64)))"]}
{"id": "C152", "title": "What New and Make accept as the contents of a frame (defect)", "statement": "New and Make of the five types of frame take any Go value for the contents of the frame and read its members by name. A data frame is made exactly if the value is a pointer to a structure with members Session and Offset of unsigned integer types and Payload of bytes, whatever the structure is called and whatever else it has; a status frame exactly if it has unsigned Session, Progress and Inrespto and Holes that is a list of structures with integers Start and End or anything empty that has a length; a request exactly if it has an unsigned Session and Auth of bytes, any member or none being taken for the file name (a member that is no text reads \"<its type Value>\", a missing one \"<invalid Value>\"); metadata exactly if it has an unsigned Session, with the same reading of the file name; a beacon if it is any structure, which must have an unsigned Freespace only if the flags or header ask for the free space. The frame is then the one the typed values give. Anything else (nil, a nil pointer, a structure that is not passed by pointer, the structure meant for another type of frame) ends the caller in a panic instead of an error (defect), unless the flags are refused before; no value at all can be given to Make of requests, and Make of metadata takes the type of Session for the file name. A session number of more than 32 bits is cut without an error.", "quantifier": "every value that can be passed (of any type, nested as deep as one likes), every flag text, every header, every frame that New or Make is called on, and every state of the clock, disk and files", "why_tests_cant": "the argument is of type interface{}: the compiler accepts every value of every type, and what happens depends on the names and kinds of members that package reflect finds in it at run time; tests pass the structure that is meant", "anchors": ["data/data.go: New, Make", "status/status.go: New, Make", "request/request.go: New, Make", "beacon/beacon.go: New, Make", "metadata/metadata.go: New, Make", "frames/frames.go: New, Make"]}
{"id": "C153", "title": "What the peers command shows while beacons arrive (defect)", "statement": "peers reads the table of peers member by member while the main loop changes it member by member, and neither waits for the other. However the two interleave: the command ends normally; it says 'No Peers' exactly when there was no peer at its first look; otherwise it shows a sorted table with one row for each peer known at a moment during the command, under columns of which the one for addresses fits the peers known a little earlier; the address and the time of creation in each row are right; every other cell holds something that the table said of this address when the command began or that a beacon from this address said meanwhile. If no beacon arrives it is the table of the peers. But the cells of a row need not come from the same beacon: while a single beacon changes an entry, every mixture of old and new free space, endpoint, descriptor and willingness can be shown, and a time of change whose seconds are new and whose nanoseconds are old, or the reverse; and the columns may be too narrow for a new endpoint, so that the lines do not align.", "quantifier": "every table of peers that beacons made, every history of beacons that arrives during the command, every interleaving of the reads and the writes, every choice of old and new members", "why_tests_cant": "the race is a matter of which of some twenty reads per row comes before which of ten writes per beacon; a test runs one of these interleavings, and nearly always the one in which nothing arrives", "anchors": ["sarwin/sarwin.go: cmdPeers, Run", "beacon/beacon.go: NewPeer, Peers", "timestamp/timestamp.go: New, Print", "saratoga/saratoga.go: main"]}
{"id": "C154", "title": "The names that the lists of flags give are those that can be set", "statement": "For the flags of headers, of directory entries and for the kinds of timestamp, whatever the tables of the configuration: the names that FlagD, FrameD and FrameT list are exactly those that GoodD, ValidD and GoodT accept; setting one of them succeeds whatever the header, setting any other name ends the process; Value gives the number of an option exactly when Valid accepts it and -1 otherwise; every name read back from an entry or a timestamp is one of the listed names. With the shipped configuration the lists are those of the protocol.", "quantifier": "every table of flags, every flag name, every option name, every header", "why_tests_cant": "the names are strings and the tables come from a file: that no other name is accepted is a statement about all strings", "anchors": ["sarflags/sarflags.go: Good, Valid, Value, Set, FlagD, FrameD, GoodD, ValidD, SetD, GetDStr, FrameT, GoodT, SetT, GetTStr"]}
{"id": "C155", "title": "Listing and finding transfers while others are removed (defect)", "statement": "The listing commands (files, tran, and the commands that start transfers, given alone) and the search of rmtran go through the table of transfers without its lock, while other commands start and remove transfers. While transfers are only started, a listing shows exactly the transfers of the kind that were there at its first look, and the search finds what it would find among them. 'tran' ends the program exactly if, when it comes to the transfer number i, the table has shrunk to i transfers or less; otherwise it shows as many transfers as there were at the start, each as found in its place. A single removal during a listing, at any moment between its first and its last look, ends the program (defect); before or after it is harmless. During a search it ends the program exactly if it comes after the look at the length and not after the last look at the last transfer. A listing of one kind can show a transfer of another kind, when the last transfer is removed and another is started between the two looks at it; nothing that was never in the place of one of the kind is shown.", "quantifier": "every table of transfers, every kind, address and session, every sequence of transfers started and removed before each look", "why_tests_cant": "the outcome depends on when another goroutine removes a transfer; a test sees one schedule, and a removal at the harmful moment needs a race", "anchors": ["sarwin/sarwin.go: Info, Match, Remove, NewInitiator, cmdFiles, cmdTran, cmdRmtran"]}
{"id": "C156", "title": "Reading and writing files when the system does less than it is asked to", "statement": "Whatever the system does with the single system calls (a part of the bytes, nothing, an error, a full disk): FileWrite leaves in the file exactly the first n bytes at the position, n being the number it returns, and nothing else is changed; there is no error only if n is all of them, and with an error something is missing. So writing the rest again behind the n bytes until there is no error leaves what one complete write leaves, and a receiver that counts the returned numbers as received ranges has in all these ranges the bytes that were sent. FileRead returns bytes that are in the file at the position, at least one and as many as the system gives, and an error exactly at the end of the file or when the system fails; so it may return fewer bytes than asked for without an error, and reading on behind them until there is an error gives the rest of the file from the position, or the beginning of it if a system call fails. A closed file, one opened only for reading and a position of 2^63 or more are refused and nothing is changed.", "quantifier": "every sequence of answers of the system, every content, position and buffer, every sequence of attempts", "why_tests_cant": "short reads and writes, device errors and a full disk do not occur in a test on a working machine, and there is no bound on where they can occur", "anchors": ["fileio/fileio.go: FileSeek, FileRead, FileWrite"]}
{"id": "C157", "title": "Two calls at once on one open file (defect)", "statement": "FileRead and FileWrite first seek and then read or write, two steps on the one offset of the open file, with no lock over both. When two goroutines use one open file at once, the outcomes are exactly these: one call after the other, each at its place; or both at the place that one of them asked for, the first of them there and the second right behind it, in either order. So two writes at once, both reporting success, can leave the bytes of both one behind the other and nothing of one of them at its place, overwriting what was not to be touched; and a read can return bytes from the other's place (defect). A call for a place that no file has (2^63 and more) is refused with an error, and the other call goes on as if it was not there.", "quantifier": "every open file and content, every two calls and every schedule of their steps", "why_tests_cant": "which of the outcomes comes about is the scheduler's choice; tests run one call at a time", "anchors": ["fileio/fileio.go: FileSeek, FileRead, FileWrite"]}
{"id": "C158", "title": "What rmtran removes when others start and remove transfers meanwhile (defect)", "statement": "rmtran first finds a transfer, without the lock, and gets a pointer into the array of the table; then it waits for the lock and removes what the pointer points to. In between others start and remove transfers. The pointer points to the transfer that was found as long as the table does not become so short that its place is free; then to the last transfer that was started into this place; and once the table has outgrown the array, for ever to what was there at that moment, whether or not the table still has it. If what it points to is in the table the last transfer of the table is removed and nothing is said, otherwise nothing is removed and there is an error. So if the transfer found is the last one, another command removes it and a new one is started, rmtran removes the new transfer although its session was not asked for (defect).", "quantifier": "every history of transfers started and removed before and in between, every place in the table, every way in which append enlarges a full array", "why_tests_cant": "depends on a race and on when append moves the table to a new array, which tests do not see", "anchors": ["sarwin/sarwin.go: Match, Remove, NewInitiator, cmdRmtran"]}
{"id": "C159", "title": "Checking a new transfer against the table while others start and remove transfers (defect)", "statement": "Before a transfer is started, a loop by range goes over the table without the lock. It sees exactly as many transfers as there were at its beginning, in each place the one of the beginning or one that was started into the place after the table had become shorter, and it never ends the program. The check decides by the first of these without a connection or, with a connection, for the same file and peer (or by the first, if a file would be overwritten). While others only start transfers, or only remove them, it decides by the table of its beginning: so the same file can be started to the same peer by two commands at once, and a transfer that is gone can still be in the way (defect).", "quantifier": "every history before and during the check, every schedule, every file name and peer, every way in which append enlarges a full array", "why_tests_cant": "depends on what other goroutines do between two rounds of the loop", "anchors": ["sarwin/sarwin.go: NewInitiator, Lookup, Remove"]}
{"id": "C160", "title": "A receiver that is killed at any moment, and started again (defect)", "statement": "A program opens a file to receive into with FileOpen and writes chunks of it with FileWrite, and is killed between any two system calls. If no write fails, the file then holds exactly the chunks up to some byte, in the order they were written; every such cut is possible. If writes can fail and the program goes on with the next chunk, it holds exactly a prefix of each chunk up to some chunk. No other file is touched. Bytes that were never received, in front of some that were, are zeros, as if zeros had been received, so the file does not tell what is missing. Started again with the same name the program opens the same file and empties it, whatever was received (defect); only if the file is also seen below the directory of transfers taken twice, as with \".\", it is refused. With an absolute directory that does not contain its own first name everything received is lost.", "quantifier": "every file system, every list of chunks at positions below 2^63, every number of bytes the system writes in each call, every failure, every moment of the kill", "why_tests_cant": "the moment of a crash and what the system does in each call are not under a test's control", "anchors": ["fileio/fileio.go: FileOpen, FileWrite, FileSeek, FileExists"]}
{"id": "C161", "title": "The time in a frame while the clock moves", "statement": "A data or status frame is built from a text of flags, some of which ask for the time, and the clock may move from one flag to the next. While the clock is between the years 2000 and 2105, the frame is exactly the one that is built when everything happens at the instant of the last flag that puts the time in (or at any instant, if none does), with the same errors. So the timestamp is one instant, with its seconds and nanoseconds, never parts of two, even if a later flag sets a local timestamp; without such a flag the time in the frame stays what it was.", "quantifier": "every clock, moving in any direction, between 2000 and 2105, every text of flags, every frame before, every session, offset, payload and gap list", "why_tests_cant": "when the clock moves between two calls of time.Now() is not under a test's control", "anchors": ["data/data.go: New", "status/status.go: New", "timestamp/timestamp.go: Now, New"]}
{"id": "C162", "title": "Sockets and files of removed transfers stay open until no more can be opened (defect)", "statement": "Starting a transfer opens a socket to the peer and the local file; removing a transfer closes neither. After any history of starting and removing transfers and sending beacons, from the start of the program and until the garbage collector runs, the number of open sockets is that of the transfers ever started with a connection plus those of beacons, and the number of open files is that of the transfers ever started with a file, whatever has been removed. With a garbage collector that closes what the program can no longer reach, at moments of its choice, the numbers lie between those of the transfers in the table and those of all transfers started, and a full collection reaches the lower one. Once the sockets that the system allows are open, no transfer started later gets a connection, however many others are removed, until the garbage collector runs: one start gives a transfer without a connection, and the start after it is refused.", "quantifier": "all histories of starting and removing transfers, sending and ending beacons and collecting, with all files, peers, settings and answers of the system; all limits on the number of sockets", "why_tests_cant": "The number of descriptors left is only visible after long histories and depends on when the garbage collector runs; a test starts and removes a few transfers.", "anchors": ["sarwin/sarwin.go: NewInitiator", "sarwin/sarwin.go: Remove", "sarwin/sarwin.go: sendbeacons"]}
{"id": "C163", "title": "A file received without an error may be lost in part when the power fails (defect)", "statement": "FileWrite and FileClose leave it to the system when a file goes to the disk. If the power fails while chunks are written to a file, or at any time after all of them were written without an error and the file was closed, the file on the disk is at least as long as it was before and no longer than it was at some moment of receiving, and each of its bytes is one that the file had there at some moment, or a zero behind its former end. Nothing more holds: for any choice among the chunks, the disk may hold exactly the chosen ones and none of the others, later ones without earlier ones, although every call succeeded. If the whole file is written back after the last call then it is on the disk as received.", "quantifier": "all chunks written to all files of any content, all ways in which the system does the calls, all orders and moments in which bytes are written back, all moments at which the power fails", "why_tests_cant": "A test cannot switch off the machine between any two writes to the disk.", "anchors": ["fileio/fileio.go: FileWrite", "fileio/fileio.go: FileClose", "fileio/fileio.go: FileOpen"]}
{"id": "C164", "title": "A transfer that is started while the timestamp type is changed can use a type that nobody ever set (defect)", "statement": "The `timestamp` command assigns the timestamp type under a lock, but starting a transfer copies the settings without it, and a Go string is two words. For any commands and any schedule of the single accesses, the type that the transfer takes is the bytes at the place of one type that was set, with the length of another; which pairs can occur depends only on the order in which the two words are accessed, and exactly those pairs do occur. A shorter length gives the first bytes of a type, a longer one the type followed by whatever the memory has behind it. If all the types are of one length, the transfer takes one that was set. In every order of the accesses, one change between 32-bit seconds and 64-bit seconds with nanoseconds can make a transfer use 64-bit seconds, which nobody chose.", "quantifier": "all contents of memory and places of the strings, first types, sequences of timestamp commands, orders in which the two words are written and read, and schedules", "why_tests_cant": "the torn read needs one particular interleaving of single memory accesses, which a test cannot arrange", "anchors": ["sarwin/sarwin.go:cmdTimestamp", "sarflags/sarflags.go:CopyCliflags", "sarwin/sarwin.go:NewInitiator"]}
{"id": "C165", "title": "Starting a transfer while another one is started can read beyond the end of the table of transfers (defect)", "statement": "Before it takes the lock of the table, starting a transfer goes over the table to look for duplicates. The table is a slice, which for the machine is several words, and the loop reads where the array is and how long the table is one after the other. For any starts and removals and any schedule of the single accesses, the loop goes over the array of one of the tables with the length of another; which pairs occur depends only on the order of the accesses, and exactly those pairs do occur. Written array first and read length first, the loop never leaves its array; nor does it in any order while transfers are only removed. In each of the three other orders, if the table fills its array (as it does before the very first transfer) and one transfer is started, the loop may go over one element more than the array has.", "quantifier": "all growths of arrays, histories of starts and removals before and during the loop, orders in which the two words are written and read, and schedules", "why_tests_cant": "the torn read needs one particular interleaving of single memory accesses, and depends on the order the compiler chooses", "anchors": ["sarwin/sarwin.go:NewInitiator", "sarwin/sarwin.go:Remove", "sarwin/sarwin.go:Transfers"]}
