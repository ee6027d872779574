{
 "claims": [
  {
   "property": "C01",
   "status": "proved",
   "theorems": [
    "C01_get_is_field",
    "C01_shipped_positions"
   ],
   "note": "Statements in rocq/theories/PropsFlags.v. C01_get_is_field: reading a flag returns the bits of its field and depends on nothing else of the header; C01_shipped_positions: with the shipped tables every flag is where the protocol puts it."
  },
  {
   "property": "C02",
   "status": "proved",
   "theorems": [
    "C02_set_spec",
    "C02_set_unknown",
    "C02_test_spec"
   ],
   "note": "Statements in rocq/theories/PropsFlags.v. C02_set_spec: setting a flag to one of its options replaces exactly its field; it reads back, is idempotent, and flags with other bits keep their value; C02_set_unknown: setting an unknown flag or option terminates the process; no header results; C02_test_spec: Test compares the field with the option; an unknown name terminates the process."
  },
  {
   "property": "C03",
   "status": "proved",
   "theorems": [
    "C03_setflags_order",
    "C03_setflags_result"
   ],
   "note": "Statements in rocq/theories/PropsFlags.v. C03_setflags_order: setting distinct flags of a frame type gives the same outcome in every order (the shipped tables); C03_setflags_result: and the result has exactly those settings, every other bit unchanged."
  },
  {
   "property": "C04",
   "status": "proved",
   "theorems": [
    "C04_getstr_spec",
    "C04_getstr_unknown"
   ],
   "note": "Statements in rocq/theories/PropsFlags.v. C04_getstr_spec: the name of a field's value: the option with that value, the process terminates exactly when there is none, and the order of the map is irrelevant; C04_getstr_unknown: reading a flag the table does not have terminates the process."
  },
  {
   "property": "C05",
   "status": "proved",
   "theorems": [
    "C05_dirent_flags",
    "C05_timestamp_type"
   ],
   "note": "Statements in rocq/theories/PropsFlags.v. C05_dirent_flags: the same laws for the 16-bit directory entry flags; C05_timestamp_type: and for the 8-bit timestamp type."
  },
  {
   "property": "C06",
   "status": "proved",
   "theorems": [
    "C06_readconfig_order",
    "C06_shipped_loads",
    "C06_shipped_consistent"
   ],
   "note": "Statements in rocq/theories/PropsFlags.v. C06_readconfig_order: reading a configuration does not depend on the order of its top-level entries; C06_shipped_loads: the shipped file loads, in every order, without error; C06_shipped_consistent: the shipped tables are consistent and the defaults valid."
  },
  {
   "property": "C07",
   "status": "proved",
   "theorems": [
    "C07_invalid_default_rejected"
   ],
   "note": "Statements in rocq/theories/PropsFlags.v. C07_invalid_default_rejected: a configuration is rejected exactly when a default flag is invalid."
  },
  {
   "property": "C08",
   "status": "proved",
   "theorems": [
    "C08_flag_strings",
    "C08_flag_strings_invalid",
    "C08_dirent_flag_strings",
    "C08_replace_in_empty_list_panics"
   ],
   "note": "Statements in rocq/theories/PropsFlags.v. C08_flag_strings: replacing and adding in a flag list act as on a map; C08_flag_strings_invalid: an invalid setting terminates the process; C08_dirent_flag_strings: the same for directory entry flag lists; C08_replace_in_empty_list_panics: replacing in the empty flag list panics (defect)."
  },
  {
   "property": "C09",
   "status": "proved",
   "theorems": [
    "C09_setglobal",
    "C09_setglobal_order"
   ],
   "note": "Statements in rocq/theories/PropsFlags.v. C09_setglobal: the flag string of a frame type lists exactly the global flags that apply to it; C09_setglobal_order: and does not depend on the iteration order of the global flags."
  },
  {
   "property": "C10",
   "status": "proved",
   "theorems": [
    "C10_copy_cliflags",
    "C10_copy_faithful_iff"
   ],
   "note": "Statements in rocq/theories/PropsFlags.v. C10_copy_cliflags: what the copy of the CLI settings is: everything equal but the IPv6 group and the beacon count; C10_copy_faithful_iff: so the copy is faithful only for equal groups and no beacon count. The code does not do what one would expect here: the theorems prove what it does instead."
  },
  {
   "property": "C11",
   "status": "proved",
   "theorems": [
    "C11_put_layout",
    "C11_roundtrip"
   ],
   "note": "Statements in rocq/theories/PropsTime.v. C11_put_layout: a numeric timestamp is sent as type byte, seconds, nanoseconds, zeros; C11_roundtrip: a numeric timestamp whose values fit is read back unchanged."
  },
  {
   "property": "C12",
   "status": "proved",
   "theorems": [
    "C12_posix32",
    "C12_posix64",
    "C12_posix32_32",
    "C12_posix64_32",
    "C12_epoch2000",
    "C12_unknown_type",
    "C12_far_future_wraps"
   ],
   "note": "Statements in rocq/theories/PropsTime.v. C12_posix32: posix32: seconds since 1970 stored exactly when they fit 32 bits, otherwise an error; C12_posix64: posix64: seconds since 1970 stored as 64 bits; there is no error; C12_posix32_32: posix32_32, for every time whose nanoseconds since 1970 fit 64 bits (1678 to 2262), outside the last second before 1970; C12_posix64_32: posix64_32, for every such time from 1970 on; no error; C12_epoch2000: epoch2000_32: seconds since 2000-01-01 when they fit 32 bits, otherwise an error; C12_unknown_type: an unknown type name terminates the process; C12_far_future_wraps: beyond 2262 the 64-bit nanosecond counter wraps, so a time 2^64 ns later is stamped as the earlier one, without error (defect)."
  },
  {
   "property": "C13",
   "status": "proved",
   "theorems": [
    "C13_localinterp",
    "C13_any_local"
   ],
   "note": "Statements in rocq/theories/PropsTime.v. C13_localinterp: a local-interpretation timestamp is built (keeping whatever time the receiver held) and sent, but never read; C13_any_local: whatever the local text, a type 0 timestamp encodes and is rejected on decoding. The code does not do what one would expect here: the theorems prove what it does instead."
  },
  {
   "property": "C14",
   "status": "proved",
   "theorems": [
    "C14_get_spec",
    "C14_get_exactly_when"
   ],
   "note": "Statements in rocq/theories/PropsTime.v. C14_get_spec: decoding sixteen bytes: the numbers of the layout for types 1..5, an error for type 0, the end of the process for all others; C14_get_exactly_when: when it succeeds, fails, and kills."
  },
  {
   "property": "C15",
   "status": "proved",
   "theorems": [
    "C15_pre1970"
   ],
   "note": "Statements in rocq/theories/PropsTime.v. C15_pre1970: in the last second before 1970, posix32_32 stores a nanosecond count that does not fit and is not what is read back; posix64_32 reports an error. The code does not do what one would expect here: the theorems prove what it does instead."
  },
  {
   "property": "C16",
   "status": "proved",
   "theorems": [
    "C16_covers_received",
    "C16_run_exists",
    "C16_add"
   ],
   "note": "Statements in rocq/theories/PropsHoles.v. C16_covers_received: after any sequence of Adds a position is recorded iff a range contained it; C16_run_exists: every sequence of Adds has a result: no call fails or loops; C16_add: one Add, from any record that Adds can produce."
  },
  {
   "property": "C17",
   "status": "proved",
   "theorems": [
    "C17_canonical",
    "C17_unique_minimal"
   ],
   "note": "Statements in rocq/theories/PropsHoles.v. C17_canonical: the record is canonical; C17_unique_minimal: and is the only canonical list for the bytes received, and the shortest list of ranges that covers them."
  },
  {
   "property": "C18",
   "status": "proved",
   "theorems": [
    "C18_same_bytes_same_record",
    "C18_order_and_duplicates"
   ],
   "note": "Statements in rocq/theories/PropsHoles.v. C18_same_bytes_same_record: two histories that received the same bytes have the same record, whatever the order, the duplicates, the splitting into ranges and the sort's choices; C18_order_and_duplicates: in particular for a permutation with duplicates."
  },
  {
   "property": "C19",
   "status": "proved",
   "theorems": [
    "C19_holes_exact",
    "C19_negative_start"
   ],
   "note": "Statements in rocq/theories/PropsHoles.v. C19_holes_exact: the holes reported are exactly the missing positions before the end, in canonical form; C19_negative_start: a range that starts below zero makes the first reported hole end before it starts (defect; offsets of 2^63 and above become such ranges)."
  },
  {
   "property": "C20",
   "status": "proved",
   "theorems": [
    "C20_complete",
    "C20_no_holes"
   ],
   "note": "Statements in rocq/theories/PropsHoles.v. C20_complete: complete exactly when the record is the one range, and then no holes; C20_no_holes: no holes means that everything up to the end has been received."
  },
  {
   "property": "C21",
   "status": "proved",
   "theorems": [
    "C21_terminates"
   ],
   "note": "Statements in rocq/theories/PropsHoles.v. C21_terminates: consolidation terminates on every list: a recursion depth above the length always suffices, more makes no difference, and the list never grows."
  },
  {
   "property": "C22",
   "status": "proved",
   "theorems": [
    "C22_refines",
    "C22_full_array",
    "C22_earlier_copy_changes",
    "C22_earlier_copy"
   ],
   "note": "Statements in rocq/theories/PropsHoles.v. C22_refines: with backing arrays Add does to the record what the list model says, and leaves arrays of other records alone; C22_full_array: without spare capacity every earlier copy is unchanged; C22_earlier_copy_changes: with spare capacity, a range added before the others and apart from them shifts what the earlier copy of the record shows: its first entry becomes the new range and its last entry is lost; C22_earlier_copy: more generally, when nothing merges the earlier copy shows the first entries of the new record. The code does not do what one would expect here: the theorems prove what it does instead."
  },
  {
   "property": "C23",
   "status": "proved",
   "theorems": [
    "C23_encode"
   ],
   "note": "Statements in rocq/theories/PropsData.v. C23_encode: what encoding a data frame gives, for every frame: the documented bytes; an error for the 128-bit descriptor; the process terminates for a timestamp of a type that does not exist. It never panics."
  },
  {
   "property": "C24",
   "status": "proved",
   "theorems": [
    "C24_roundtrip"
   ],
   "note": "Statements in rocq/theories/PropsData.v. C24_roundtrip: decoding an encoded data frame. The receiver [d0] is arbitrary; without a timestamp it keeps the timestamp it had."
  },
  {
   "property": "C25",
   "status": "proved",
   "theorems": [
    "C25_verdict",
    "C25_panics_iff",
    "C25_fatal_iff",
    "C25_value"
   ],
   "note": "Statements in rocq/theories/PropsData.v. C25_verdict: the verdict on arbitrary bytes, whatever the receiver holds; C25_panics_iff: it panics exactly when the announced timestamp, or after a readable timestamp the announced offset, is cut short; C25_fatal_iff: it terminates the process exactly when a complete timestamp of an unknown type is announced; C25_value: what an accepted frame decodes to."
  },
  {
   "property": "C26",
   "status": "proved",
   "theorems": [
    "C26_verdict",
    "C26_result",
    "C26_empty",
    "C26_make"
   ],
   "note": "Statements in rocq/theories/PropsData.v. C26_verdict: what becomes of a construction: the first item that is not acceptable decides; C26_result: an accepted construction: version 1, data frame, exactly the requested flags (the last setting of a flag counts), the caller's values, and the time stamped iff a timestamp is requested. The transfer flag leaves no trace; C26_empty: an empty flag string is refused; C26_make: the header-based constructor keeps every flag of the given header except version and frame type, and stamps the time iff the header asks for it."
  },
  {
   "property": "C27",
   "status": "proved",
   "theorems": [
    "C27_encode"
   ],
   "note": "Statements in rocq/theories/PropsStatus.v. C27_encode: what encoding a status frame gives when no timestamp is requested."
  },
  {
   "property": "C28",
   "status": "proved",
   "theorems": [
    "C28_roundtrip"
   ],
   "note": "Statements in rocq/theories/PropsStatus.v. C28_roundtrip: decoding an encoded status frame without timestamp. The receiver is arbitrary: its timestamp stays and its holes come first."
  },
  {
   "property": "C29",
   "status": "proved",
   "theorems": [
    "C29_encode",
    "C29_never_survives"
   ],
   "note": "Statements in rocq/theories/PropsStatus.v. C29_encode: a requested timestamp is not written: the fields follow the session directly and sixteen zero bytes trail; C29_never_survives: decoding such a frame into a fresh receiver never gives back the progress, in-response-to and holes that were encoded. The code does not do what one would expect here: the theorems prove what it does instead."
  },
  {
   "property": "C30",
   "status": "proved",
   "theorems": [
    "C30_verdict",
    "C30_panics_iff",
    "C30_fatal_iff"
   ],
   "note": "Statements in rocq/theories/PropsStatus.v. C30_verdict: the verdict on arbitrary bytes; C30_panics_iff: it panics exactly when the announced timestamp, or after a readable timestamp the progress and in-response-to fields, are cut short; C30_fatal_iff: it terminates the process exactly for a complete timestamp of an unknown type."
  },
  {
   "property": "C31",
   "status": "proved",
   "theorems": [
    "C31_value",
    "C31_count"
   ],
   "note": "Statements in rocq/theories/PropsStatus.v. C31_value: what an accepted frame decodes to: the holes of the frame are appended to those of the receiver; a trailing partial pair is ignored; C31_count: the number of holes added."
  },
  {
   "property": "C32",
   "status": "proved",
   "theorems": [
    "C32_encode"
   ],
   "note": "Statements in rocq/theories/PropsRequest.v. C32_encode: encoding a request gives header, session, name, zero byte and authentication bytes, for every request."
  },
  {
   "property": "C33",
   "status": "proved",
   "theorems": [
    "C33_roundtrip"
   ],
   "note": "Statements in rocq/theories/PropsRequest.v. C33_roundtrip: a request with an ASCII name survives, into any receiver with an empty name."
  },
  {
   "property": "C34",
   "status": "proved",
   "theorems": [
    "C34_non_ascii",
    "C34_never_survives"
   ],
   "note": "Statements in rocq/theories/PropsRequest.v. C34_non_ascii: with bytes of 0x80 and above in the name (and no zero byte) the frame either panics the decoder, exactly when there are more of them than authentication bytes, or comes out with a longer name and that many authentication bytes cut off; C34_never_survives: so a name with such a byte is never received as it was sent. The code does not do what one would expect here: the theorems prove what it does instead."
  },
  {
   "property": "C35",
   "status": "proved",
   "theorems": [
    "C35_verdict",
    "C35_panics_iff"
   ],
   "note": "Statements in rocq/theories/PropsRequest.v. C35_verdict: the verdict on arbitrary bytes, for a receiver that holds any name; C35_panics_iff: for a fresh receiver: a panic exactly for a name without terminator or with more bytes of 0x80 and above than bytes follow the terminator; the process is never terminated."
  },
  {
   "property": "C36",
   "status": "proved",
   "theorems": [
    "C36_concatenates",
    "C36_reused"
   ],
   "note": "Statements in rocq/theories/PropsRequest.v. C36_concatenates: decoding into a receiver that already holds a name: the new name is appended to the old one, and the old length is cut from the authentication bytes; C36_reused: hence a reused receiver never holds the name that the frame carries unless the old name was empty. The code does not do what one would expect here: the theorems prove what it does instead."
  },
  {
   "property": "C37",
   "status": "proved",
   "theorems": [
    "C37_auth_lost",
    "C37_make_panics"
   ],
   "note": "Statements in rocq/theories/PropsRequest.v. C37_auth_lost: whatever the flags, a request built on a receiver without authentication bytes has none, whatever authentication bytes the caller supplies; C37_make_panics: the header-based constructor panics, whatever it is given. The code does not do what one would expect here: the theorems prove what it does instead."
  },
  {
   "property": "C38",
   "status": "proved",
   "theorems": [
    "C38_make",
    "C38_new",
    "C38_width",
    "C38_refused"
   ],
   "note": "Statements in rocq/theories/PropsBeacon.v. C38_make: building a beacon from a header: every flag of the header is kept, and the width of the free space is chosen from its value; C38_new: building a beacon from a flag list, all items acceptable: exactly the requested flags, with the width of the free space chosen from its value; C38_width: the chosen width holds the value, and every narrower width either does not, or holds it only as its largest number; C38_refused: only the largest 64-bit number has no width."
  },
  {
   "property": "C39",
   "status": "proved",
   "theorems": [
    "C39_encode",
    "C39_roundtrip",
    "C39_built"
   ],
   "note": "Statements in rocq/theories/PropsBeacon.v. C39_encode: what encoding a beacon gives, for every beacon; C39_roundtrip: a beacon whose free space fits the announced width survives, whatever the receiver held before; C39_built: every beacon that the constructors build survives the wire; its free space is never truncated."
  },
  {
   "property": "C40",
   "status": "proved",
   "theorems": [
    "C40_verdict",
    "C40_iff",
    "C40_value"
   ],
   "note": "Statements in rocq/theories/PropsBeacon.v. C40_verdict: the verdict on arbitrary bytes, whatever the receiver holds; C40_iff: a panic exactly when the bytes are shorter than the header, or than the announced free space field; an error exactly for 128 bits; never process exit; C40_value: what an accepted beacon decodes to."
  },
  {
   "property": "C41",
   "status": "proved",
   "theorems": [
    "C41_one_call",
    "C41_no_sender",
    "C41_history"
   ],
   "note": "Statements in rocq/theories/PropsPeers.v. C41_one_call: one call: the sender's entry is changed in place, or added at the end; all other entries stay as they are and where they are; C41_no_sender: a call without a sender does nothing; C41_history: after any history, starting from an empty table: one entry for every address heard from and no other; the entry shows the latest beacon of the address, was created at the time of the first, and updated at the time of the latest that said something new; every call reported exactly the news."
  },
  {
   "property": "C42",
   "status": "proved",
   "theorems": [
    "C42_count",
    "C42_two_callers"
   ],
   "note": "Statements in rocq/theories/PropsPeers.v. C42_count: in every schedule of any number of concurrent calls, the entries of an address are those that were there plus one for every call that did not find the address when it looked; C42_two_callers: two calls for an address that is not in the table, in every one of their interleavings: two entries exactly when both calls look before either one adds; otherwise one. The code does not do what one would expect here: the theorems prove what it does instead."
  },
  {
   "property": "C43",
   "status": "proved",
   "theorems": [
    "C43_any",
    "C43_roundtrip"
   ],
   "note": "Statements in rocq/theories/PropsDirent.v. C43_any: any encodable entry comes back, with the times as seconds since 2000 and the path up to its first zero byte, bytes of 0x80 and above becoming two; C43_roundtrip: an encodable entry with an ASCII path and times in seconds since 2000 (as the constructors make them) survives unchanged, into any receiver."
  },
  {
   "property": "C44",
   "status": "proved",
   "theorems": [
    "C44_encode",
    "C44_iff",
    "C44_4gib"
   ],
   "note": "Statements in rocq/theories/PropsDirent.v. C44_encode: what encoding a directory entry gives, for every entry: the documented bytes, or an error; C44_iff: it encodes exactly when the descriptor is d16, d32 or d64, the path has at most 1024 bytes, and the size is below 2^16 for d16 and below 2^32 for both d32 and d64; everything else is an error, never a panic or an exit; C44_4gib: a size of 4 GiB or more is refused with every descriptor."
  },
  {
   "property": "C45",
   "status": "proved",
   "theorems": [
    "C45_verdict",
    "C45_iff",
    "C45_value"
   ],
   "note": "Statements in rocq/theories/PropsDirent.v. C45_verdict: the verdict on arbitrary bytes, whatever the receiver holds; C45_iff: it panics exactly when there are at least 12 bytes but fewer than header, announced size and two times; it never terminates the process; it returns an error exactly for fewer than 12 bytes or a 128-bit descriptor; C45_value: what accepted bytes decode to."
  },
  {
   "property": "C46",
   "status": "proved",
   "theorems": [
    "C46_roundtrip"
   ],
   "note": "Statements in rocq/theories/PropsMetadata.v. C46_roundtrip: a metadata frame comes back exactly, into any receiver, when its checksum has the announced length and its entry can be encoded (times in seconds since 2000, ASCII path, as the constructors make them)."
  },
  {
   "property": "C47",
   "status": "proved",
   "theorems": [
    "C47_silent",
    "C47_rejected",
    "C47_4gib"
   ],
   "note": "Statements in rocq/theories/PropsMetadata.v. C47_silent: encoding metadata never fails, even if the entry cannot be encoded; the frame then ends after the checksum; C47_rejected: and no receiver accepts it, when the checksum has the announced length; in particular metadata of a file of 4 GiB or more cannot be received. The code does not do what one would expect here: the theorems prove what it does instead."
  },
  {
   "property": "C48",
   "status": "proved",
   "theorems": [
    "C48_verdict",
    "C48_iff",
    "C48_value"
   ],
   "note": "Statements in rocq/theories/PropsMetadata.v. C48_verdict: the verdict on arbitrary bytes; C48_iff: it panics exactly when the announced checksum does not fit the bytes, or the rest has at least 12 bytes but is shorter than its own announced size and two times; it never terminates the process; C48_value: what accepted bytes decode to."
  },
  {
   "property": "C49",
   "status": "proved",
   "theorems": [
    "C49_times"
   ],
   "note": "Statements in rocq/theories/PropsMetadata.v. C49_times: metadata built for a file or directory, with whatever flags, has the file's change time in both time fields (the modification time is lost). The code does not do what one would expect here: the theorems prove what it does instead."
  },
  {
   "property": "C50",
   "status": "proved",
   "theorems": [
    "C50_read",
    "C50_write",
    "C50_refused"
   ],
   "note": "Statements in rocq/theories/PropsFileio.v. C50_read: reading returns the bytes of the file from the position on, at most as many as asked for; at or behind the end it is an error; C50_write: writing changes exactly the bytes written (a gap becomes zeros), in that file only, and the bytes read back; C50_refused: positions of 2^63 and above are refused, and so is a file that is not open or only open for reading."
  },
  {
   "property": "C51",
   "status": "proved",
   "theorems": [
    "C51_positions",
    "C51_complete",
    "C51_end_to_end"
   ],
   "note": "Statements in rocq/theories/PropsFileio.v. C51_positions: any chunks of a source, in any order and with any duplication, written to a file: every write succeeds, every received position holds the source's byte, every other position what it held before (zero if the file did not reach that far), and other files are unchanged; C51_complete: when the record of received ranges is the single range [0, n), the first n bytes of the file are those of the source; if n is the length of the source and the file was empty, the file is the source; C51_end_to_end: end to end. The sender encodes data frames with the bytes of the source. The network delivers any sequence of them: lost, repeated, reordered. The receiver decodes each datagram, writes it to a new file and records the range. When the record says [0, length) the file equals the source."
  },
  {
   "property": "C52",
   "status": "proved",
   "theorems": [
    "C52_get_destroys",
    "C52_doubled",
    "C52_ordinary",
    "C52_never_put"
   ],
   "note": "Statements in rocq/theories/PropsFileio.v. C52_get_destroys: a get of a name that is an existing file, when nothing exists at the doubled path: it succeeds and the file's content is gone; C52_doubled: the only thing that protects files is something at the doubled path: then every get is refused, and without it every put is; C52_ordinary: with an ordinary absolute sardir /c1/.../ck that has nothing called c1 inside, the doubled path never exists, whatever the name; C52_never_put: so no local file can ever be sent. The code does not do what one would expect here: the theorems prove what it does instead."
  },
  {
   "property": "C53",
   "status": "proved",
   "theorems": [
    "C53_escape",
    "C53_confined"
   ],
   "note": "Statements in rocq/theories/PropsFileio.v. C53_escape: whatever the sardir, any file, and any empty directory but the root, can be named for deletion; C53_confined: without parent components in the name, deletion touches nothing outside the sardir. The code does not do what one would expect here: the theorems prove what it does instead."
  },
  {
   "property": "C54",
   "status": "proved",
   "theorems": [
    "C54_result",
    "C54_length",
    "C54_never",
    "C54_no_metadata"
   ],
   "note": "Statements in rocq/theories/PropsFileio.v. C54_result: when a checksum can be had: the type is none, or it is one of the three hashes of the bytes of sardir/name, of the announced length; C54_length: a checksum has four times as many bytes as the length that the header announces for its type; C54_never: with an ordinary absolute sardir no file has a checksum, of any type, and therefore metadata of a file or directory can never be built. The code does not do what one would expect here: the theorems prove what it does instead."
  },
  {
   "property": "C55",
   "status": "proved",
   "theorems": [
    "C55_whole",
    "C55_others"
   ],
   "note": "Statements in rocq/theories/PropsListen.v. C55_whole: a frame that is handed on is the one held by the whole datagram, which has at least 8 bytes and at most 60 less than the MTU; it comes with the sender's address; C55_others: every other datagram is dropped, whatever it holds."
  },
  {
   "property": "C56",
   "status": "proved",
   "theorems": [
    "C56_fate",
    "C56_answers",
    "C56_dies_iff"
   ],
   "note": "Statements in rocq/theories/PropsListen.v. C56_fate: what becomes of each datagram; C56_answers: the error status that answers a version 0 frame, and the one that answers a metadata, data or status frame that does not decode; C56_dies_iff: the process dies exactly for these datagrams. The code does not do what one would expect here: the theorems prove what it does instead."
  },
  {
   "property": "C57",
   "status": "proved",
   "theorems": [
    "C57_never",
    "C57_taken",
    "C57_handler",
    "C57_end_to_end"
   ],
   "note": "Statements in rocq/theories/PropsDaemon.v, PropsTrans.v. C57_never: in no run has a request been handled while the daemon lives; no transfer is ever recorded, and main never sends an answer; C57_taken: main taking a request is the end of the process, in every state; C57_handler: handling a received request always terminates the process, whatever the request asks and whatever files exist; C57_end_to_end: every version 1 request with an ASCII name, encoded and sent as one datagram that fits, is handed on by the listener, and main terminates the process when it takes it. The code does not do what one would expect here: the theorems prove what it does instead."
  },
  {
   "property": "C58",
   "status": "proved",
   "theorems": [
    "C58_main",
    "C58_table",
    "C58_accepted_dies",
    "C58_deletes_only"
   ],
   "note": "Statements in rocq/theories/PropsDaemon.v, PropsTrans.v. C58_main: were requests read as intended, this is what main taking one would change; C58_table: were the request type read from the flag that holds it, this is what would happen, for every request and file system; C58_accepted_dies: even then, with the timestamp type name that the code uses, every request that would be taken on terminates the process; C58_deletes_only: a deletion that succeeds removes the named file or empty directory and nothing else."
  },
  {
   "property": "C59",
   "status": "proved",
   "theorems": [
    "C59_blocked",
    "C59_listeners",
    "C59_every_answer"
   ],
   "note": "Statements in rocq/theories/PropsDaemon.v. C59_blocked: once main has begun to send an answer itself it never comes back, whatever the handler of requests does and whatever happens: it handles no more frames, shows none, and takes no notice of the user quitting; C59_listeners: each listener then gets no further than the next datagram that is not dropped; C59_every_answer: were requests read as intended, every request that is answered would block the daemon in this way. The code does not do what one would expect here: the theorems prove what it does instead."
  },
  {
   "property": "C60",
   "status": "proved",
   "theorems": [
    "C60_order",
    "C60_answers",
    "C60_can_take",
    "C60_read_error"
   ],
   "note": "Statements in rocq/theories/PropsDaemon.v. C60_order: in every state of every run, what main has handled of a family, followed by the frame that listener is waiting to hand over, is the list of frames held by the datagrams it has read, each once and in the order of arrival; C60_answers: the same for the answers: one for each datagram that is answered, in order; C60_can_take: a frame that waits can be taken as long as the process lives and main is at its select; C60_read_error: a socket that cannot be read any more: its listener reads nothing further, and the daemon ends when main takes note of it."
  },
  {
   "property": "C61",
   "status": "proved",
   "theorems": [
    "C61_sequence",
    "C61_equal_iff",
    "C61_table"
   ],
   "note": "Statements in rocq/theories/PropsTransfer.v. C61_sequence: the ids count up from the process id, through 0, and start again; C61_equal_iff: two calls get the same id exactly when they are a multiple of 2^32 - pid calls apart; so the first 2^32 - pid ids are distinct; C61_table: in every history the transfers in the table have different session ids, as long as the ids have not wrapped."
  },
  {
   "property": "C62",
   "status": "proved",
   "theorems": [
    "C62_removes_last",
    "C62_reported",
    "C62_absent",
    "C62_right_iff_last"
   ],
   "note": "Statements in rocq/theories/PropsTransfer.v. C62_removes_last: removing a transfer of the table removes the last one; C62_reported: one that is not in the table removes none, and says which one it was; C62_absent: and one that is not in the table none; C62_right_iff_last: so the requested one is gone exactly when it was the last. The code does not do what one would expect here: the theorems prove what it does instead."
  },
  {
   "property": "C63",
   "status": "proved",
   "theorems": [
    "C63_lookup",
    "C63_copy",
    "C63_match",
    "C63_match_in_place"
   ],
   "note": "Statements in rocq/theories/PropsTransfer.v. C63_lookup: looking up: the first transfer with that key, or nothing; C63_copy: what is changed through the result never shows in the table; C63_match: matching by address and session finds the last such transfer, in the table itself, and panics exactly when it meets a transfer without a connection first; C63_match_in_place: what is changed through that result shows in the table, and only there. The code does not do what one would expect here: the theorems prove what it does instead."
  },
  {
   "property": "C64",
   "status": "proved",
   "theorems": [
    "C64_change"
   ],
   "note": "Statements in rocq/theories/PropsTransfer.v. C64_change: what metadata does to a transfer. The code does not do what one would expect here: the theorems prove what it does instead."
  },
  {
   "property": "C65",
   "status": "proved",
   "theorems": [
    "C65_frames",
    "C65_size"
   ],
   "note": "Statements in rocq/theories/PropsTransfer.v. C65_frames: on a connection that can send, a report takes one frame if the holes fit (or the code is not success), otherwise holes/max + 1; every frame is the same and lists all holes; C65_size: so a frame of such a report fits exactly when all the holes fit into one frame; when several frames are sent none of them fits. The code does not do what one would expect here: the theorems prove what it does instead."
  },
  {
   "property": "C66",
   "status": "proved",
   "theorems": [
    "C66_valid",
    "C66_alive",
    "C66_dies"
   ],
   "note": "Statements in rocq/theories/PropsRun.v. C66_valid: unless txwilling is switched on or off, every flag keeps a valid value; C66_alive: as long as txwilling is not switched on or off, no step of a beacon command ends the process, and none is ever blocked; C66_dies: while txwilling is \"on\" or \"off\", the process ends when a beacon is about to be sent (defect)."
  },
  {
   "property": "C67",
   "status": "proved",
   "theorems": [
    "C67_trim",
    "C67_characters",
    "C67_same",
    "C67_words",
    "C67_panics",
    "C67_unknown",
    "C67_known",
    "C67_enter"
   ],
   "note": "Statements in rocq/theories/PropsChars.v, PropsCli.v. C67_trim: TrimSpace, which looks at characters from the front and from the back, takes white space off both ends and nothing else, and leaves none there, whatever the bytes of the text are; C67_characters: Fields of it, character by character, gives the words of the text, whatever its bytes are; C67_same: which are the words that the other model of them finds; C67_words: every text has its words, and only one list of them; C67_panics: a line panics exactly if it is not empty and has no words; the process is not ended in another way; C67_unknown: an unknown first word is only reported; C67_known: with a command as its first word, the command is run in a goroutine with the words of the line; C67_enter: Enter on a line. What counts is the text after the first colon; without a colon the program panics. The code does not do what one would expect here: the theorems prove what it does instead."
  },
  {
   "property": "C68",
   "status": "proved",
   "theorems": [
    "C68_remove",
    "C68_same_text"
   ],
   "note": "Statements in rocq/theories/PropsSarnet.v. C68_remove: removing an address gives the list without any entry that reads the same, in the same order; all memory that existed before, with the list of the caller, is unchanged; C68_same_text: for the addresses the net package makes, \"reads the same\" means equal."
  },
  {
   "property": "C69",
   "status": "proved",
   "theorems": [
    "C69_verdict",
    "C69_result",
    "C69_make"
   ],
   "note": "Statements in rocq/theories/PropsStatus.v. C69_verdict: what becomes of a construction: the first item that is not acceptable decides; C69_result: an accepted construction: version 1, status frame, exactly the requested flags, the caller's values, the caller's holes after those the receiver held before, and the time stamped iff requested; C69_make: the header-based constructor keeps every other flag of the given header; it never stamps the time, even if the header asks for a timestamp."
  },
  {
   "property": "C70",
   "status": "proved",
   "theorems": [
    "C70_verdict",
    "C70_result",
    "C70_empty"
   ],
   "note": "Statements in rocq/theories/PropsRequest.v. C70_verdict: what becomes of building a request; trailing commas are allowed; C70_result: an accepted construction: version 1, request frame, exactly the requested flags, the caller's session and name; C70_empty: an empty flag string panics (the error message reads a missing value)."
  },
  {
   "property": "C71",
   "status": "proved",
   "theorems": [
    "C71_verdict",
    "C71_empty"
   ],
   "note": "Statements in rocq/theories/PropsBeacon.v. C71_verdict: an item that is not acceptable decides what becomes of a construction; C71_empty: an empty flag string panics."
  },
  {
   "property": "C72",
   "status": "proved",
   "theorems": [
    "C72_bad_item",
    "C72_empty",
    "C72_result",
    "C72_old_file"
   ],
   "note": "Statements in rocq/theories/PropsDirent.v. C72_bad_item: an unacceptable item decides the construction: an unknown flag is an error, an unknown option terminates the process; C72_empty: an empty flag string is refused; C72_result: an accepted flag list: the header has the start-of-entry flag and exactly the requested flags. A path above 1024 bytes is refused. The entry of a special file has size zero and the current time twice. The entry of a normal file has what the operating system says about sardir/path: size and times; C72_old_file: a file whose modification time is before 2000 or after 2136 cannot be described."
  },
  {
   "property": "C73",
   "status": "proved",
   "theorems": [
    "C73_bad_item",
    "C73_empty",
    "C73_result",
    "C73_not_here",
    "C73_needs_csumtype",
    "C73_make"
   ],
   "note": "Statements in rocq/theories/PropsMetadata.v. C73_bad_item: an unacceptable item decides the construction; C73_empty: an empty flag string is refused; C73_result: an accepted flag list, what the metadata describes: version 1, metadata frame, exactly the requested flags. The node found under the name in the working directory must be of the kind of the transfer. The entry has the kind and the descriptor of that node, but size and time come from the node under sardir/name; the checksum is whatever the checksum operation gives; C73_not_here: a name that is not found in the working directory is refused, even if the file is in the sardir (defect); C73_needs_csumtype: without a checksum type among the flags, metadata of a file or directory is always refused; C73_make: the header-based constructor never looks at the file name it is given (defect): whatever the name, the outcome is the same, and it is an error unless the working directory has a file called \"<uint32 Value>\"."
  },
  {
   "property": "C74",
   "status": "proved",
   "theorems": [
    "C74_delete",
    "C74_never"
   ],
   "note": "Statements in rocq/theories/PropsFileio.v. C74_delete: deleting a file that was opened by name removes what is at the doubled path, never the file itself by its own path; C74_never: with an ordinary absolute sardir it always fails, and deletes nothing. The code does not do what one would expect here: the theorems prove what it does instead."
  },
  {
   "property": "C75",
   "status": "proved",
   "theorems": [
    "C75_survives",
    "C75_answers_print"
   ],
   "note": "Statements in rocq/theories/PropsTrans.v. C75_survives: main survives a frame from a listener exactly if it is not a request, nor metadata with an undefined checksum type. Then it sends nothing, and only a beacon changes anything: the peer table, as registering that beacon does; C75_answers_print: a status on a transmit channel is printed without harm: those that the listeners and the request handler make."
  },
  {
   "property": "C76",
   "status": "proved",
   "theorems": [
    "C76_peers"
   ],
   "note": "Statements in rocq/theories/PropsDaemon.v. C76_peers: in every state of every run in which the daemon lives, the peer table is the one that the beacons handled so far call for."
  },
  {
   "property": "C77",
   "status": "proved",
   "theorems": [
    "C77_udp_address"
   ],
   "note": "Statements in rocq/theories/PropsSarnet.v. C77_udp_address: an address text is accepted exactly when it has two colons or three dots and the resolver knows it; the resolver is asked for exactly that text with port 7542."
  },
  {
   "property": "C78",
   "status": "proved",
   "theorems": [
    "C78_usage"
   ],
   "note": "Statements in rocq/theories/PropsSarnet.v. C78_usage: sizes are exact as long as the file system has fewer than 2^64 bytes; used and free always add up to the size modulo 2^64."
  },
  {
   "property": "C79",
   "status": "proved",
   "theorems": [
    "C79_dialled",
    "C79_never_sent"
   ],
   "note": "Statements in rocq/theories/PropsTransfer.v. C79_dialled: on a dialled connection no report is ever sent; C79_never_sent: every transfer of every history that has a connection has one that was dialled, so no status report about any of them is ever sent. The code does not do what one would expect here: the theorems prove what it does instead."
  },
  {
   "property": "C80",
   "status": "proved",
   "theorems": [
    "C80_refused",
    "C80_started",
    "C80_unguarded"
   ],
   "note": "Statements in rocq/theories/PropsTransfer.v. C80_refused: when a transfer can be started: the first transfer of the table that is in the way makes the call fail; if that one has no connection the last one of the table goes; C80_started: otherwise it is started (unless looking at the file or copying the settings panics): the table grows by it, at the end; C80_unguarded: an empty table never objects, so the first get overwrites."
  },
  {
   "property": "C81",
   "status": "proved",
   "theorems": [
    "C81_no_duplicates",
    "C81_two_callers"
   ],
   "note": "Statements in rocq/theories/PropsTransfer.v. C81_no_duplicates: in every history in which calls do not overlap, no two transfers of the table are of the same file with the same peer; C81_two_callers: two overlapping calls for the same file and peer, in every interleaving: two transfers exactly when both look before either adds."
  },
  {
   "property": "C82",
   "status": "proved",
   "theorems": [
    "C82_responder",
    "C82_still_never"
   ],
   "note": "Statements in rocq/theories/PropsTransfer.v. C82_responder: a request is refused, or it terminates the process; none is ever accepted; C82_still_never: this is not only due to the flag that does not exist: with any other name in its place no request is accepted either. The code does not do what one would expect here: the theorems prove what it does instead."
  },
  {
   "property": "C83",
   "status": "proved",
   "theorems": [
    "C83_effect",
    "C83_all"
   ],
   "note": "Statements in rocq/theories/PropsCli.v. C83_effect: a settings command sets what it is ordered to set, and nothing else; C83_all: these are all the settings there are."
  },
  {
   "property": "C84",
   "status": "proved",
   "theorems": [
    "C84_errors",
    "C84_help"
   ],
   "note": "Statements in rocq/theories/PropsCli.v. C84_errors: an error is shown exactly if the words are not understood; and then nothing is set; C84_help: the argument \"?\" shows the help and the usage of the command, and sets nothing."
  },
  {
   "property": "C85",
   "status": "proved",
   "theorems": [
    "C85_timers"
   ],
   "note": "Statements in rocq/theories/PropsCli.v. C85_timers: asked for one timer, the command tells its value; but whether the metadata timer is told or said to be off depends on the request timer (defect)."
  },
  {
   "property": "C86",
   "status": "proved",
   "theorems": [
    "C86_exit",
    "C86_goes_on"
   ],
   "note": "Statements in rocq/theories/PropsCli.v. C86_exit: the program ends by a line exactly if the text after the prompt is \"exit\" or \"quit\", with nothing before or after it; C86_goes_on: other lines with these commands, like \"exit 1\" or \"exit \", only show a text and set a variable that nothing reads, to 0 or 1 as said, \"Good Bye!\" or not (defect)."
  },
  {
   "property": "C87",
   "status": "proved",
   "theorems": [
    "C87_who",
    "C87_waits",
    "C87_do",
    "C87_never"
   ],
   "note": "Statements in rocq/theories/PropsRun.v. C87_who: which commands wait for the end of the transfer they start; C87_waits: when such a command has added its transfer, it waits, and with it a new goroutine begins that is to do the transfer; C87_do: ... and that goroutine does nothing but show an empty line and the line \"Charles write some code to Do a transfer!!!!\" and come to a standstill, without ever answering; C87_never: so the command never ends: it cannot make a step, now or ever. The code does not do what one would expect here: the theorems prove what it does instead."
  },
  {
   "property": "C88",
   "status": "proved",
   "theorems": [
    "C88_frozen",
    "C88_one",
    "C88_waits"
   ],
   "note": "Statements in rocq/theories/PropsRun.v. C88_frozen: from the moment a beacon command has the settings until it has finished, no setting changes, and neither do the flags and the number of its beacons, whatever else is typed; C88_one: one beacon command at a time; C88_waits: a goroutine that begins waits exactly if its command reads or changes the settings and a beacon command is not finished."
  },
  {
   "property": "C89",
   "status": "proved",
   "theorems": [
    "C89_status"
   ],
   "note": "Statements in rocq/theories/PropsRun.v. C89_status: \"beacon\" reports the multicast groups that were ever asked for, and nothing else: the addresses given to beacon commands are never reported, \"beacon off\" has no effect, and it is not said whether a beacon was or will be sent (defect). The code does not do what one would expect here: the theorems prove what it does instead."
  },
  {
   "property": "C90",
   "status": "proved",
   "theorems": [
    "C90_panics",
    "C90_settings",
    "C90_tables"
   ],
   "note": "Statements in rocq/theories/PropsConfig.v. C90_panics: a configuration is read without a panic exactly if every member it has is of the right type; absent members and unknown ones do not matter; C90_settings: every setting is the one in the file, and \"\" or 0 if it is not there; but the environment variable SARDIR, if it is not empty, replaces the directory; C90_tables: the commands, the fields of the frames and the flags are those of the file, with numbers reduced to the width of their type."
  },
  {
   "property": "C91",
   "status": "proved",
   "theorems": [
    "C91_at_most",
    "C91_exactly",
    "C91_only"
   ],
   "note": "Statements in rocq/theories/PropsSend.v. C91_at_most: whatever happens, a beacon command sends, for each of its addresses in turn, at most the set number of copies of one beacon that says what the settings say, and nothing else; C91_exactly: if the system lets it and its command has finished, it has sent exactly the set number of copies to each of its addresses, and nothing else; C91_only: everything that is ever sent is a beacon of a beacon command, for one of its addresses, and says what the settings said when the command began."
  },
  {
   "property": "C92",
   "status": "proved",
   "theorems": [
    "C92_removes",
    "C92_wrong",
    "C92_absent",
    "C92_dies",
    "C92_cases",
    "C92_other"
   ],
   "note": "Statements in rocq/theories/PropsShow.v. C92_removes: if the last transfer that decides is the one that is meant, the last transfer of the table is removed, whichever that is (defect); C92_wrong: so one that is meant stays as long as another one was started after it, and that one goes instead (defect); C92_absent: if every transfer is connected and none is meant, nothing is removed; C92_dies: if one without a connection comes first, the program ends (defect); C92_cases: there is no other case; C92_other: and with any other words nothing is removed. The code does not do what one would expect here: the theorems prove what it does instead."
  },
  {
   "property": "C93",
   "status": "proved",
   "theorems": [
    "C93_all",
    "C93_tran",
    "C93_kind",
    "C93_kinds",
    "C93_never"
   ],
   "note": "Statements in rocq/theories/PropsShow.v. C93_all: \"files\" and \"tran\" list every transfer, in the order they were started; C93_tran: \"tran\" with a kind lists those of that kind; other words are errors; C93_kind: a command that starts transfers lists, without words, those of its kind; C93_kinds: every transfer in the table was started from here, as one of the seven kinds; C93_never: so \"take\", \"give\" and \"delete\" never list anything, nor does \"tran\" with what they ask for (defect)."
  },
  {
   "property": "C94",
   "status": "proved",
   "theorems": [
    "C94_shows",
    "C94_peers",
    "C94_help"
   ],
   "note": "Statements in rocq/theories/PropsShow.v. C94_shows: these commands change nothing, whatever their words, and never wait; C94_peers: nor does \"peers\", which shows every peer, as long as their times can be written; C94_help: \"?\" after a command shows its help."
  },
  {
   "property": "C95",
   "status": "proved",
   "theorems": [
    "C95_dies"
   ],
   "note": "Statements in rocq/theories/PropsShow.v. C95_dies: a step of a goroutine ends the program exactly when it is one of the four deadly ones. The code does not do what one would expect here: the theorems prove what it does instead."
  },
  {
   "property": "C96",
   "status": "proved",
   "theorems": [
    "C96_help",
    "C96_full",
    "C96_own",
    "C96_usage"
   ],
   "note": "Statements in rocq/theories/PropsShow.v. C96_help: \"help\" and \"?\" show one line for each command, in order; C96_full: with \"?\" the usage as well; C96_own: with any other words, only the line of \"help\" itself: not that of the command that is named (defect); C96_usage: \"usage\" shows the usage of each command, whatever its words."
  },
  {
   "property": "C97",
   "status": "proved",
   "theorems": [
    "C97_all",
    "C97_words"
   ],
   "note": "Statements in rocq/theories/PropsShow.v. C97_all: \"clear\" alone clears the three windows; C97_words: with words it clears the windows named, in order, up to the first word that is not the name of one."
  },
  {
   "property": "C98",
   "status": "proved",
   "theorems": [
    "C98_peers"
   ],
   "note": "Statements in rocq/theories/PropsNode.v. C98_peers: the peers command of the running program never fails, and shows exactly the table that the beacons heard so far call for."
  },
  {
   "property": "C99",
   "status": "proved",
   "theorems": [
    "C99_ends"
   ],
   "note": "Statements in rocq/theories/PropsNode.v. C99_ends: what ends the running program, and nothing else does. The code does not do what one would expect here: the theorems prove what it does instead."
  },
  {
   "property": "C100",
   "status": "proved",
   "theorems": [
    "C100_peace"
   ],
   "note": "Statements in rocq/theories/PropsNode.v. C100_peace: nodes that hear only each other do not end each other, whatever the network loses, delays, repeats or swaps: a node ends only by what its own user types and runs, or because its own socket fails or its user quits."
  },
  {
   "property": "C101",
   "status": "proved",
   "theorems": [
    "C101_told",
    "C101_heard"
   ],
   "note": "Statements in rocq/theories/PropsNode.v. C101_told: every entry in the table of a live node was told by another: it says what the settings of the sender said when its user gave a beacon command, and its address is the one the network gave to the datagram; C101_heard: a beacon that the network carries, that fits and that finds the listener idle is in the table as soon as main has taken it."
  },
  {
   "property": "C102",
   "status": "proved",
   "theorems": [
    "C102_print",
    "C102_other",
    "C102_ends",
    "C102_same"
   ],
   "note": "Statements in rocq/theories/PropsClock.v. C102_print: a numeric timestamp prints as the date and time, in UTC, of the instant it holds: to the millisecond if it holds nanoseconds, to the second otherwise; C102_other: a timestamp of type 0 prints as the text it holds, and any other type byte ends the process; C102_ends: printing ends the process in no other case (this is what the models of the commands use); C102_same: two numeric timestamps of the same precision print the same text exactly when they hold the same second (or, with nanoseconds, the same millisecond)."
  },
  {
   "property": "C103",
   "status": "proved",
   "theorems": [
    "C103_table"
   ],
   "note": "Statements in rocq/theories/PropsTable.v. C103_table: the table of the peers command. One row for each peer, sorted, under a heading and between borders; each row says the peer's address, free space in whole gigabytes, endpoint, descriptor, willingness and the UTC times of its first and latest change. The lines of the table take the same number of columns exactly when no peer uses 128 bit descriptors and none has a million gigabytes free (defect). The code does not do what one would expect here: the theorems prove what it does instead."
  },
  {
   "property": "C104",
   "status": "proved",
   "theorems": [
    "C104_table"
   ],
   "note": "Statements in rocq/theories/PropsTable.v. C104_table: the table of transfers. One row for each transfer, sorted, under a heading and between borders; each row says the transfer's type, peer and file, and that the program initiated it, even if it answers a peer (defect). That word is wider than its column, so the lines of the table never take the same number of columns (defect). The code does not do what one would expect here: the theorems prove what it does instead."
  },
  {
   "property": "C105",
   "status": "proved",
   "theorems": [
    "C105_ends"
   ],
   "note": "Statements in rocq/theories/PropsScreen.v. C105_ends: The user interface goes on until Ctrl-C is pressed or the terminal has less than 12 columns or less than 12 rows when the screen is drawn; then the program ends. The code does not do what one would expect here: the theorems prove what it does instead."
  },
  {
   "property": "C106",
   "status": "proved",
   "theorems": [
    "C106_seen"
   ],
   "note": "Statements in rocq/theories/PropsScreen.v. C106_seen: On a terminal of any size the program runs on, the messages, the command line and the errors share the whole screen without overlap; the packet window covers its part of the messages exactly after an odd number of presses of Ctrl-P, whatever else was done."
  },
  {
   "property": "C107",
   "status": "proved",
   "theorems": [
    "C107_round",
    "C107_back",
    "C107_lost"
   ],
   "note": "Statements in rocq/theories/PropsScreen.v. C107_round: From the command line, Ctrl-Space takes the cursor round the windows: messages, errors, command line, and with the packet window on, between the messages and the errors, also the packets; C107_back: The cursor is on the command line when the screen has first been drawn, and whatever else happens, four presses of Ctrl-Space bring it there at some point; C107_lost: Turning the packet window off while the cursor is in it leaves the cursor there, in a window that is nowhere seen. The code does not do what one would expect here: the theorems prove what it does instead."
  },
  {
   "property": "C108",
   "status": "proved",
   "theorems": [
    "C108_once",
    "C108_any_order"
   ],
   "note": "Statements in rocq/theories/PropsScreen.v. C108_once: Each text that the program prints for a window is written into it whole and once, or is still on its way there; nothing else is written into a window; C108_any_order: The order in which texts appear in a window is not that in which they were printed: any texts printed one after the other can appear in any order. The code does not do what one would expect here: the theorems prove what it does instead."
  },
  {
   "property": "C109",
   "status": "proved",
   "theorems": [
    "C109_colours"
   ],
   "note": "Statements in rocq/theories/PropsScreen.v. C109_colours: A colour the program knows is set by its escape sequence, any other colour is white on red; the text follows unchanged, and the colour is turned off after it, unless none was asked for."
  },
  {
   "property": "C110",
   "status": "proved",
   "theorems": [
    "C110_starts",
    "C110_sardir",
    "C110_misleading"
   ],
   "note": "Statements in rocq/theories/PropsStartup.v. C110_starts: The program starts exactly if it has its two arguments, the configuration is usable, its directory is found twice, once from where the program is started and once from within that directory, the interface exists, and the terminal and both multicast groups can be used. Otherwise it says which of these, in this order, failed first; C110_sardir: A directory given by its absolute name is found the second time if it was the first time. One that is given by a plain name is found again only if there is something of that name in it: otherwise the program does not start; C110_misleading: With wrong arguments or an unusable configuration the program ends with exit status 0, as if all were well; if the interface does not exist, the message names the configuration file in its place. The code does not do what one would expect here: the theorems prove what it does instead."
  },
  {
   "property": "C111",
   "status": "proved",
   "theorems": [
    "C111_started",
    "C111_shipped"
   ],
   "note": "Statements in rocq/theories/PropsStartup.v. C111_started: A program that starts listens on the given interface for the groups and the port of its configuration, takes the MTU of that interface, works in its directory, and shows this about itself; C111_shipped: Started with the shipped configuration, it is in the state from which the other theorems about runs of the whole program begin."
  },
  {
   "property": "C112",
   "status": "proved",
   "theorems": [
    "C112_short",
    "C112_request",
    "C112_long",
    "C112_sent",
    "C112_received",
    "C112_shown",
    "C112_shown_others",
    "C112_shown_status"
   ],
   "note": "Statements in rocq/theories/PropsFrameText.v. C112_short: the short text of a frame says exactly what [says] lists for its kind, and there is one exactly when every named value in it has a name; C112_request: a request has no long text: asking for it ends the program (defect); C112_long: the other long texts say exactly what the lists named [..._tells] have; C112_sent: main survives a frame to send exactly if the frame has a text; C112_received: a frame a listener hands on has a text unless it is metadata with a kind of checksum that has no name; C112_shown: what is written into the windows when main receives a frame to handle; C112_shown_others: and when main receives one to send, or a listener a status. The code does not do what one would expect here: the theorems prove what it does instead."
  },
  {
   "property": "C113",
   "status": "proved",
   "theorems": [
    "C113_same",
    "C113_status",
    "C113_heard"
   ],
   "note": "Statements in rocq/theories/PropsFrameText.v. C113_same: two frames have the same text exactly if they are of the same kind and agree in everything the text shows; C113_status: the long text of a status tells everything a status holds; C113_heard: the frames the listeners hand on are of that kind."
  },
  {
   "property": "C114",
   "status": "proved",
   "theorems": [
    "C114_forged",
    "C114_request"
   ],
   "note": "Statements in rocq/theories/PropsFrameText.v. C114_forged: a beacon can look like any number of packets: whatever packets follow in the window, the same is shown if some bytes are added to the beacon and nothing else is received (defect); C114_request: the text of a request does not tell where the name of the file ends (defect). The code does not do what one would expect here: the theorems prove what it does instead."
  },
  {
   "property": "C115",
   "status": "proved",
   "theorems": [
    "C115_send",
    "C115_short"
   ],
   "note": "Statements in rocq/theories/PropsTransmit.v. C115_send: Send writes the encoded frame, whole, once, to the address given (a beacon: along the connection), and nothing if there is none; it returns nil exactly when the system took all of it, and the encoder's or the system's error as it is; C115_short: when only part of a frame is taken the error says how much, where to and out of how much."
  },
  {
   "property": "C116",
   "status": "proved",
   "theorems": [
    "C116_arrives",
    "C116_distinct"
   ],
   "note": "Statements in rocq/theories/PropsTransmit.v. C116_arrives: every well-formed frame has a wire form; Send writes exactly that, and a listener whose MTU it fits hands on the very frame, with the address it came from; C116_distinct: two different frames never have the same wire form."
  },
  {
   "property": "C117",
   "status": "proved",
   "theorems": [
    "C117_too_long",
    "C117_entry",
    "C117_empty",
    "C117_status"
   ],
   "note": "Statements in rocq/theories/PropsTransmit.v.  The code does not do what one would expect here: the theorems prove what it does instead."
  },
  {
   "property": "C118",
   "status": "proved",
   "theorems": [
    "C118_v4",
    "C118_v6",
    "C118_other"
   ],
   "note": "Statements in rocq/theories/PropsOutbound.v. C118_v4: asked for IPv4, it answers the first of the addresses of the host that is one, in four bytes, and ends the program if there is none; C118_other: any other word ends the program."
  },
  {
   "property": "C119",
   "status": "proved",
   "theorems": [
    "C119_down",
    "C119_up",
    "C119_walk",
    "C119_beyond",
    "C119_left",
    "C119_right",
    "C119_others",
    "C119_prompt",
    "C119_back",
    "C119_type",
    "C119_inside"
   ],
   "note": "Statements in rocq/theories/PropsCursor.v. C119_down: the Down key: nothing on the last line, else the cursor goes one line down; never an error; C119_up: the Up key: nothing on the first line, else the cursor goes one line up; never an error; C119_walk: with the drawing that follows: pressed [k] times on a line of the text, Down leads [k] lines down but not past the last line, and Up leads [k] lines up but not above the first line, or in a window that follows its text, the first line shown; the text and the column stay; C119_left: Left pressed [k] times in the command window goes [k] columns to the left, but not into the prompt; nothing else changes; C119_right: Right pressed [k] times goes [k] columns to the right, but not behind the end of the line; from behind the end it goes to the end; C119_others: in the other windows Left and Right do nothing; C119_prompt: the prompt takes exactly the columns that Left and Backspace leave alone, if and only if the padding is configured as 3; C119_back: Backspace takes away the character before the cursor and moves the cursor there, unless that belongs to the prompt; then it does nothing; C119_type: a character typed on another takes its place; typed behind the line it is added; the other characters and lines stay, and the cursor moves on, unless it is in the last column; C119_inside: whatever keys are pressed and whatever is printed or cleared, the cursor stays inside its window."
  },
  {
   "property": "C120",
   "status": "proved",
   "theorems": [
    "C120_follow",
    "C120_clear",
    "C120_down",
    "C120_all",
    "C120_still",
    "C120_jump"
   ],
   "note": "Statements in rocq/theories/PropsCursor.v. C120_follow: in the command, message and error windows, when there are more lines than fit, the last ones are shown, whatever has happened before; C120_all: without that key and without clearing, a window that follows its text always shows its last lines, all of them while they fit; C120_jump: coming to a window with Ctrl-Space leaves the cursor on the last line, if it is there. Otherwise it goes to the row that the last line has if the window is not scrolled; or, if the lines do not fit, to the last line, in the packet window to the last but one. The code does not do what one would expect here: the theorems prove what it does instead."
  },
  {
   "property": "C121",
   "status": "proved",
   "theorems": [
    "C121_session"
   ],
   "note": "Statements in rocq/theories/PropsCursor.v. C121_session: if each prompt is waited for, every command typed is run, once and in order, the window holds the commands behind numbered prompts, and its last lines are shown with the cursor behind the last prompt."
  },
  {
   "property": "C122",
   "status": "proved",
   "theorems": [
    "C122_twice",
    "C122_ahead",
    "C122_again"
   ],
   "note": "Statements in rocq/theories/PropsCursor.v.  The code does not do what one would expect here: the theorems prove what it does instead."
  },
  {
   "property": "C123",
   "status": "proved",
   "theorems": [
    "C123_room",
    "C123_sends",
    "C123_read_error",
    "C123_whole",
    "C123_no_room",
    "C123_fits"
   ],
   "note": "Statements in rocq/theories/PropsClient.v. C123_room: The room for bytes of the file in a frame is what is left of the MTU after the largest IP header, the UDP header, the first eight bytes, the offset if its width is mentioned, and the timestamp if there is one; C123_sends: A file is sent in consecutive parts of that size, each in one frame with its position, up to the first part that is shorter. Exactly the last frame is marked as the end. A status is asked for with every hundredth frame and with the last. The other flags are those that were asked for. A frame that cannot be sent is reported and not sent again; C123_read_error: If reading the file fails, the frames before are sent and the failure is reported; C123_whole: The bytes of the frames, in order, are the file; C123_no_room: Without room for a single byte the sender never comes to an end: it sends empty frames for position 0 for ever. With less than no room it panics; C123_fits: Every frame fits what a receiver on a link with the same MTU takes."
  },
  {
   "property": "C124",
   "status": "proved",
   "theorems": [
    "C124_descriptor",
    "C124_end_to_end"
   ],
   "note": "Statements in rocq/theories/PropsClient.v. C124_descriptor: The width of offset that is chosen by the size of a file is enough for every position in it; C124_end_to_end: End to end. A sender sends a file. The network delivers any of its frames with bytes, in any order, any number of times. The receiver decodes them, writes the bytes to a new file and records the ranges. The record is complete exactly if every frame with bytes was delivered, and then the new file is the file."
  },
  {
   "property": "C125",
   "status": "proved",
   "theorems": [
    "C125_end"
   ],
   "note": "Statements in rocq/theories/PropsClient.v. C125_end: The receiver learns from the last frame that the file ends there, unless the offsets have 16 bits, the frames have timestamps and the last frame is empty: then decoding it fails. No other frame is marked as the end (defect). The code does not do what one would expect here: the theorems prove what it does instead."
  },
  {
   "property": "C126",
   "status": "proved",
   "theorems": [
    "C126_short",
    "C126_panics",
    "C126_no_room",
    "C126_first",
    "C126_outside",
    "C126_turn",
    "C126_never"
   ],
   "note": "Statements in rocq/theories/PropsClient.v. C126_short: Bytes that are missing at the other end are not sent again: nothing is sent for a hole with room to spare in one frame (defect); C126_panics: For any other hole that does not start at the start of the file, the program panics (defect); C126_no_room: When an MTU leaves no room at all for data, exactly 0 bytes end the program at the first hole (a division by zero, defect), and with less than that nothing is sent again; C126_first: For a hole at the start of the file, frames are sent from its end backwards, the first of them empty: as many as there are whole parts in the hole, so that the first part is never sent (defect). A write that fails ends the put; C126_outside: A hole of negative length, or longer than any memory, makes the program panic; one outside the file ends the put; C126_turn: The holes of a status are dealt with in turn, until one of them ends the put; C126_never: So whatever is sent for a hole, nothing of its first part is among it: no hole is ever filled (defect). The code does not do what one would expect here: the theorems prove what it does instead."
  },
  {
   "property": "C127",
   "status": "proved",
   "theorems": [
    "C127_first",
    "C127_never",
    "C127_confirmed"
   ],
   "note": "Statements in rocq/theories/PropsClient.v. C127_first: A put ends with the first message that is not a success: exactly then, and with that message; C127_never: So a put never reports success, whatever happens, and a put that should remove the local file afterwards never removes it (defect); C127_confirmed: A put of which everything is confirmed is reported as failed in the end: when no more status frames come, reading them fails, and that is what is reported, in whatever order the messages of the two tasks come (defect). The code does not do what one would expect here: the theorems prove what it does instead."
  },
  {
   "property": "C128",
   "status": "proved",
   "theorems": [
    "C128_other",
    "C128_undecodable",
    "C128_error",
    "C128_success"
   ],
   "note": "Statements in rocq/theories/PropsClient.v. C128_other: A datagram of less than four bytes ends the program with a panic. A frame of version 0 ends the transfer. A frame of any other version but 1, and any frame of version 1 but a status frame, terminates the program (defect); C128_undecodable: A status frame that cannot be decoded ends the transfer, or the program as decoding it does; C128_error: A status with an error ends the transfer with that error. One with an error code that has no name terminates the program; C128_success: A status without an error: the metadata is sent again iff it was not received, the position is told, success is told if the position is the end of the file, the holes are dealt with, and success is told, again if it was told before. The code does not do what one would expect here: the theorems prove what it does instead."
  },
  {
   "property": "C129",
   "status": "proved",
   "theorems": [
    "C129_undefined",
    "C129_blind",
    "C129_put",
    "C129_putrm"
   ],
   "note": "Statements in rocq/theories/PropsClient.v. C129_undefined: Of the eight types of transfer only three do anything: the others are answered with \"undefined\"; C129_blind: A blind put reports success exactly if the metadata was handed to the socket. It sends no request and never any of the file (defect); C129_put: A put hands over the request and then the metadata before anything else. What fails is reported and nothing follows; but if the socket cannot be made the program panics (defect); C129_putrm: A put that should remove the file afterwards does and reports what a put does, and removes nothing (defect). The code does not do what one would expect here: the theorems prove what it does instead."
  },
  {
   "property": "C130",
   "status": "proved",
   "theorems": [
    "C130_share",
    "C130_failed",
    "C130_windows_failed",
    "C130_windows"
   ],
   "note": "Statements in rocq/theories/PropsDiskUse.v. C130_share: The share of a file system in use is between 0 and 1 and differs from the share of its blocks that are not free by less than one part in four millions; C130_failed: If the file system cannot be asked, all sizes are 0 and the share in use is not a number (defect); C130_windows_failed: On Windows too, if the file system cannot be asked, all sizes are 0 and the share in use is not a number (defect); C130_windows: On Windows what is called free is what is available to the user, and what is called available is what is free (defect). The code does not do what one would expect here: the theorems prove what it does instead."
  },
  {
   "property": "C131",
   "status": "proved",
   "theorems": [
    "C131_text",
    "C131_unique",
    "C131_map",
    "C131_layout"
   ],
   "note": "Statements in rocq/theories/PropsJson.v. C131_text: a text is accepted exactly if it is JSON nested at most 10000 deep, and then it is read as what it says; no text says two things; C131_map: ReadConfig gets an object from a text that is one, the last of the members with the same name counting, and nothing from the text null; any other text is an error, and so is an object with a number that no float64 holds; C131_layout: how the text is laid out, and how its strings are escaped, makes no difference."
  },
  {
   "property": "C132",
   "status": "proved",
   "theorems": [
    "C132_shipped",
    "C132_layout",
    "C132_starts",
    "C132_member"
   ],
   "note": "Statements in rocq/theories/PropsJson.v. C132_shipped: the shipped file is the JSON text of the configuration that the model of ReadConfig is given, in which no name is repeated; C132_layout: laid out in any other way the shipped file gives the same settings, in whatever order the members of the map are visited, and the program that starts with it is the one the other properties are about; C132_member: in general, what a configuration has under a name is what the last member of that name in the text stands for."
  },
  {
   "property": "C133",
   "status": "proved",
   "theorems": [
    "C133_reading",
    "C133_value",
    "C133_replace",
    "C133_replace_dirent",
    "C133_data",
    "C133_status",
    "C133_dirent",
    "C133_metadata",
    "C133_beacon",
    "C133_request",
    "C133_request_any"
   ],
   "note": "Statements in rocq/theories/PropsFlagText.v. C133_reading: every text says something, and only one thing; C133_value: asking any text for a flag: the value in the first item of that name; the program crashes when that item is a name alone; C133_replace: replacing a flag in any text. When every item is a setting that exists (those of the flag itself being given the new value), the result is those settings, and the new one at the end if it was not among them. Otherwise the first item at fault decides: a name alone crashes the program, a setting that does not exist ends it; C133_replace_dirent: the same for the flags of directory entries; C133_data: building a data frame from any text of flags. Only what the text says counts: blanks do not, nor what follows a second equals sign. The first item at fault decides, a name alone crashing the program unless it is not the name of a flag; C133_status: the same for status frames, for which the name of a kind of timestamp is an item by itself; C133_dirent: the same for directory entries; an acceptable text may still meet a file that cannot be described (C72); C133_metadata: the same for metadata; C133_beacon: the same for beacons: a name alone always crashes the program; C133_request: the same for requests, for which empty items at the end do not count; C133_request_any: every text says something of that form."
  },
  {
   "property": "C134",
   "status": "proved",
   "theorems": [
    "C134_serial",
    "C134_safe",
    "C134_progress",
    "C134_ends"
   ],
   "note": "Statements in rocq/theories/PropsShared.v. C134_serial: whenever no command is at work, the settings are what the commands that have finished make of them one after the other, in the order in which they finished, whatever the interleaving of their accesses; C134_safe: only commands that start transfers can take part in the end of the program: commands on the settings, and beacon commands, never end it, however they interleave; C134_progress: and they never block each other for good: while a goroutine has something left to do, one of them can go on; C134_ends: each step is one of a number fixed at the start, so the goroutines come to an end."
  },
  {
   "property": "C135",
   "status": "proved",
   "theorems": [
    "C135_dies",
    "C135_members",
    "C135_mixed"
   ],
   "note": "Statements in rocq/theories/PropsShared.v. C135_dies: changing the settings while a transfer starts can end the program: whatever the settings are, the program can die exactly if some command starts a transfer while some command sets a header flag; C135_members: what a transfer's copy of the settings says: each setting has in it a value that it had at some moment of the run, except that the copy has the IPv4 group in place of the IPv6 group, and no count of beacons; C135_mixed: so two commands may be given one after the other, and a transfer that starts meanwhile work with the second setting but not with the first, though the settings were never so. The code does not do what one would expect here: the theorems prove what it does instead."
  },
  {
   "property": "C136",
   "status": "proved",
   "theorems": [
    "C136_alone",
    "C136_done",
    "C136_default",
    "C136_refused",
    "C136_silent"
   ],
   "note": "Statements in rocq/theories/PropsTell.v. C136_alone: alone, a command on the settings tells the setting; C136_done: what a command says after it has set something; C136_default: a data counter of 0 is said to be the default; C136_refused: what it says to words it does not understand; C136_silent: two requests are turned down without an error: 128 bit descriptors, and to switch off a timer that does not exist, to which nothing at all is said (defect)."
  },
  {
   "property": "C137",
   "status": "proved",
   "theorems": [
    "C137_question",
    "C137_beacon",
    "C137_ls",
    "C137_cancel",
    "C137_unmade",
    "C137_errors"
   ],
   "note": "Statements in rocq/theories/PropsTell.v. C137_question: with \"?\", a command shows its help and its usage, and does nothing else; for \"quit\" they are those of \"exit\"; C137_beacon: \"beacon ?\" too, though it also takes over the present settings; C137_ls: \"ls\" shows its usage as an error, whatever its words: what follows is never reached (defect); C137_cancel: \"cancel\" cancels nothing: it shows its words (defect); C137_unmade: \"history\" and \"home\" say that they do not exist; more words are errors; C137_errors: \"files\", \"tran\", \"exit\" and \"quit\", with too many words or words they do not know, show their usage as an error, for \"quit\" that of \"exit\"."
  },
  {
   "property": "C138",
   "status": "proved",
   "theorems": [
    "C138_usage",
    "C138_noaddr",
    "C138_refused",
    "C138_accepted",
    "C138_added"
   ],
   "note": "Statements in rocq/theories/PropsTell.v. C138_usage: a command to start a transfer that is not given an address and a file shows its usage as an error; \"give\" says that there is no such command (defect); C138_noaddr: if the address cannot be understood nothing is started; \"get\" does not even say so (defect); C138_refused: if another transfer is in the way nothing is started, and the first that is in the way is given as the reason; what is said after it depends on the command, and \"give\" says that the address is invalid though it is not (defect); C138_accepted: otherwise it goes on to add the transfer, without saying anything yet; C138_added: when the transfer has been added, this is said, and nothing else. The code does not do what one would expect here: the theorems prove what it does instead."
  },
  {
   "property": "C139",
   "status": "proved",
   "theorems": [
    "C139_lives",
    "C139_deadly",
    "C139_others"
   ],
   "note": "Statements in rocq/theories/PropsDaemon.v. C139_lives: as long as no lethal datagram arrives, both sockets can be read and nobody quits, the daemon lives, in every schedule; C139_deadly: each of the three does end it, whatever has happened before: a lethal datagram as soon as it is read or main takes its frame,; C139_others: a socket that cannot be read, and a user who quits, as soon as main takes note."
  },
  {
   "property": "C140",
   "status": "proved",
   "theorems": [
    "C140_file",
    "C140_opens",
    "C140_getdir",
    "C140_others"
   ],
   "note": "Statements in rocq/theories/PropsFileio.v. C140_file: for the four kinds that move a file: an error is reported exactly if no file is returned, and then nothing has changed; what is returned is the file of that name in sardir, at its start, to be written for \"get\" and \"take\", when it is there and empty (unless it is not a regular file) and nothing else has changed, to be read for \"put\" and \"give\", when nothing has changed; C140_opens: and they are opened: for \"get\" and \"take\" a name that leads to a directory, when there is nothing of that name and nothing at the doubled path; for \"put\" and \"give\" what is there, when there is something at the doubled path; C140_getdir: \"getdir\" returns no file. Without an error a new directory of that name has been made, and it is the working directory of the whole process from now on (defect); with an error the working directory is as before, and the files are unless the directory was made and could not be entered; C140_others: \"delete\" opens nothing without an error; every other kind, such as \"putblind\", is an error, whatever files there are (defect)."
  },
  {
   "property": "C141",
   "status": "proved",
   "theorems": [
    "C141_data",
    "C141_status",
    "C141_beacon",
    "C141_dirent",
    "C141_meta",
    "C141_request",
    "C141_timestamp",
    "C141_whole"
   ],
   "note": "Statements in rocq/theories/PropsPart.v. C141_data: data frames: Decode of the first n bytes of a buffer does what it does with a copy of these bytes; where the copy would crash it, it never succeeds; C141_status: the same for status frames; C141_beacon: the same for beacons; C141_dirent: the same for directory entries; C141_meta: the same for metadata; C141_request: requests: Decode of the first n bytes of a buffer always does what it does with a copy of these bytes; C141_timestamp: timestamps (defect): Get takes all bytes but the first from the buffer, wherever the slice ends; C141_whole: a slice with no spare capacity, which is what the listener and the client hand over, is decoded as the list of its bytes."
  },
  {
   "property": "C142",
   "status": "proved",
   "theorems": [
    "C142_ends",
    "C142_waits",
    "C142_lost",
    "C142_deaf",
    "C142_back",
    "C142_round",
    "C142_where",
    "C142_kept",
    "C142_gone"
   ],
   "note": "Statements in rocq/theories/PropsFocus.v. C142_ends: whatever commands are at work, they can all finish; C142_waits: a user who waits for each command keeps the keyboard in the command window, and every line entered is run; C142_back: Ctrl-Space, pressed once to three times, brings the keyboard back; C142_round: Ctrl-Space goes on to the next window, to the one for packets only if Ctrl-P was pressed an odd number of times before; C142_where: without Ctrl-Space the keyboard is in the command window or in a window that some command entered before was asked to clear; C142_kept: a window that no command was asked to clear keeps every text that arrived for it, whatever else is cleared; C142_gone: when a [clear] command has finished, its windows show at most what arrived after it was entered. The code does not do what one would expect here: the theorems prove what it does instead."
  },
  {
   "property": "C143",
   "status": "proved",
   "theorems": [
    "C143_balanced",
    "C143_alive",
    "C143_unlock",
    "C143_exclusive",
    "C143_progress",
    "C143_ends",
    "C143_apart",
    "C143_order"
   ],
   "note": "Statements in rocq/theories/PropsLocks.v. C143_balanced: every function leaves the mutexes as it found them, on every path: what it has locked it has unlocked as often when it returns, and before it waits forever; C143_alive: a mutex is never unlocked while it is not locked; C143_unlock: a goroutine that is about to unlock a mutex is the one inside it, and the mutex is locked; C143_exclusive: no two goroutines are inside the same mutex; it is locked exactly while one is; C143_progress: no deadlock: as long as some goroutine is neither finished nor waiting forever for something other than a mutex, one of them can move on; C143_ends: from every state the goroutines can all come to their ends, or to the places where they wait forever; then no mutex is locked; C143_apart: a mutex other than that of the settings becomes free without a step of a goroutine that is inside that of the settings: a [beacon] command that is at work for hours holds up the settings and nothing else; C143_order: nobody waits inside another mutex than Trmu, and there only for the one of the session numbers."
  },
  {
   "property": "C144",
   "status": "proved",
   "theorems": [
    "C144_data",
    "C144_status",
    "C144_beacon",
    "C144_request",
    "C144_entry",
    "C144_metadata",
    "C144_encode_data",
    "C144_encode_status",
    "C144_encode_beacon",
    "C144_encode_entry",
    "C144_new_data",
    "C144_new_status",
    "C144_new_request",
    "C144_new_beacon",
    "C144_new_entry",
    "C144_new_metadata",
    "C144_node",
    "C144_path",
    "C144_instant",
    "C144_now",
    "C144_stamp"
   ],
   "note": "Statements in rocq/theories/PropsReason.v. C144_data: A data frame is refused for one of four reasons, and leaves what was read before the reason was met; C144_status: A status is refused for one of three reasons; its holes and numbers are then not taken over; C144_beacon: A beacon is refused for one reason; C144_request: A request is refused for one reason; C144_entry: A directory entry is refused for one of two reasons; C144_metadata: Metadata are refused for one of three reasons; C144_encode_data: A data frame with 128-bit offsets cannot be sent; C144_encode_status: A status with 128-bit offsets cannot be sent; C144_encode_beacon: A beacon with 128-bit free space cannot be sent; C144_encode_entry: A directory entry that cannot be encoded is refused for its path, its size or its descriptor; C144_new_data: The first item of a list of flags that a data frame does not take is named; C144_new_status: The first item of a list of flags that a status does not take is named; C144_new_request: The first item of a list of flags that a request does not take is named, with the whole list; C144_new_beacon: The first item of a list of flags that a beacon does not take is named; C144_new_entry: The first item of a list of flags that a directory entry does not take is named; C144_new_metadata: The first item of a list of flags that metadata do not take is named; C144_node: What is in the working directory but is not what the flags say is refused with its name; C144_path: A directory entry with too long a path is refused for that; C144_instant: An instant that does not fit is refused by the type it was to be stored in; C144_now: The current time that does not fit is refused with the flag; C144_stamp: A timestamp of local text is refused, but its text is kept."
  },
  {
   "property": "C145",
   "status": "proved",
   "theorems": [
    "C145_data",
    "C145_status",
    "C145_request",
    "C145_beacon",
    "C145_entry",
    "C145_metadata",
    "C145_any_type",
    "C145_data_out",
    "C145_status_out",
    "C145_request_out",
    "C145_beacon_out",
    "C145_entry_out",
    "C145_metadata_out"
   ],
   "note": "Statements in rocq/theories/PropsHead.v. C145_data: Decoding a data frame uses no part of its header but the descriptor and whether there is a timestamp; C145_status: Decoding a status uses no part of its header but the descriptor and whether there is a timestamp; C145_request: Decoding a request uses no part of its header; C145_beacon: Decoding a beacon uses no part of its header but whether there is free space and, if so, its descriptor; C145_entry: Decoding a directory entry uses no part of its header but the descriptor; C145_metadata: Decoding metadata uses no part of its header but the length of the checksum; C145_any_type: The first byte of a datagram, its version and its type, changes nothing in what any of the five decoders does; C145_data_out: Encoding a data frame uses no other part of its header either; the header is copied to the front; C145_status_out: Likewise for a status; C145_request_out: Encoding a request uses no part of its header; C145_beacon_out: Encoding a beacon uses only whether there is free space and, if so, its descriptor; C145_entry_out: Encoding a directory entry uses only the descriptor; C145_metadata_out: Encoding metadata uses no part of its header, not even the length of the checksum."
  },
  {
   "property": "C146",
   "status": "proved",
   "theorems": [
    "C146_data",
    "C146_request",
    "C146_metadata",
    "C146_status",
    "C146_new_data",
    "C146_data_out",
    "C146_request_out",
    "C146_metadata_out",
    "C146_status_out",
    "C146_new_status"
   ],
   "note": "Statements in rocq/theories/PropsMemory.v. C146_data: Decoding a data frame writes to nothing that existed, and the frame does not change when the datagram's buffer does; C146_request: The same for a request; C146_metadata: The same for metadata; C146_status: The same for a status into which nothing was decoded before, as the listener's; C146_new_data: New and Make give a data frame a payload of its own, equal to the caller's; C146_data_out: The bytes an encoded data frame gives are its own; C146_request_out: The same for a request; C146_metadata_out: The same for metadata; C146_status_out: The same for a status; C146_new_status: New and Make give a status that had no holes before holes of its own, equal to the caller's."
  },
  {
   "property": "C147",
   "status": "proved",
   "theorems": [
    "C147_delivered",
    "C147_buffer"
   ],
   "note": "Statements in rocq/theories/PropsMemory.v. C147_delivered: Whatever arrives at the listeners, in whatever order, every frame they have delivered is at the end, and whatever the program writes to older memory then, still the one its datagram stood for when it arrived; C147_buffer: A listener's buffer is made unless the MTU is below -40, where the listener panics; it is as large as it should be."
  },
  {
   "property": "C148",
   "status": "proved",
   "theorems": [
    "C148_status",
    "C148_request"
   ],
   "note": "Statements in rocq/theories/PropsMemory.v. C148_status: A status and a copy of it, decoded into one after the other: the second decoding replaces the holes that the first one gave, as far as they are in the array both had, that is when it had room for them; C148_request: New on a request writes the authentication field over the one that the request has, and so in every copy of the request as well; as many bytes as both have. Nothing else is changed. Without such a field nothing is stored. The code does not do what one would expect here: the theorems prove what it does instead."
  },
  {
   "property": "C149",
   "status": "proved",
   "theorems": [
    "C149_history",
    "C149_same",
    "C149_read",
    "C149_write",
    "C149_opened"
   ],
   "note": "Statements in rocq/theories/PropsHandles.v. C149_history: after any history of calls - opening, reading, writing, closing and removing, through any handles - the content of the file of a handle is what it was, changed by the writes that succeeded through handles of that file and emptied by the openings for receiving that gave another handle of that file, in this order, and by nothing else; C149_same: two handles are of one file for ever or never; C149_read: a read through an open handle gives the bytes at the position asked for, whatever the handle, or another handle of the file, was used for before, and changes nothing; C149_write: a write succeeds exactly through an open handle that was opened for receiving, at a position below 2^63; then all handles of that file, and no others, have the new content; otherwise nothing has changed; C149_opened: a file opened for receiving that was not there, or was a regular file, is empty, and a file opened for sending has the content it has on the disk; the handle is a new one."
  },
  {
   "property": "C150",
   "status": "proved",
   "theorems": [
    "C150_open",
    "C150_closed",
    "C150_close",
    "C150_nil",
    "C150_removed",
    "C150_nameless",
    "C150_delete",
    "C150_delete_never",
    "C150_emptied"
   ],
   "note": "Statements in rocq/theories/PropsHandles.v. C150_open: a handle that was handed out is open as long as it was not closed, through FileClose or FileDelete, however often anything else was done; C150_closed: every read, write and close through a handle that is closed reports an error, for ever; C150_close: closing reports success exactly if the handle is open; nothing else changes; C150_nil: with nil in place of a file everything is an error and nothing changes; a read of fewer than 0 bytes panics even then; C150_removed: removing a name that leads to a file leaves the open handles of the file open and with their content, but without a name; C150_nameless: a file without a name never gets one again: it stays so, no handle opened later is of that file, and writing to it changes no file that has a name; C150_delete: FileDelete of a file that was opened by a name is FileClose and then FileRm of the name fp.Name() gives, whatever happened in between - and that is sardir/name, so FileRm looks for sardir/sardir/name; C150_delete_never: so with an ordinary absolute sardir FileDelete always reports an error and removes nothing, but the file is closed; C150_emptied: opening for receiving a name whose file is open empties that file under the handle. The code does not do what one would expect here: the theorems prove what it does instead."
  },
  {
   "property": "C151",
   "status": "proved",
   "theorems": [
    "C151_rounding",
    "C151_number",
    "C151_written",
    "C151_integer",
    "C151_fraction",
    "C151_negative",
    "C151_setting"
   ],
   "note": "Statements in rocq/theories/PropsNumbers.v. C151_rounding: a fraction is rounded to one float64, and to no other; C151_number: a number of the configuration counts as its whole part, once rounded to a float64; one that no float64 holds makes the configuration unreadable; what the others count as is not modelled: those of -1 and less, of 2^63 and more, and with an exponent of six digits; C151_written: how a number is written makes no difference; C151_integer: an integer of at most 2^53 counts as itself, with or without a point or an exponent; C151_fraction: a number with a fraction, n <= p / q < n + 1, counts as n, except where it is so close to n + 1 that it is rounded to it: within 2^-54 of 1, 2^-53 of 2, 2^-52 of 3 and 4, and twice as far again above each further power of 2; C151_negative: between -1 and 0 a number counts as 0, unless it is rounded to -1; C151_setting: so the setting that ReadConfig finds under a name is the whole part of the last number the text gives for it."
  },
  {
   "property": "C152",
   "status": "proved",
   "theorems": [
    "C152_data",
    "C152_data_panics",
    "C152_status",
    "C152_status_panics",
    "C152_request",
    "C152_request_panics",
    "C152_request_make",
    "C152_beacon",
    "C152_beacon_name_only",
    "C152_beacon_panics",
    "C152_meta",
    "C152_meta_panics",
    "C152_meta_make",
    "C152_meta_make_panics",
    "C152_own",
    "C152_one",
    "C152_no_pointer",
    "C152_others",
    "C152_session_cut"
   ],
   "note": "Statements in rocq/theories/PropsReflect.v. C152_data: given a pointer to a structure with the members Session, Offset and Payload, whatever else it has and whatever its type, New and Make make the data frame with those values; C152_data_panics: given anything else they panic, unless the flags are refused before; C152_status: the same of status frames; C152_status_panics: anything else makes them panic; C152_request: New of requests takes any member, or none, for the file name; Make panics whatever it is given; C152_request_panics: anything else makes New panic; C152_request_make: no value at all can be given to Make of requests; C152_beacon: beacons: given a structure with an unsigned Freespace; C152_beacon_name_only: given a structure without one they panic exactly if the free space is to be told: if with one kilobyte free, and a working directory, the beacon would say so. Otherwise the beacon is made; C152_beacon_panics: given anything else they panic, unless the flags are refused before; C152_meta: metadata: New wants an unsigned Session and takes any member, or none, for the file name; C152_meta_panics: given anything else it panics, unless the flags are refused before, whatever is given: if they are not, then the frame takes the session it is given; C152_meta_make: Make takes the type of the session for the file name; C152_meta_make_panics: and panics without one; C152_own: the pointers that are meant, which the program itself passes, are accepted: New and Make, without that of requests, then do what the other properties say; C152_one: a value says one thing only: what New reads from it is determined; C152_no_pointer: without a pointer, for a structure passed as it is, for nil and for a nil pointer, nothing can be made; C152_others: the structure meant for one type of frame is no use for another, save that metadata can be made of whatever has a session; the file name is then that of a request, and \"<invalid Value>\" of data and status; C152_session_cut: a session number that does not fit 32 bits is cut without an error (defect): New makes the frame of its remainder. The code does not do what one would expect here: the theorems prove what it does instead."
  },
  {
   "property": "C153",
   "status": "proved",
   "theorems": [
    "C153_writes",
    "C153_shown",
    "C153_quiet",
    "C153_mixture",
    "C153_timed"
   ],
   "note": "Statements in rocq/theories/PropsListing.v. C153_writes: what the main loop writes while a history of beacons arrives is, when all of it is done, what registering the beacons one after the other does; C153_shown: whenever the beacons arrive, before, between and after the looks of the command at the table: the command ends, and what it shows is made of what was there and what the beacons said; C153_quiet: if nothing arrives, it is the table of C103; C153_timed: the hypothesis on the table holds of every table that beacons have made. The code does not do what one would expect here: the theorems prove what it does instead."
  },
  {
   "property": "C154",
   "status": "proved",
   "theorems": [
    "C154_header",
    "C154_dirent",
    "C154_time",
    "C154_shipped"
   ],
   "note": "Statements in rocq/theories/PropsNames.v. C154_header: the flags of a header. Good says which flags there are; Valid says which options a flag has, and so does Value with a number that is not negative; setting succeeds with these, whatever the header, and ends the process with any other; C154_dirent: the flags of a directory entry. FlagD lists the flags, FrameD the options of each; they are those that GoodD and ValidD know, those that can be set, and every name that is read from an entry is among them; C154_time: the kinds of timestamp, which FrameT lists, GoodT knows and SetT sets; C154_shipped: the names of the shipped configuration."
  },
  {
   "property": "C155",
   "status": "proved",
   "theorems": [
    "C155_all",
    "C155_started",
    "C155_removed",
    "C155_wrong",
    "C155_kind",
    "C155_find_started",
    "C155_find_removed"
   ],
   "note": "Statements in rocq/theories/PropsTranlist.v. C155_all: files, and tran without a type, look at the length of the table and then at one transfer after the other. If, when the command comes to the transfer number [i], the table has no more than [i] transfers, the program ends; this is the only way it can fail. Else it shows as many transfers as there were at its first look, each as it is found in its place; C155_started: while no transfer is removed, a listing shows exactly the transfers (of the kind) that are there at its first look, however many are started meanwhile; C155_removed: what one removal does to a listing. A listing of the transfers of a kind looks once at the length of the table, once at each transfer, and once more at each of the kind (of all kinds: once at each). A removal before the first look leaves the last transfer out; one after the last look is not noticed; at every other moment it ends the program; C155_wrong: a listing of one kind can show a transfer of any other kind: when the last transfer is of the kind, and it is removed and another one is started between the two looks at it, this other one is shown as if it were of the kind (defect); C155_kind: whatever happens meanwhile, a listing of one kind that does not end the program shows no more transfers than there were at its first look, and in the place of each of them there was one of the kind just before; C155_find_started: while no transfer is removed, the transfer that rmtran means is looked for among those that are there at the first look; C155_find_removed: what one removal does to looking for a transfer. The search looks at the length of the table and then at the last transfer: once, if it is not connected to the address; twice, if it is but has another session; three times, if it is the one that is meant. A removal between the look at the length and the last of these looks ends the program (defect). Before that the search goes through the remaining transfers, after that it is not disturbed. The code does not do what one would expect here: the theorems prove what it does instead."
  },
  {
   "property": "C156",
   "status": "proved",
   "theorems": [
    "C156_write",
    "C156_extremes",
    "C156_refused",
    "C156_persists",
    "C156_read",
    "C156_reads",
    "C156_reads_all",
    "C156_collects"
   ],
   "note": "Statements in rocq/theories/PropsPartial.v. C156_write: whatever the system does, a write through an open file changes at most a prefix of the bytes in their place, and the number it returns is the length of this prefix; without an error this is all of them, with an error (and bytes to write) it is fewer; C156_extremes: a system that does what it is asked to lets every write succeed; one that fails at once, or writes nothing, lets every write of one byte or more fail without a change; C156_refused: a file that is closed, not opened for writing, or a position of 2^63 or more: nothing is written and there is an error; C156_persists: after an error, writing what was not written behind what was, as often as there is an error, leaves in the file exactly what one write without an error would have left, whatever the system did; C156_read: whatever the system does, a read of an open file gives bytes of the file from the position on, at most as many as were asked for and at least one (unless none were asked for), and there is an error exactly if the system fails or the position is at the end or behind it. The file does not change. It may be fewer than were asked for although there are more; C156_reads: reading on behind what was read, whatever the sizes asked for and given, until there is an error, gives the bytes of the file in order: up to some point; up to the end if the system did not fail; C156_reads_all: without failing system calls, reading on until there is an error gives all the rest of the file; C156_collects: chunks of a source written to an open file, each once, in any order, on a system that may fail or write less: every byte that was reported as written is that of the source, whatever became of the others."
  },
  {
   "property": "C157",
   "status": "proved",
   "theorems": [
    "C157_two",
    "C157_writes",
    "C157_refused"
   ],
   "note": "Statements in rocq/theories/PropsPartial.v. C157_two: two calls on one open file at once, each a read or a write. When both are at their end, what is in the file and what they returned is as if one had come after the other, each at its own place - or one after the other, but both at the place that one of them (whichever) had asked for: the first there, the second right behind the first. There is a schedule for each of these; C157_writes: two writes at once on one open file both report that all was written. But the file may hold the bytes of both one behind the other, at the place of either of them, in either order, and nothing of them at the place of the other (defect); C157_refused: a call for a place that no file has is refused, and the other call goes on as if it was not there. The code does not do what one would expect here: the theorems prove what it does instead."
  },
  {
   "property": "C158",
   "status": "proved",
   "theorems": [
    "C158_table",
    "C158_pointer",
    "C158_kept",
    "C158_moved",
    "C158_removes",
    "C158_wrong"
   ],
   "note": "Statements in rocq/theories/PropsSlots.v. C158_table: the table in its arrays is the table of the other properties: what is started comes to its end, and a removal takes the last one; C158_pointer: what the pointer that a search returns points to after others have started and removed transfers; C158_kept: as long as the table is never so short that the place is free, the pointer points to the transfer that was found; C158_moved: once the table has outgrown its array the pointer points to the same for ever, whatever is started and removed, also when this transfer is no longer in the table; C158_removes: rmtran, when it comes to the removal, looks for whatever its pointer points to then: if it is in the table, the last transfer of the table is removed and nothing is said; otherwise nothing is removed and there is an error; C158_wrong: rmtran finds the last transfer; before it is removed another command removes it, and a new transfer is started. Then rmtran removes the new transfer, which has another session and may have another peer, and says nothing (defect). The code does not do what one would expect here: the theorems prove what it does instead."
  },
  {
   "property": "C159",
   "status": "proved",
   "theorems": [
    "C159_range",
    "C159_steady",
    "C159_check",
    "C159_unnoticed"
   ],
   "note": "Statements in rocq/theories/PropsSlots.v. C159_range: a loop by range sees as many transfers as there are at its beginning, and in each place what a pointer to it would show: the transfer of the beginning, or one that took its place. It never goes beyond the end; C159_steady: while transfers are only started, or only removed, a loop by range sees exactly the transfers of its beginning; C159_check: the check before a transfer is started decides by the transfers that the loop sees, and never ends the program; C159_unnoticed: so a transfer that is started meanwhile is not noticed: if there is no objection in the table at the beginning, the same file may be started to the same peer twice, however the two starts are interleaved (defect); and one that is removed meanwhile still is an objection. The code does not do what one would expect here: the theorems prove what it does instead."
  },
  {
   "property": "C160",
   "status": "proved",
   "theorems": [
    "C160_killed",
    "C160_failing",
    "C160_others",
    "C160_again",
    "C160_lost",
    "C160_gap"
   ],
   "note": "Statements in rocq/theories/PropsCrash.v. C160_killed: killed at any moment, with a system that does what it is asked to (in one call or in several), the process leaves exactly the chunks up to some byte, in the order they were written: every such cut can happen, and nothing else; C160_failing: when writes can also fail (a full disk, an error of the device) and the caller goes on with the next chunk: exactly the chunks up to some chunk, of each a prefix; C160_others: in either case no other file is touched; C160_again: the process opened a file to receive into, wrote to it, and was killed at some moment. Started again with the same name, it opens the same file and empties it, whatever was received; only if the file is seen at the second place (sardir twice) opening is refused; C160_lost: with a directory of transfers that has an absolute name and does not contain a directory of its own first name, this is always so: all that was received is lost; C160_gap: the file does not tell what was received: bytes that were never received, in front of some that were, are zeros, and so are zeros that were received. The code does not do what one would expect here: the theorems prove what it does instead."
  },
  {
   "property": "C161",
   "status": "proved",
   "theorems": [
    "C161_data",
    "C161_status",
    "C161_instant",
    "C161_status_instant"
   ],
   "note": "Statements in rocq/theories/PropsTicks.v. C161_data: a data frame built from flags while the clock moves, between 2000 and 2105, is the frame that is built when all of it happens at one instant, that of the last flag that asks for the time; if none does, at any instant; C161_status: the same for a status frame; C161_instant: a frame with the time in it carries one instant, not parts of two: that of the last flag that asks for it. Without such a flag the time stays what it was; C161_status_instant: the same for a status frame."
  },
  {
   "property": "C162",
   "status": "proved",
   "theorems": [
    "C162_bounds",
    "C162_open",
    "C162_collected",
    "C162_exhausted",
    "C162_vain"
   ],
   "note": "Statements in rocq/theories/PropsSockets.v. C162_bounds: whatever happens, the transfers started are those of the table and those removed; the sockets and files of the table are open, and those of removed transfers are still open except for those that the garbage collector has closed; C162_open: the program itself closes nothing of a transfer: until the garbage collector runs, every socket and every file of every transfer ever started is open, whatever has been removed; C162_collected: a garbage collector that closes all it may leaves those of the table (and of beacons) open; C162_exhausted: once the sockets that the system has are open, no transfer that is started gets a connection, however many of the others are removed, until the garbage collector runs; C162_vain: then transfers are started in vain: one that is started gets no connection, and the start after it is refused, and leaves the table as it was with or without that one. The code does not do what one would expect here: the theorems prove what it does instead."
  },
  {
   "property": "C163",
   "status": "proved",
   "theorems": [
    "C163_sound",
    "C163_lost",
    "C163_kept"
   ],
   "note": "Statements in rocq/theories/PropsPower.v. C163_sound: when the power fails, at any moment, a byte of the file on the disk is one that the file had there at some moment of receiving, or a zero behind the end of what was there before; and the file is no shorter than before and no longer than received; C163_lost: even after all of the chunks were written without an error and the file was closed, the disk may hold any of them and none of the others: all, none, or the later ones without the earlier; C163_kept: a file whose bytes are all written back after the last call is on the disk as it was received. The code does not do what one would expect here: the theorems prove what it does instead."
  },
  {
   "property": "C164",
   "status": "proved",
   "theorems": [
    "C164_sets",
    "C164_exact",
    "C164_bytes",
    "C164_equal",
    "C164_foreign"
   ],
   "note": "Statements in rocq/theories/PropsTorn.v. C164_sets: undisturbed, the command line sets the type that [stamp_set] says, and no other leaves another type; C164_exact: the types that a transfer may take which is started while commands change the type are exactly these: the bytes at the place of one of the types that were set, as many as another of them has, the two being restricted only by the order in which the two words are accessed; C164_bytes: with a length that is not above that of the type which is there, the transfer takes the first bytes of that type; with a greater one it takes all of it and then whatever the memory has behind; C164_equal: if all the types that are set are of one length, the transfer takes one of them; C164_foreign: in whatever order the words are accessed, one change between 32-bit seconds and 64-bit seconds with nanoseconds lets a transfer take 64-bit seconds, which is a type that nobody set. The code does not do what one would expect here: the theorems prove what it does instead."
  },
  {
   "property": "C165",
   "status": "proved",
   "theorems": [
    "C165_exact",
    "C165_history",
    "C165_order",
    "C165_removals",
    "C165_beyond"
   ],
   "note": "Statements in rocq/theories/PropsSpan.v. C165_exact: what a loop over the table may go over while others start and remove transfers: exactly the array of one of the tables that were assigned with the length of another, restricted only by the order in which the two words are accessed; C165_history: every history of starts and removals assigns some arrays and lengths; C165_order: written array first and read length first, the two words never let the loop go beyond the end of its array; C165_removals: nor does it in any order, if transfers are only removed; C165_beyond: in the other orders, when the table fills its array and one transfer is started, the loop may go over one element more than the array has; an array has been filled when the very first transfer is started. The code does not do what one would expect here: the theorems prove what it does instead."
  }
 ]
}