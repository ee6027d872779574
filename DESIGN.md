# Formal model of charlesetsmith/saratoga in Rocq (Coq 8.16.1)

The code is modelled function by function as total Gallina functions; every definition cites the file and lines it models.
Outcomes of Go functions are explicit: a normal return (possibly with an `error` value and a partially updated receiver),
a run-time panic (index or slice bounds, nil, division by zero), or `log.Fatal` (process exit).

Files: `*.v` model files; `*Facts.v` lemmas; `Spec*.v` the small specifications used in theorem statements;
`Props*.v` contain only the property theorems (closed by `exact`), non-vacuity examples and `Print Assumptions`.

## Plan per property

### flags: C01-C10, C90

* `Flags.v` models `sarflags.go` function by function over explicit tables (association lists for Go maps),
  with uint32/uint16/uint8 wrap-around arithmetic on `N`. `Config.v` models `ReadConfig` over a JSON value tree and contains
  the shipped `saratoga.json` as a term; the tables used by all codecs are *computed* from it.
* C01, C02, C05: bit-level specification of a field (`testbit` inside/outside the field), proved for every table and header.
* C03: fold over any permutation of settings, pairwise disjoint fields. C04: `getstr` over any permutation of the options.
* C06, C07: `ReadConfig` folds over the key list; commutation of the per-key steps for distinct keys gives permutation invariance.
* C90: generic lemmas about loops over the members of an object (which member determines which part of the result), applied at
  every level of the document.
* C08, C09: flag-list strings, laws by induction over the list of items. C10: field by field, negative part as `_refuted`.

### timestamps: C11-C15, C102

* `Timestamp.v` models `New/Put/Get/Now` over an abstract instant (unix seconds, nanoseconds) with int64/uint64 conversions.
* C11 round trip by cases on the type; C12 exact post-condition of `New`; C13, C15 negative theorems; C14 exact trichotomy on the type byte.
* `Clock.v` models `Print` with the parts of Go's package `time` it uses (Unix, UTC, Format). `SpecClock.v` defines the
  calendar by "the day after" only. C102: the year and day arithmetic of package `time` is shown to be the calendar by
  linear arithmetic on the 400-year cycle; texts are shown to determine the instant.

### holes: C16-C22

* `Holes.v` models `Add/optimise/remove/Getholes`; `sort.Slice` is *any* permutation sorted by Start.
* C16-C18 invariant + set semantics + uniqueness of canonical form; C19, C20 from the invariant; C21 fuel bound;
  C22 in `HolesAlias.v`, a model with explicit backing arrays.

### codecs: C23-C40, C43-C49, C69-C73

* One file per frame type (`Data.v`, `Status.v`, `Request.v`, `Beacon.v`, `Dirent.v`, `Metadata.v`), each `Encode` written
  as the code does it (allocate, then overwrite at positions, with Go's slice bound checks), each `Decode` with its partial
  updates of the receiver, panics and log.Fatal.
* Layout theorems against declarative layouts in `SpecFrames.v`, `SpecStatus.v`, `SpecRequest.v`, ...; round trips; exact crash characterisations; constructors.

### reasons: C144

* The error values of the codecs are in their models, with their texts. `SpecReason.v` lists the reasons by the bytes of a datagram, by the items
  of a flag list and by the file. C144: case analysis along the verdicts of C25, C30, C35, C40, C45 and C48, induction over flag lists.

### headers: C145

* `SpecHead.v` says when two datagrams differ only in their headers and when two results are the same but for the header. C145: the decoders read the
  header once and test the named fields only; the encoders write it first and never touch its bytes again (the frame stays header ++ rest).

### memory: C146-C148

* `Memory.v`: slices as references to arrays with start, length and capacity; make, copy and append; decoders, encoders, New and the listener again on
  such a memory. C146: every result equals that of the value model and lies in new arrays. C147: induction over the datagrams. C148: what append and copy
  do to an array that two slices share.

### handles: C149-C150

* `Handles.v`: handles with an offset and an open flag, which name a file by its path or, once its name is removed, by itself, over the file system of
  `Fileio.v`. C149, C150: one lemma per call about contents, sharing, openness and names, then induction over histories of calls.

### keyboard: C142

* `Focus.v`: gocui's current window, the text behind the prompt, and one goroutine per `clear` command whose steps are those of `Clearwin`.
  C142: invariants over all interleavings; an explicit schedule, for any two commands, that loses the keyboard.

### mutexes: C143

* `Locks.v`: the functions that lock, as statements in which branches and loops are left open, and the ways to execute them (with deferred unlocks);
  goroutines with any such executions, and Go's mutexes. C143: a checker for the statements, proved sound by induction over executions, gives the
  discipline each goroutine keeps; the rest are invariants over all schedules.

### part of a buffer: C141

* `Part.v`: a slice as a buffer and a length, with Go's rules for slices of slices (bounds against the capacity in `s[i:j]`,
  against the length in `s[i:]` and `s[i]`), and the decoders once more over it. C141: by following both decoders side by side.

### peers: C41-C42

* `Peers.v`: table as list, `NewPeer` as a function; refinement to a map by induction over histories; a two-step
  (scan, append) interleaving model for C42.

### files: C50-C54, C74, C140

* `Fileio.v`: file system as a map from normalised paths to nodes, path resolution, open files with offsets.
* C50 by list lemmas, C51 combines C50 with C16; C52-C54, C140 exact characterisations, with witnesses.
* C139 (daemon): an invariant of runs without lethal events; the other direction from every reachable state.

### daemon: C55-C60, C75-C76, C139

* `Listen.v`: per-datagram function of `listen`; `Trans.v`: `AddRxTran`; `Daemon.v`: small-step machine of two listeners,
  main loop and unbuffered channels. C55, C56 by cases; C57, C58 by cases; C59, C60 invariants over all schedules.

### sarwin: C61-C68, C77-C82, C83-C89, C91-C97

* `Sarnet.v`: address texts, list removal, disk usage. C68, C77, C78 by induction on texts and lists.
* `Transfer.v`: session ids, the transfer table (with an explicit memory, so that pointers into the table and copies
  differ), Change, WriteStatus, NewInitiator, NewResponder. C61-C65, C79, C80, C82 by induction on the table and by
  cases; C61, C79, C81 by an invariant over all histories of the table; C81 over all interleavings of two callers.
* `Words.v`, `Cli.v`: splitting lines into words, the commands, and a small-step model of the program in which goroutines
  started by command lines interleave at the points where they block, send or touch shared variables. C67, C83-C86 by
  cases on the words; C66, C87-C89 by invariants over all runs (all lines, all schedules, all answers of the system);
  C91 by an invariant that relates what a goroutine has sent to what it still has to do; C92, C94, C96, C97 by cases on
  the words and induction on the table; C93, C95 by invariants over all runs.

### frametext: C112-C114

* `FrameText.v`: `Print` and `ShortPrint` of every kind of frame with the texts they make, and what main and the listeners print
  of a frame. `SpecFrameText.v` lists, for every kind, the parts of the text: fixed words, numbers in base 10 and 16 (by an
  inductive definition of numerals), names of flags, times. Proved by showing that the model writes those parts, then, for C113,
  by cutting equal texts at line ends from the front and, because names may contain line ends, from the back; for C114 by
  constructing the bytes to add.

### transmit: C115-C117

* `Transmit.v`: the five `Send` methods over a socket that answers (how much it took, or an error), with what they write.
  `SpecTransmit.v`: the wire form of every frame from the layouts, and what a well-formed frame is. C115 by cases of the answer;
  C116 by composing the round trips of C24, C28, C33, C39, C46 with the listener; C117 from C29, C47 and the listener's limits.

### outbound: C118

* `Outbound.v`: `OutboundIP` over the answers of the host name and the resolver, with `To4` and `To16` of package `net`. Proved
  by induction over the list of addresses.

### diskuse: C130

* `DiskUse.v`: `Usage` with float32 as the binary32 numbers of Flocq, `NewDiskUsage`, and the Windows variant over what the
  documentation of Windows says the system call stores. Proved by the correctness of Flocq's conversion and division (which give
  a rounded real number) and a bound on the product of the three rounding errors.
### flagtext: C133

* No new model: `FlagValue`, `ReplaceFlag`, `ReplaceFlagD` and the six `New` are those of C08, C26 and C69-C73, now on arbitrary
  texts. `SpecFlagText.v`: what an item and a text say, as relations; the verdict on a name alone. Proved by showing that
  cutting and joining are inverse, then by induction on the items, once for all constructors.
### tell: C136-C138

* `Cli.v` holds what every command shows; what NewInitiator shows when it refuses or adds a transfer is modelled too (texts of
  system errors are not). `SpecTell.v`: tables of what is said when a command is given alone, after it has set something,
  and when it is not understood. C136-C138 by cases on the command and its words, for every state.

### shared: C134-C135

* `Shared.v`: the settings as memory; each command on the settings, each beacon command and each transfer being started is a
  goroutine that makes a list of single accesses (lock, unlock, the two halves of an assignment to a map element, a look at
  the map, an assignment to or a copy of a member). To find the map half written is the end of the program.
* C134: by an invariant: outside the lock the settings are those of the finished commands one after the other; the holder of
  the lock has the rest of its own accesses to make. C135: by that invariant, by an induction over the run that keeps the
  settings found at each access of a copy, and by schedules for what can happen.

### json: C131-C132, C151

* `Json.v`: `json.Unmarshal` into a map, as one pass over the bytes (the package's scanner and decoder), with its limit on
  nesting, UTF-8 and surrogates. `ShippedText.v`: the bytes of `saratoga.json`. `SpecJson.v`: the grammar of JSON as inductive
  relations between a value and its texts, independent of the parser. C131: soundness by induction on the parser's fuel,
  completeness by mutual induction on the grammar; uniqueness and layout follow. C132: the shipped bytes by computation (one
  closed term, the property is about it), the rest from C131, C06 and C111. C151: `strconv.ParseFloat` as exact integer arithmetic;
  the specification is IEEE 754's: of all float64 none is closer, ties to even. That it has one answer, and which whole part that has, by arithmetic.
### reflect: C152

* `Reflect.v`: the values of Go as package `reflect` shows them (kinds, types as text, members), `Elem`, `FieldByName`, `Uint`,
  `Int`, `String`, `Bytes`, `Len`, `Index`, and New and Make of every frame on any such value. `SpecReflect.v`: what a value says, as
  relations on members. Shown by relating each reading to its relation in both directions; on pointers to the structures that are
  meant the constructors are those of the other files, so every other property of New and Make holds of these too.
### names: C154

* `NamesMain.v`: the lists of names and the tests of names of `Flags.v`, by cases on what the tables say of a name.
### listing: C153

* `Listing.v`: NewPeer as a list of writes to members, the peers command as a tree of reads of members, and their interleaving under
  any schedule. `SpecListing.v`: what was offered for an address by the table or a beacon; rows and tables made of it; mixtures.
  What may be shown: an invariant of all tables between two writes (every member offered), and a weakest-precondition calculus for
  the tree. Every mixture: an explicit schedule, each write just before or just after the read of its member.
### tranlist: C155

* `Tranlist.v`: Info and Match as trees of looks at the table of transfers, amid any schedule of transfers started and removed.
  `SpecTranlist.v`: what a history of changes makes of a table, the tables at each look, what is listed and found. By induction
  on the number of transfers that are left, with the schedule and the table general; the harmful moments are counted exactly.
### partial: C156-C157

* `Partial.v`: FileSeek, FileRead and FileWrite over a system that answers every read(2) and write(2) with a number of bytes or a
  failure, and two such calls as two steps each under any schedule. `SpecPartial.v`: attempts repeated until one has no error,
  reading on, collecting chunks; a call's effect at an offset, two calls in turn and one behind the other. C156 by induction on the
  answers, attempts, reads or chunks. C157 by an invariant over the nine pairs of phases, and an explicit schedule for each outcome.
### crash: C160

* `Crash.v`: a process that opens a file with FileOpen and writes chunks with FileWrite, one step for each system call, and can be
  killed after any step. `SpecCrash.v`: chunks cut off at a byte, prefixes of chunks. What is left: soundness by induction on the
  steps (a write that goes on in several calls is one cut chunk), completeness by an explicit run for each cut. Starting again: names
  lead to the same place when only a regular file changed, then C52.
### ticks: C161

* `Ticks.v`: New of data and status frames where each flag is worked on at its own instant. `SpecTicks.v`: the flags that put the time
  in, the last of them, one instant in a timestamp. By a simulation between the run under the moving clock and the one at the last
  instant (equal but for the time until then), by induction on the flags.
### chars: C67

* `Chars.v`: strings.TrimSpace and strings.Fields with UTF-8 decoded as package utf8 does, from the front and from the back. That they
  give the words of the specification, for texts of any bytes, by comparison with `Words.v`, which cuts byte by byte.
### span: C165

* `Span.v`: the table of transfers of `Slots.v` whose slice is written and read word by word, on the machine of `Torn.v`. The pairs of
  array and length by the closed form of C164; capacities by invariants along the changes. `SpecSpan.v`: the arrays and lengths that a history assigns.
### torn: C164

* `Torn.v`: a string of the settings as two words of memory, assigned by commands and copied by the start of a transfer, one word per
  step. `SpecTorn.v`: the types that were set, and which place can come with which length. By a closed form of the two words after any
  number of accesses; every pair by constructing the schedule.
### power: C163

* `Power.v`: the process of `Crash.v` on a machine that writes bytes back to the disk at moments of its choice and stops. `SpecPower.v`:
  a choice among chunks. What the disk may hold: bounds by induction on the history from its end, with the invariant of C160; any choice
  of chunks by constructing the history.
### sockets: C162

* `Sockets.v`: the number of sockets and files open while transfers are started and removed, beacons are sent, and the garbage collector
  closes some of what is no longer reachable. `SpecSockets.v`: transfers with a connection or a file, a system with a limit. By
  invariants along histories: the transfers started are a permutation of the table and those removed.
### slots: C158-C159

* `Slots.v`: the table of transfers as a Go slice (arrays, length, append in place or to a larger array, with any growth), Match's
  pointer into it, Remove through it, and loops by range over the array of their beginning. `SpecSlots.v`: what a pointer comes to
  while the table changes, the capacity, what the check before a start decides. By an invariant of the memory and induction on
  the changes; arrays that were left are never written again.
### client: C123-C129

* `Client.v`: `filedescriptor`, `maxpaylen`, `senddata`, `readstatus` (what it does with one datagram and its loop), the loop of
  `cput`, `cputrm`, `Doclient`, over a file, an MTU, clocks and the results of the socket. `SpecClient.v`: the parts of a file,
  the frame for each part, merges of the two tasks' messages. C123 by an invariant of the loop (position, frame counter and
  flag text). C124 from C123, the codec (C23, C24), the gap list (C16-C18) and writing of chunks (C51). C125 by the length of
  the last frame. C126 by cases on the hole, and arithmetic on the offsets. C127 by induction on the messages and on the merge.
  C128 by cases on the header. C129 by cases on the answers of the system.
### cursor: C119-C122

* `Cursor.v`: a gocui window (origin, cursor, size, lines) with the calls the code makes on it, the key handlers, drawing with
  autoscroll, the command line editor, `GetLine` and `prompt`; a printed prompt is on its way until it arrives. For lines
  shorter than the window. `SpecCursor.v`: rows, what is shown, a transcript of a session. C119 by cases and induction on
  the number of key presses; C120 by invariants over histories; C121 by induction over the commands typed with the
  complete state after each; C122 from that state.

### startup: C110-C111

* `Startup.v`: `main` up to its loop, over a system that answers: arguments, SARDIR, the file tree of `Fileio.v` (so that
  changing the directory and looking it up again use the same path resolution), the JSON parser, interfaces, sockets.
  `SpecStartup.v` lists what has to work and why the program refuses, in order. Proved by case analysis in both directions;
  the started process is shown to be the initial state of `Node.v`.

### screen: C105-C109

* `Screen.v`: the windows in gocui's drawing order, `Layout`, the keys Ctrl-Space, Ctrl-P and Ctrl-C, and the goroutines that
  gocui's `Update` starts, which hand texts to the main loop in any order; `setcolour` and its maps. `SpecScreen.v` says which
  part of the terminal each window is meant to take and which window is seen in a cell, how a history of events ends, and
  the ANSI codes. Proved by an invariant over runs (which orders of the windows are possible), arithmetic for all sizes, and,
  for the order of texts, by constructing a schedule for every permutation.

### tables: C103-C104

* `Table.v`: the texts of the tables, with `utf8.RuneCountInString` and the padding of package `fmt`. `SpecTable.v` defines
  the columns of a text (one per UTF-8 character or stray byte). C103, C104: the program's way of counting characters is
  shown to be that one by cases on the first bytes; alignment follows from sums over the columns; C103 uses the
  invariants of the whole program (C98) for what the table can hold.

### whole program and network: C98-C101

* `Node.v`: one process is the daemon machine and the command line machine with shared peers and files; a network of such
  processes that loses, repeats and reorders datagrams. Every run of a node projects to a run of each part, so the
  invariants of both apply (C98, C99). C100, C101: everything read was sent, everything sent is a beacon of a beacon command.

## Defects
Where the property a user would expect is false of the code, the statement in `properties.jsonl` says what the code does
instead (title ends in "(defect)") and the theorem proves that, for all inputs where possible.

## Trusted base
* The kernel of Coq 8.16.1 (with its `vm_compute` machine, which the examples and table computations use) and `coqc`.
* `Print Assumptions` follows every property theorem in `Props*.v`; each but those of C130 prints "Closed under the global
  context": no axiom, not even one of the standard library, is used by any of them. The three theorems of C130 are about
  floating point numbers and so about real numbers; for each of them it lists the four axioms of the standard library that
  its real numbers need: `ClassicalDedekindReals.sig_not_dec`, `ClassicalDedekindReals.sig_forall_dec`,
  `FunctionalExtensionality.functional_extensionality_dep`, `Classical_Prop.classic`. (The seven axioms of Coq's own
  `Coq.ssr.ssrunder` are visible when a library that loads ssreflect is loaded; no theorem depends on them.)
* That the model says what the code does. It was written by reading; every definition cites the lines it models, and
  simplifications are said in its comment. The Go code itself was not run.

### Modelled
* `sarflags`: all setters, getters, validity checks, `Setglobal`, `ReadConfig` over JSON values, the JSON text,
  and the shipped `saratoga.json`.
* `timestamp`, `holes` (twice: by value, and with shared backing arrays), `data`, `status`, `request`, `metadata` and the listener (twice in the same sense), `beacon` (frames,
  builders, printing, the table of peers), `dirent`, `metadata`.
* `fileio`: open, read, write, remove, metadata over a tree of directories, files and links; handles, close and delete over histories of calls.
* `frames`: `Encode`, `Send` on each kind.
* `sarnet`: addresses; `sarsys`: disk usage on Linux.
* `saratoga/saratoga.go`: `listen`, `main`; `trans/trans.go`: requests (`AddRxTran`).
* `sarwin/sarwin.go`: transfers and their table, every command of the command line, the line editor's Enter, all mutexes and the current window while windows are cleared, the mutex of
  the settings, the goroutines that command lines start, the texts of the tables; the windows, colours and keys of the screen;
  the cursor, scrolling and prompt of a window (gocui's own functions from its documentation); `client/client.go` `senddata`,
  `readstatus`, `cput`, `cputblind`, `cputrm`, `Doclient`, with `maxpaylen` and `filedescriptor` from comments in `sarwin.go`.
* New and Make of all frames, on any value of Go (package `reflect` from its documentation; no arrays of bytes, no pointers to
  arrays, and the value is not the frame that is being made).
* The peers command and the registration of beacons, interleaved read by read and write by write; listing and finding transfers
  while others are started and removed, look by look.
* The whole process, and any number of processes on a network.

### Not modelled
* JSON numbers of -1 and less, of 2^63 and more, and with an exponent of six digits or more (their text is parsed, but not
  what the program makes of them); what gocui does with lines longer than a window (it wraps them).
* Data races inside one Go statement: the machines interleave at channel operations, locks, sends and shared tables (C42
  and C81 model the tables' races, C134 and C135 those of the settings at a finer grain; there a string or a number is still
  read and written in one step, C164 has the timestamp type in two, and C165 the table of transfers), C153 those of `peers` with the beacons, also so,
  C155, C158 and C159 those of the listings, of `rmtran` and of starts with starts and removals, one transfer at a time.
* `server/server.go` and the handlers in `saratoga/saratoga.go`, which are commented out.
* In `client/client.go` (deprecated by its author, it does not compile): the flags of the request and the metadata, which are
  made with a function that is missing (that New succeeds is an answer of the surroundings).
* Sockets and interfaces: the answers of the kernel are arguments of the model, its network is the nondeterminism of the
  machines.
* `NewTime` and `GetOwnerAndGroup` of `sarsys` for macOS and Windows (the latter does not compile).
* Memory exhaustion, integer overflow of `int` counters that would need more than 2^31 events, signals.
