# Formal model of flu-network/client in Rocq (Coq 8.16.1)

## 1. Approach

The Go code in /repo is transcribed function by function into total, executable
Gallina definitions (`rocq/theories/*.v`), each with a comment citing file and
lines.  Properties (`/verif/properties.jsonl`, C01..) are stated as theorems in
files named `Prop*.v`, which contain only statements, one-line proofs
(`exact lemma`), non-vacuity `Example`s and `Print Assumptions`.

Conventions:

* Go `byte` = `Byte.byte`; Go `string` and `[]byte` = `list byte`; where a
  slice's spare capacity or aliasing matters it is modelled explicitly.
* Go `int`/`int64` = `Z` with explicit 64-bit wrap wherever a conversion or
  overflow can matter; `uint16/32/64` = `N` with an explicit `mod`.
* A Go function that may panic returns `res A := Ok | Err | Panic`.
* Disk-accessing code is written once as a program in an I/O tree (`io A`),
  with separate interpreters: fault-free run, run with injected I/O failures,
  and run killed after k disk effects (with a torn last write).
* Goroutines/channels/UDP become labelled transition systems with explicit
  schedules.
* SHA-1 is implemented concretely (so no hash axiom is needed); `encoding/json`
  is modelled concretely for the one struct that is stored.

Where the code violates what a user relies on, the theorem is named `..._refuted`
(with a concrete reachable witness) next to a guarded `..._partial` theorem.

## 2. Plan per property

| Property | Modelled | Proof method |
|---|---|---|
| C01-C10 bitset semantics | `common/bitset/bitset.go` over `list N` words, `Z` size | refinement to a predicate on indices, invariant by induction over operations; refutations by computation |
| C11,C12 bitset codec | Serialize/Deserialize | round trip, case analysis on length |
| C13 copy isolation | heap of backing arrays, slices with capacity | frame invariant over operation sequences |
| C14-C16 hash | `common/sha1Hash.go`, hex codec | round trip, exact acceptance set |
| C17-C22 wire format | `flu/messages/*.go`, byteReader over slice with capacity | round trips with trailing bytes, panic characterisation, injectivity |
| C23-C25 chunk reader, hashing | `common/chunkReader.go`, `common/utils.go`, io.SectionReader, os.File.ReadAt | loop invariants on fuelled loops |
| C26-C29,C34-C44,C70 catalogue | `catalogue/*.go`, `cli/cliMethodsClean.go` | invariant + refinement to an abstract map over all histories |
| C30,C31 index JSON | MarshalJSON/UnmarshalJSON plus encoding/json for that struct | round trip, prefix rejection |
| C32,C33 crash points | crash interpreter of the I/O tree | case analysis of crash points; invariant over all continuations |
| C45-C53 transfer | `flu/senderConnection.go`, `flu/recvConnection.go`, `downloadChunk`, `StartUpload` | state machines; prefix-of-stream invariant; refutation traces |
| C54,C55,C61,C62,C66 server | `flu/server.go`, handlers | functional correctness, invariants |
| C56 discovery deadlock | LTS with lock, channel, timer | reachable stuck state + stuck forever |
| C57-C60 replies | RespondToDiscoverHosts, RespondToListFilesOnHost, ListFilesOnHost | functional correctness; refutation by computation |
| C63-C65 download loop | `StartDownload` | termination measure, composition of sender, receiver, catalogue |
| C67-C69,C72 CLI | `cli/*.go` | arithmetic, case analysis |
| C71 concurrent uploads | interleaving of StartUpload handlers (`Uploads.v`) | refutation trace, guarded invariant |
| C73 serving a chunk returns | NewChunkReader's loop on files that shrink (`Chunk.v`) | exact characterisation of the endless loop |
| C74 fresh installation | NewCat, Init, RegisterDownload, SaveChunk | execution from an empty file system |
| C75-C77 repeated, failing, foreign downloads | `StartDownload` run by a scheduler (`Download.v`) | invariants over all replies, refutations |
| C78-C83 command line | `main.go`, `cli/*.go`, the RPC call, `net.ParseIP` (`Cli.v`, `NetIP.v`) | exact characterisation of the arguments and texts |
| C84-C86 several hosts | the download loop against any set of hosts (`SwarmSpec.v`, `OfferSpec.v`) | measure on missing chunks, refutation |
| C87, C88 two daemons | downloader, sender, receiver and catalogues composed (`PeerSpec.v`) | simulation along the transfer, termination |
| C114 many daemons | the downloader against any number of daemons with parts of the file (`PeersSpec.v`) | a refused request leads to silence, a served one to the simulation of C87; then C84 |
| C122 share, get, list | the commands on two machines, with the daemons of C87 between them (`EndProofs.v`) | the download loop keeps the daemon reachable (`sinv`); then C68 and C87 |
| C123 busy download | as C122, with other use of the daemon between the steps of the download (`BusySpec.v`: `busy`, `besides`) | the invariants of C87 and C122 hold across anything that leaves the entry and the file alone; the result satisfies `shares`, the hypothesis of C87 |
| C124 stays listed | everything that can happen to a daemon between `share` and a later `list`, restarts included (`StaySpec.v`: `onward`) | each event is a sequence of catalogue calls whose specification (C28) keeps the entry; then C68, C83, C29 |
| C89-C91 reading the socket | DialPeer's goroutine, its channel and its buffer (`Reader.v`) | LTS invariants, stuck states |
| C92-C95 concurrent catalogue calls | every memory and disk access of one entry is one step (`Fill.v`) | LTS invariant; refutations by executions |
| C96, C97, C115 opening any index file | Init and UnmarshalJSON on arbitrary bytes | the scanner and decoder accept exactly the grammar of `GrammarSpec.v` (inductive, after RFC 8259); induction on entries |
| C120, C121 no network | commands and the download loop when a socket cannot be opened (`Dial.v`) | case analysis of the model against `wants`, a list of the sockets each command needs |
| C118 content and hash | a file overwritten after it was shared; the download of it | the two daemons of C87; `ChangedSpec.v` overwrites one file |
| C119 size and hash | share while other programs write the file | `among`: executions with foreign steps between the calls |
| C117 Print of a bitset | `Print` | induction on the binary digits |
| C116 a killed first start | Init on a directory without an index, killed anywhere | `killed` of `IO.v`; `FirstStart.v` follows the calls of Init one by one |
| C125 a start without an index file | NewCat, Init, Load and Save on any disk without that index (`BootSpec.v`: `above`, `way_clear`) | the directories of MkdirAll are exactly those above the catalogue; the calls of Init one by one |
| C126, C127 clean with kills and failing calls | `Clean.v` under `killed` (any calls fail) and `cut_short` (none fails) | the states of a killed UnshareFile (C33) and an induction over the entries |
| C128 which commands end the daemon | `Dial.v` session_on, all commands and networks | case analysis over the requests; C41, C69, C83, C105 and C120 for the parts |
| C129 which commands crash the client | the same | the same, with C68, C81 and C82 |
| C130 which files a command may change | the same, under `killed` (any calls fail, killed anywhere) | the states of a killed share and registration (C32), C127 for clean, list and contains only read |
| C98, C99 races and deadlock | lock operations and shared accesses of every method (`Locks.v`) | lock sets, lock order; exact table of racing pairs |
| C100-C102 starting daemons | main.go's two goroutines, any number of processes (`Daemon.v`) | LTS invariants; refutations by executions |
| C103, C104 transfers over a lossy network | sender and receiver of `Transfer.v`; anything sent may arrive at any time, any number of times or never (`LossySpec.v`) | LTS invariant, exact characterisation |
| C105 metadata a download starts with | `start_download`, `download_meta` (`Download.v`), any datagram or none, any I/O fault (`StartSpec.v`) | case analysis, frame |
| C106 resuming a killed download | the loop with a kill inside any step (`ResumeSpec.v`), restart by `open_cat` | C63's invariant for the whole progress file; for a cut one an invariant over any number of restarts (bitsets whose last words are missing) |
| C107-C108 what is left of an upload | `srv_step` over the message handlers and workers of `Server.v`, with the catalogue and the files changing at will | induction over executions; n finished uploads built one after another; the exact state of an upload (C46) for the channel's room |
| C109-C110 several downloads | any number of `loop_step`s interleaved with catalogue calls and outside changes (`ManySpec.v`) | the abstract catalogue is determined by memory and disk; one step of a loop with a decreasing measure, frame for the other loops |
| C111-C113 uploads access by access | `Workers.v`: every access to `windowSize`, the reader's position and the channels is a step; any number of handlers, workers and acknowledgements | one request: refinement of `Transfer.v` (the worker is in the middle of a kick that has sent k packets); any number: invariant on the bytes read; refutations by schedules that are evaluated |

Every definition of the model carries a comment that cites file and lines; where a
definition simplifies, the comment says so.  Section 4 collects these places.

## 3. Trusted base

1. Coq 8.16.1: the kernel and `coqchk`.  std++ (coq-stdpp) is used as a library; it adds no
   axioms.  `vm_compute` is used in proofs, so the kernel's virtual machine is
   trusted, `native_compute` is not used.
2. Axioms: none.  `Print Assumptions` follows each of the theorems in `Prop*.v` and
   prints "Closed under the global context" for every one of them.  (A
   whole-library listing such as coqchk's also shows `Coq.ssr.ssrunder.Under_rel.*`, a module type of the
   standard library that std++ loads; no theorem depends on it.)  No
   `Axiom`, `Parameter`, `Admitted`, `admit`, section-less `Variable` or
   `Hypothesis`, no functor or module type, no switched-off check, no plugin.
3. The transcription: that the definitions describe the Go code as section 4
   says, and that the specification files (`*Spec.v`) say what the English
   statements in `properties.jsonl` mean.  Neither is machine-checked.  Both were
   tested by editing the model the way a bug would (`seeded/LOG.jsonl`).
4. The Go library and the operating system, as far as they are modelled from knowledge of Go 1.17 and
   not from source in /repo: `encoding/json` for the stored struct, UTF-8
   decoding, `crypto/sha1`, `encoding/hex`, `encoding/binary`, `path/filepath` (Clean as its
   byte loop, proved equal to the component-wise definition in `PathLoop.v`),
   `io.SectionReader`, `os` file calls, `sort`, `flag`, `net.ParseIP`,
   `fmt` verbs that are used, `net/rpc` with gob (omits empty slices, does not
   recover from panics), mutexes, channels, timers, UDP and Unix sockets.

## 4. What is modelled and what is not

| Go | Coq | Not modelled |
|---|---|---|
| `common/bitset/bitset.go` | `Bitset.v`; `BitsetHeap.v` with backing arrays; `BitsetPrint.v` | `Deb` (debugging only) |
| `common/range.go` | `Bitset.range` | - |
| `common/sha1Hash.go` | `Hash.v`, `Sha1.v` | `Array` (returns a pointer), aliasing of `Slice` |
| `common/chunkReader.go` | `Chunk.v` | - |
| `common/utils.go` | `Chunk.v`, `Catalogue.hash_of` | - |
| `catalogue/catalogue.go` | `Catalogue.v` (one call at a time), `Fill.v` (one entry, all interleavings), `Locks.v` (locks and accesses) | - |
| `catalogue/indexFile.go` | `Catalogue.v`, `Json.v`, `Utf8.v` | `Sprint` (unused) |
| `catalogue/indexRecord.go` | `Catalogue.v` | - |
| `catalogue/progressFile.go` | `Catalogue.v`, `Fill.v`, `Locks.v` | `Size`, `Count`, `Overlap`, `Ranges`, `UnfilledItems`: unused wrappers that lock and call the bitset |
| `flu/messages/*.go` | `Messages.v` (slices with capacity, panics) | - |
| `flu/ipv4.go` | `Server.new_ipv4` | - |
| `flu/server.go` | `Server.v`, `Discover.v` (response map), `Locks.v` | `Port` (getter), `sendToPeer` failing to dial |
| `flu/serverDiscoverHosts.go` | `Discover.v` (waiting), `Server.respond_discover`, `Dial.v` (a socket that cannot be opened) | - |
| `flu/serverListFilesOnHost.go` | `Server.v`, `Dial.v` (a socket that cannot be opened) | a failing `SetReadDeadline` |
| `flu/serverStartUpload.go`, `serverContinueUpload.go` | `Server.v`, `Uploads.v`, `Locks.v` | - |
| `flu/serverStartDownload.go` | `Download.v`, `SwarmSpec.v`, `OfferSpec.v`, `PeerSpec.v` | printed speed |
| `flu/senderConnection.go` | `Transfer.v` (with write errors of the socket); `Workers.v` (all interleavings) | write errors in `Workers.v` |
| `flu/recvConnection.go` | `Transfer.v`, `Reader.v`, `Dial.v` | - (write errors are ignored by the code: a datagram that is not sent is one that is lost) |
| `cli/*.go` | `Cli.v`, `Clean.v`, `NetIP.v` | texts of error messages; the usage texts |
| `main.go` | `Cli.main_mode`, `Daemon.v` | the profiling server, `UserHomeDir` failing |

Simplifications that matter when reading a theorem:

* File system (`IO.v`): no links, permissions or descriptors that outlive a call; a finished
  write survives the kill of the process (not a power failure).  A file that is
  opened for reading is its contents at that moment; C73 models a file that shrinks while it is read.
* `Catalogue.v` makes every method atomic.  Methods that lock are atomic with
  respect to each other; `Contains` and `Rehash` take no lock, and what they can see
  and spoil in between is the subject of `Fill.v` (C92-C95) and `Locks.v` (C98).
  `Fill.v` has one entry and no unshare, a bitset is a set of chunk numbers there, and copying or
  updating one is one step.
* `ShareFile` stats and hashes the file in two calls; the file does not change in between.
* `Clean.v`: no other call runs between the calls that `Clean` makes.
* `Transfer.v`: the file does not change during an upload, and each upload has one worker (one
  kickstart) that handles an acknowledgement in one step; C111 proves this exact for uploads that are
  requested once.  `Uploads.v` has several kickstarts but makes each one step.  `Workers.v` has
  neither restriction; there, accesses to memory are atomic and seen by all goroutines in one order.
* `Download.v`: every request for a chunk uses a fresh UDP port (a new socket);
  serverStartDownload.go:65-71 is one step because the lock is held; the
  datagrams that a host sends are arbitrary unless a theorem says otherwise.
* `Cli.v`: requests and responses arrive as sent except for gob's treatment of empty slices;
  the datagrams that `get` sends are not recorded, nor those of a daemon that dies.
* `Locks.v`: values, channel operations and socket reads while a lock is held are left out (C56 has the
  blocking send under the lock of the response map, C76 and C90 the waiting download);
  one lock and one record stand for the progress of all files.
* `Daemon.v`: no other program uses the port or the socket's file; all daemons run
  with the same rights.

## 5. Naming and status

`MANIFEST.json` lists the theorems of each property.  "proved" means that the theorems say all
of the English statement for everything in its quantifier.  "partial" means that the
statement is false of the code, shown by a `_refuted` theorem (a concrete
execution), or that a hypothesis remains, in a `_partial` theorem; the note says which.
Beside each theorem an `Example` (`Cxx_case`, `Cxx_run`) evaluates a concrete non-trivial case.

`seeded/LOG.jsonl` has one line per edit of the model that was tried in a scratch copy.
`proofs_that_broke` lists the lemmas and examples whose proof scripts no longer go through,
`theorems_failed` every theorem that depends on one of them and so is no longer proved,
`survived` the broken claims of which no theorem failed.  A script that breaks does not by
itself show that its statement became false; an `Example` that breaks does, because it is evaluated.
