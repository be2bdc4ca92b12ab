# Formal model of re-gmbh/cifs-client in Rocq (Coq 8.16.1)

## 1. What is modelled, and how

The crate is a single-connection SMBv1 client. Everything it does is (a) pure
byte-level encoding/decoding and (b) sequential request/reply programs over one
TCP stream (`&mut self` everywhere, so there is no intra-client concurrency; the
only "schedules" are arrival times and segmentation of bytes, partial writes,
and cancellation of a pending future).

* **Bytes** are `Coq.Init.Byte.byte`, buffers are `list byte`; integers are `N`
  with explicit range side conditions, `usize` is taken to be 64 bit.
* **Strings** are lists of Unicode scalar values (`list N`), with UTF-8 and
  UTF-16 codecs modelled explicitly (`String::as_bytes`, `from_utf8`,
  `encode_utf16`, `decode_utf16`).
* **Results**: `res E A = Ok a | Err e | Panic`. Every `get_*`, `advance`,
  `copy_to_bytes`, `slice`, index and `unwrap`/`expect` that can panic has an
  explicit `Panic` branch.
* **Client programs** are a free monad `prog` with nodes `Read n`, `Write b`,
  `Ret`, `Panicked`, `OutOfFuel`. The public API of `Cifs` is modelled function
  by function as such programs. Loops (`recv` skipping foreign replies,
  keep-alives, Trans2 collection, `download`, `list`) take fuel; fuel exhaustion
  is a separate outcome that no theorem counts as success.
* **Environment**: `run` interprets a program against an arbitrary reactive
  server `react : S -> bytes -> reaction` (any state type, any function) which
  on each write appends arbitrary bytes to the receive stream, may end or break
  the stream, or fail the write. A call that needs bytes that are not there ends
  in `Blocked` (future pending); the state in `Blocked` is what a cancelled
  future leaves behind. A second interpreter executes reads in arbitrary
  segments and writes in arbitrary partial writes.
* **Crypto, clock, randomness, Unicode upper-casing, Unicode \w and \d** are
  universally quantified parameters (record `env`).

## 2. Files (rocq/theories)

The model (every definition cites the lines of /repo it models):

| file | content |
|------|---------|
| Base.v | bytes, little endian, results, the `Buf`/`BufMut` operations of the `bytes` crate |
| Text.v | Unicode scalars, UTF-8, UTF-16 (Rust std), the strings of `utils.rs` |
| Utils.v | rest of `utils.rs`: times, alignment, DES key expansion, NetBIOS names |
| Win.v | `win.rs`, enums and flags of `smb/info.rs`, `smb/common.rs`, `smb/trans.rs`, `ntlm/init.rs` |
| Errors.v | `error.rs`, `smb/error.rs`, `ntlm/error.rs`, the error type of `netbios.rs` |
| Info.v, Common.v | SMB header, AndX, directory entries |
| Msg.v | outgoing messages: `smb/msg.rs`, `smb/trans.rs`, `smb/trans2/msg.rs`, `subcmd/*` |
| Reply.v | incoming messages: `smb/reply.rs`, `smb/trans.rs`, `smb/trans2/{reply,collector}.rs`, `subreply/*` |
| Ntlm.v | `ntlm/*`; the record `env` of external functions |
| Prog.v | programs over one stream, servers, interpreters |
| Client.v | `netbios.rs`, `struct Cifs` of `lib.rs` |
| Uri.v | `resolve_smb_uri`, with a backtracking matcher for its regular expression |
| Display.v | the `Display` instances of the errors (std's number formatting by the library's decimal and hexadecimal numerals; texts of I/O errors are a parameter) |
| Debug.v | the derived `Debug` instances of `Cifs`, `NetBios` and `Auth` (the tables of printable characters and the text for the TCP stream are parameters) |
| Tests.v | the unit tests of /repo run against the model, with MD4, MD5, HMAC and DES from Crypto.v |

The specification (does not use encoders, decoders or programs of the model):

| file | content |
|------|---------|
| Spec.v | fields at offsets, frames, text on the wire, requests |
| SpecMsg.v | contents and sizes of requests |
| SpecReply.v, SpecCrash.v | contents of replies by offsets; bodies that crash the decoder |
| Api.v, SpecCall.v | the calls of the API as data; sending, answering, what an answer means |
| Flow.v | users: arbitrary adaptive sequences of calls |
| SpecNtlm.v, SpecLogin.v | NTLM messages, DES keys, NetBIOS names; the login conversation |
| SpecUri.v | smb URIs |
| SpecRemote.v | services, conforming servers, programs run directly on a service |
| RefServer.v | a reference server: parses requests, asks a service, writes replies (not the code: shows that conforming servers exist) |
| FileService.v | a service with files (not the code: for C63) |
| SpecAccount.v | what it means for a service to check NTLM logins |
| Gate.v | a service behind a login (not the code: for C64) |
| SpecFetch.v | a program that fetches the file a URI names (C72) |
| SpecMirror.v | a program that lists a directory and downloads everything (C74) |
| SpecListing.v | batches with names that are no text (C76) |
| SpecTrust.v | a server in the middle, announcements, signatures (C77, C78) |
| SpecPool.v | several clients at one server: interleaved steps, whole calls (C80) |
| SpecBlame.v | what is wrong with a reply (C84) |
| SpecBuild.v | debug and release builds, programs of bounded length (C85) |
| SpecShare.v | servers that enforce share modes; executions during which a file does not change (C87) |
| SpecFault.v | what can be wrong with what arrives: frames, headers, commands, status, end of stream (C88) |
| SpecWild.v | wildcards and zero-terminated paths: which files a delete stands for (C89) |
| SpecNumber.v | numbers in digits (C68) |
| SpecUpper.v | servers with a table of capitals of their own (C90) |
| SpecLengths.v | what can be seen without looking into the messages (C91) |
| SpecLiteral.v | string literals of Rust (C92) |
| SpecReading.v | requests that change nothing; programs without delete and rmdir (C93) |
| SpecForeign.v | messages that differ in process, signature, user and tree only (C94) |
| SpecWatch.v, JournalService.v | programs that watch a directory, services that tell its changes; a service with a journal (C95, C97) |
| SpecTimeout.v | programs that give up calls, at a server and at the service itself; programs tried several times (C96, C98, C99) |
| SpecWhy.v | all ways in which a call, the session request, the login and open fail, with the error and what is left of the stream (C100) |
| SpecFate.v | the other three things that can become of a call (answered, panic, waiting); what becomes of programs, of download and of list (C101) |
| SpecWeak.v | requests of a login with NTLMv2, with NTLMv1 (C102) |
| SpecOpening.v | everything that can become of open: ports, session request, negotiation, both logins (C103) |
| SpecOem.v | strings for a server without Unicode: where the requests have them, what is read there, names in replies (C104) |
| SpecClear.v | the password in a tree connect (C105) |
| SpecHandle.v | programs that leave an open file alone; calls for handles with the same ids (C106) |
| SpecKept.v, KeptService.v | names while they come and go, a program that keeps a copy of a directory; a service with such a directory (C107) |
| SpecBreak.v | messages the server sends on its own account (C81) |
| SpecDrop.v | futures dropped at an await point; connections with dropped calls |
| SpecLost.v | a stream that has ended, with nothing whole left on it; how many calls of a program are answered; why a call then fails (C108) |
| SpecCutoff.v | a server behind a network on which the connection may break; programs that are cut off; a download that keeps what it has read (C109, C110) |
| SpecHalf.v | programs that stop at the first error, and the states of the service in between (C111) |
| SpecHijack.v | someone on the way who takes a connection over (C112) |
| SpecDoor.v | a server behind a NetBIOS session at port 139 (C113) |
| SpecRepeat.v | deletions repeated on other connections (C114) |
| SpecErrand.v | listing and deleting what a URI names (C115) |
| SpecOutage.v | several clients over connections that may break, call by call (C116) |
| SpecPipe.v | client and server at the two ends of a connection with bounded buffers, byte by byte (C117) |
| SpecCrowd.v | several clients at one server, each over a connection with bounded buffers (C118) |
| SpecSpace.v | any server that keeps the connection and any program that writes whole frames, over bounded buffers (C119) |
| SpecAtomic.v | executions over bounded buffers as executions where a request is handled in one step (C120) |
| SpecTree.v | a service with directories; programs that copy and remove trees (C121, C122) |
| SpecRemoval.v | removing a directory tree over connections that break (C123) |
| SpecRemovers.v | several clients removing directory trees at the same time (C124) |
| SpecBusy.v | clients copying directory trees while others remove them (C125) |
| SpecBusy.v with SpecOutage.v | the same over connections that break (C126) |
| SpecMove.v | fetching a directory tree away: copy, then remove, over connections that break (C127) |
| SpecMail.v | a directory as a mailbox that is emptied over connections that break (C128) |
| SpecPost.v | a mailbox that is emptied while others put files into it (C129) |
| SpecVisit.v | whole sessions that empty a mailbox: login, mount, fetch (C130) |
| SpecGrow.v | downloading a file to which others append (C131) |
| SpecGuard.v | whole sessions at a server that checks passwords (C132) |

Lemmas are in `*Facts.v`. The theorems of the properties are in `P_*.v` and nowhere else, each named
after its property (`Cnn_...`), with `Print Assumptions` after it and an `Example` showing that its
hypotheses can be met. `Sample.v` has the concrete servers of these examples, `Witness.v` concrete messages and the tactic that shows that they meet the hypotheses of a theorem.

## 3. Properties: plan

Each `Cnn` of properties.jsonl, what is modelled and the proof shape.

* C01 framing: `Frame::encode/new`, `NetBios::send/recv`; round-trip law over `run`.
* C02 segmentation: second interpreter with segmented reads and partial writes;
  equivalence with `run` for *every* program by induction on programs.
* C03 arrival time: prefix-stability of `run` for every program, induction.
* C04/C05 keep-alives/foreign replies: recv characterisation, induction over the number of skipped frames.
* C06/C07 success/status: inversion of `recv` for every server.
* C08 mids: invariant over histories of calls; the unbounded claim is false at 65536 requests (`_refuted`: panic with overflow checks, reuse without).
* C09 header fields: field-at-offset statements for every request of the API.
* C10 header round-trip, totality of the header parser.
* C11 self-consistency: generic over `Msg::write` + evenness of each body.
* C12 oversize: totality per operation; find_first/find_next panic in a window (`_refuted`).
* C13 fits: NetBIOS limit proved; server limit not enforced (`_refuted`).
* C14..C16, C45: fields at offsets. C17 path at even offset.
* C18/C19 codecs: round-trip and exactness, induction.
* C20: holds for mount, false for openfile, delete, rmdir, find (`_refuted`).
* C21: offsets, alignment arithmetic.
* C22/C23: collector: permutations, soundness; induction and invariants.
* C24: result invariants for all replies; no-unwrap-panic for `list`.
* C25/C28: refinement against honest reactive servers, induction on batches/content.
* C26: proved for find_first, false for find_next (`_refuted`).
* C27, C37, C52..C56, C58: decode faithful, per type.
* C29, C30, C31: false of the code (`_refuted`) + what does hold.
* C32: false (`_refuted`, one witness for each reply type); C33 exact characterisation.
* C34: packets; C35, C39: composition with quantified crypto; C36: two-run theorem over all servers; C38: bit-level theorem over all keys.
* C40: false (MORE_PROCESSING is accepted) (`_refuted`) + the part that holds.
* C41, C59: `open` over all networks. C42 session request.
* C43: time conversion on integers (chrono's calendar is abstracted to the instant).
* C44: notification codec.
* C46, C47, C48: strings and a regex matcher; C47 has a wrong-host misparse, C48 is false (unanchored regex).
* C49..C51: stream position after errors; FrameTooBig and mid-frame cancellation are `_refuted`.
* C57: number of writes per call.
* C60: proved for notify, false for find (`_refuted`).
* C61: every call ends: measure on the bytes still to come, for all servers.
* C62: forward simulation between programs on the wire and programs on a service (induction on the
  run of the program); existence of a conforming server by an executable one.
* C63: download, delete and list as programs on a file service, carried over by C62.
* C64: open as a program on a service that checks logins; both directions, by C62 and C35/C39;
  an executable such service; after the login a simulation of the service behind it.
* C65: list ends: equivalence with a bound on the batches, and a server that never stops (`_refuted`).
* C66: what the collectors hold, for all sequences of fragments; the announced totals are not a bound (`_refuted`).
* C67: the guest bit is decoded but dropped by open (`_refuted`).
* C68, C69: injectivity of the messages, by prefixes and inverse functions; printable ASCII by cases.
* C70: futures dropped at every await point, by induction on the program; a cut write is completed by the
  next request (`_refuted`).
* C71: searches left open by failing listings (`_refuted`).
* C72: composition of C47, C59, C64 and C63.
* C73: injectivity of the requests, from what C09, C14-C17, C21 and C45 say about their fields; conversely by cases.
* C74: induction on the listing, composing C63.
* C75, C76: false (`_refuted`), and for every server and batch (`_partial`).
* C77: a service in the middle that passes logins on; by C64's gate and C62 (`_refuted`).
* C78: requests as functions of user id, message number and character set; signature fields (`_refuted`).
* C79: what `send` reserves, invariant under calls (`_refuted`).
* C80: simulation: between its writes a client depends on its own connection only, so every interleaving of steps is
  one of whole calls, ordered by the writes; termination by a nested induction over the programs; concurrent downloads by an
  invariant of the file service (who owns which file id).
* C81: fields of the requests; the ids of any history; breaks fail every call (`_refuted`).
* C82: induction on the program, two servers side by side.
* C83: any text can be a name (`_refuted`), by C63.
* C84: the error as a function of the reply's defects (relation in SpecBlame.v, proved functional and total).
* C85, C86: relation [until] between two programs (same steps until the first panics with the ids used up), closed under sequencing.
* C87: invariant over the coarse executions of C80: where the downloading client is, with the execution that led there split at its open and its close.
* C88: the relation `scans` of a receiver (ClientFacts) is functional and total; each kind of fault is a case of it.
* C89: one remote call (C62); a path without wildcards stands for itself only.
* C90: the login of C64 with two machines, the server's and the client's, that differ in the capitals; the refutation computes a login with the real hash functions.
* C91: a simulation between programs as for C36, with writes related by their lengths.
* C92: the literals are a code without common prefixes, so the output can be taken apart from the left.
* C93: by cases on the calls (the code of each request, its words), then by induction on programs (flows).
* C94: the scan of the stream (ClientFacts) for two streams side by side, as for C05; requests fail the check of the reply flag.
* C95: the program as a flow, at the service by induction on the number of questions, then C62.
* C96: simulation; invariant: what is unread is skipped by every later call (ids only grow). C97: C96 with the journal, by induction on the questions; a concrete run for the refutation.
* C98: C96, and the states of the file service along a download by induction on its reads. C99: as C96, with the invariant by the age of an id (how many calls ago it was used); the refutation goes once round the ids by induction.
* C100: the lemmas of C12, C84 and C88 give each error its cause; that there is no other cause: by cases on what arrives, for searches by induction on the bytes still to be read, with the fragments that have come as invariant.
* C101: that one of the four cases holds: as for C100; that it is what happens: the lemmas of C06, C33, C51, C88 and C100. Only one, because the run is a function. Programs by induction on the flow; download and list by induction on their loops, with the determinism for the case without an end.
* C102: the login unfolded as in C40/C41, with the branch fixed by the capability bit; what is sent collected step by step; the parts of an NTLMv1 response from the uniqueness of the expanded DES keys.
* C103: each description holds from some bound on (by the fates of the calls and what is known of the NTLM parsers), and one of them always applies; the equivalence follows because more fuel changes no result.
* C104: from the contents of the requests (C21), byte by byte: the high byte of the first UTF-16 unit of a plain letter is zero and ends the string; for open and the login the padding byte does. Decoding plain bytes as UTF-16 pairs them up, and panics on an odd one.
  `conforming` (C62 and all that builds on it) is about servers that read UTF-16 in all requests but tree connects whatever the Unicode flag says, as this client writes them; for connections without Unicode that is not what the protocol says, and C104 is about the servers the protocol describes.
* C105: from the contents of the request (C21).
* C106: what a file id leads to is an invariant of the file service under all calls that do not close or delete it, carried along the program by induction and to the server by C62.
* C107: whether a name is in the copy is decided by the last change that concerns it, or by the listing if there is none; so replaying changes that the listing had seen does no harm. Induction on the questions as in C95.
* C108: nothing is added to a stream that has ended (induction on the program tree), an answer uses up at least 36 bytes, so the unread bytes bound the answered calls; with an incomplete frame left all cases of C101 but three are impossible.
* C109: bytes after those that were read change nothing (case by case over the fates of C101), so the fate of a call on the cut answer is that on the whole one, or the end of the stream was met; then C108. Induction on the program.
* C110: C109 for the reading program; each read gives what follows what is there (`file_at`).
* C111: induction over the program as run at the service itself (local), with C109 for each call
* C112: the server and the intruder together are a conforming server for the service that switches from the one to the other; C62 for the program before and the program after.
* C113: induction on the program, for the world with the session request written before; C59 for the session; C72 carried over.
* C114: C109 for each attempt, C89's description of the service, induction on the attempts.
* C115: as C72, for any service behind the login and any program (C62, C64).
* C116: the simulation of C80, with a flag per client for its connection; a call is C109's, or that of a stream that has ended (C108).
* C117: invariant that relates the bytes under way (request in part, request not served yet, answer under way, request served before the client's write has returned) to a state of C80 with one client, in which request and answer are one step; from C80: the client reads everything before it writes. Ending: well-founded order on (program left, bytes to be moved up, bytes to be moved down). An example shows that a client writing ahead of its reads does get stuck.
* C118: as C117, for all connections at once; a request takes effect when the server serves it, so a client may be ahead of the state of C80 it is compared with (a request on its way), or behind it (its write has not returned).
* C119: P_Space.v; every execution over the buffers tracks one run (frames on their way are served later, in the same order); progress by cases; termination from C117. P_SpaceFetch.v: a connection opened and a program run on it, C72 over buffers. P_Turn.v (TurnFacts.v): with servers that answer a frame with one frame, the crate has read all there is whenever it writes
* C120: P_Atomic.v; each client in the atomic execution lags behind by the frames the server has not worked on yet
* C121: P_Tree.v; induction on the tree, composing list and download (C63) on the service itself, then C62.
* C122: P_Tree.v; induction on the tree, the state being the original with one directory replaced.
* C123: P_Removal.v; what is left of a tree after some of the calls, as a relation on trees; the states in between from C111.
* C124: P_Removers.v; rely and guarantee: each client's program, whatever the others remove in between, then an invariant of the coarse executions of C80.
* C125: P_Busy.v; as C124, with the handle each copying client has open as part of the invariant.
* C126: P_Storm.v; the invariant of C125 over the coarse executions of C116, in which connections break.
* C127: copying with C123's half-run programs, then removing with C123's attempts or on a connection that is silent; induction over the runs
* C128: each download and each delete as a half-run program of C111, on a connection in order or gone; induction over the entries of the directory, then over the runs
* C129: P_Post.v; as C128, over a service whose state holds the changes others make before each request; a file that is being read stays readable by the invariant of C63's downloads.
* C130: P_Visit.v; login and mount as programs over the service of C129, then its lemma for a connection that is in order or gone; C130_contrast shows that a file replaced between fetch and deletion is lost.
* C131: P_Grow.v; an invariant of the reads (what has been read is a beginning of the file as it is now) over the service of C129; C131_contrast is the case of a file that shrinks, where the download does not end (C29).
* C132: P_Guard.v; the lemma of C129 for any kind of connection on which programs are carried out or fail with an error of the network, here: those of users who are logged in at the gate of C64.
* C29: the reads done so far as a relation (`chunks`); a bound on the empty ones gives a measure, a sequence of them longer than the fuel starves the loop.

No property is considered inexpressible; wall-clock time, memory consumption (but for
C66 and C79) and real sockets are outside the model.

## 4. Trusted base

* The Coq 8.16.1 kernel, including its VM (used by `vm_compute` in examples, witnesses and a few
  finite case analyses), and `coqchk`.
* Axioms: none. `Print Assumptions` answers "Closed under the global context" for every theorem in
  `P_*.v`. (`coqchk` lists axioms of `Coq.ssr.ssrunder`, which come with the standard library's
  module `ssreflect`, loaded by `ZifyBool`; no theorem depends on them.)
* That the model is the code. It was written by reading /repo; nothing was extracted or compiled.
  `Tests.v` reproduces the unit tests of /repo.
* That the specification files say what is meant.

### 4.1 What is not the code

* External crates are modelled by what they document: `bytes` (panics of `get_*`, `advance`, `slice`,
  `split_to`, `copy_to_bytes`), `bitflags`, `num_enum`, `regex` (leftmost-first matching), `chrono`
  (an instant is an integer; calendars and time zones are left out), Rust std (UTF-8, UTF-16, integer
  parsing, overflow behaviour), `tokio` (`read_exact`, `write_all`, sequential futures).
* MD4, HMAC-MD5, DES, random bytes, clock, `str::to_uppercase`, and `\w`, `\d` beyond ASCII are
  arbitrary functions (record `env`; parameters of `resolve_smb_uri`), with output lengths 16, 16 and
  8, and upper-casing maps strings to strings.
* `env.overflow_checks` selects between debug (overflow panics) and release (wraps) builds; the
  theorems hold for both unless they say otherwise. `usize` has 64 bits. Vectors longer than 2^63
  bytes, failing allocations and stack size are not modelled.
* Fuel: loops take a number of steps; `OutOfFuel` is an outcome of its own. Theorems either hold for
  all amounts of fuel, or say that enough fuel exists (C61 and others).
* Not modelled: `Debug` output (except the names in error messages, and C92), `tracing` (the code logs hosts
  and frame sizes only), a write that stays pending forever (a server accepts or
  refuses a frame as a whole; C02 has partial writes that continue, C70 ones that are cancelled), host name resolution (a connection attempt to a
  port succeeds or fails as the network pleases), the destructor of a connection, time-outs (the code has none),
  wall-clock time, memory consumption (except C66 and C79).
* Statuses of replies in the model's `nt_status` are those of `win.rs`; an unknown status is kept as a number.

### 4.2 Where the specification was narrowed

Arguments are assumed to be Rust values (`typed`): strings of Unicode scalar values, integers of
their width. Where the code violates a property there is a theorem ending in `_refuted` with a witness,
and what does hold is in theorems ending in `_partial`; the notes in MANIFEST.json say which part is missing.

## 5. Testing the theorems

`seeded/LOG.jsonl` records bugs put into a scratch copy of the model, and which theorems noticed.
How most of the entries were made, and what they do and do not show:

* A script makes the edit in a scratch copy and rebuilds. A proof that no longer goes through (or exceeds a
  time limit) is left open there, and the build goes on. Nothing of this reaches `rocq/theories`.
* `failed` lists the theorems that then rest on an open proof, by `Print Assumptions`.
  So it says that the proof given here breaks. It does not by itself say that the statement is false of the
  edited model: a proof script can break on an edit that leaves the statement true, and one broken lemma
  near the bottom takes with it everything built on it.
* `failed_examples` lists the other statements of the same files whose proofs break, mostly concrete cases that
  no longer compute as stated. Such a case is direct evidence that the edit changes the behaviour.
* `not_built` lists theorems of which nothing is known in that attempt, because their file could not be built
  for a reason that has nothing to do with the edit (a file was missing from the scratch copy).
* `claim_noticed` is the part of `failed` that belongs to the properties named in `breaks`.
* In the later attempts only the files needed for the properties in `breaks` were rebuilt, so theorems
  of other properties missing from `failed` may just not have been tried.
* `tightened` is filled where a theorem survived an edit that makes its English claim false, or was judged by
  reading to be too weak; `note` says why.
