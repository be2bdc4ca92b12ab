{
 "C08": "Ids are distinct up to 65536 calls (or always, with overflow checks) and consecutive if no call is refused. The full claim is false of the code: the 16 bit counter wraps (release) or panics (overflow checks) after 65536 calls, and a call refused for its arguments uses up an id.",
 "C12": "Refusal is proved for all arguments except search patterns of 32726..32760 UTF-16 units, for which the code panics (expect \"data offset too big\"): proved as C12_window and C12_panics_refuted.",
 "C13": "The NetBIOS limit holds. The size announced by the server is stored but never enforced (BytesMut grows), so that half is false of the code: C13_buffer_refuted.",
 "C20": "Holds for tree connect. All other requests send UTF-16 irrespective of the flag: C20_open_refuted.",
 "C26": "find_first accepts every batch encoded as the protocol says (C26_first). find_next does not: every non-empty batch encoded so is an error there (C26_next_refuted_always, for all batches; C26_next_refuted, a witness): the 0 of the last entry is taken for a length. So list fails on every directory that takes more than one batch (C26_list_refuted_always).",
 "C29": "download ends exactly if there is a bound on the number of empty chunks among the answers to its reads (C29_ends_partial), in particular against every server that answers no read with an empty chunk, whatever else it does (C29_feeding_partial). False in general: a server that answers every read with an empty chunk keeps download asking for ever (C29_refuted).",
 "C30": "At least the announced size is returned and less than 65535 bytes more (C30_bounds_partial); exactly the size if no chunk is longer than what is missing (C30_polite_partial). The full claim is false: a chunk longer than what was asked for is not cut (C30_refuted).",
 "C31": "When download returns, the open failed, or a close was the last thing sent, or a read failed (C31_closes_partial). The full claim is false: a failing read returns at once, without close (C31_refuted).",
 "C32": "False of the code: for every call there is a reply that makes it panic, a header alone is enough (C32_refuted). What cannot crash is stated by the _partial theorems; exactly which replies crash is C33.",
 "C50": "False of the code: after FrameTooBig the payload is left in the stream and read as frames by the next call (C50_refuted).",
 "C51": "Dropping a waiting call between frames is safe. In the middle of a frame it is not: the bytes read so far are lost and the rest of the frame is read as a header (C51_refuted).",
 "C60": "True of empty blocks in NT transact replies. A transaction 2 fragment with an empty block must nevertheless carry an offset inside the data block; with offset 0 it is an error (C60_refuted).",
 "C37": "Decoding is faithful for all layouts (C37_decoded). A wrong signature or message type is an error for messages of at least 12 bytes (C37_wrong_partial). The full claim is false: a shorter message with a wrong signature makes the parser panic (C37_short_refuted).",
 "C40": "The last reply of a successful open has status SUCCESS or MORE_PROCESSING_REQUIRED (C40_partial). The full claim is false: MORE_PROCESSING_REQUIRED as the last answer is accepted too (C40_refuted).",
 "C41": "With NTLMv2 the uid is taken from the first of the two session-setup replies; the one of the second is ignored.",
 "C43": "From file time to calendar and back: all values (C43_file_time). From calendar to file time: all times that have a file time (C43_calendar_partial). Later times, after the year 60056, panic or are silently turned into others (C43_beyond, C43_refuted).",
 "C47": "Holds for all URIs except those with port, without user and with an @ followed by host/share in the path (C47_partial). Those are all misread, with the host taken for a user and the connection going to the host named in the path (C47_misread, C47_refuted).",
 "C48": "False as stated: the regular expression is not anchored, so text before and after the URI is ignored (C48_refuted). What is accepted contains a URI with the components returned (C48_partial). Ports that do not fit are errors (C48_port).",
 "C65": "False as stated: a server that never sends the end mark keeps list going forever, growing its result (C65_refuted). It ends exactly if the server sends a bounded number of batches without the mark (C65_partial); on conforming servers it does (C63_list).",
 "C66": "False as stated: the collector does not compare what it has with the total until the reply looks complete, so a server announcing 1 byte each makes it keep any number of fragments at distinct offsets, up to 4 GiB in one collector (C66_refuted, for all sizes). True for replies that are proper (C66_held_partial with C66_proper_partial); in any case at most 2*65535*65536 bytes (C66_bound_partial).",
 "C67": "False as stated: open drops guest_mode; the same success and the same connection either way (C67_refuted, both kinds of login). The session setup calls themselves decode the bit (C67_call_partial, C67_call_v1_partial).",
 "C70": "False as stated: a future dropped inside write_all leaves a part of its frame on the stream, and the next request completes it: asked to delete foobar, then to close a handle, the server receives a request to delete foo (C70_refuted). Otherwise true: what a dropped call leaves behind is one of three things (C70_left_partial), and unless a future is dropped inside a write (or the stream fails) only whole requests of the calls made are written (C70_whole_partial).",
 "C71": "False as stated: when a later batch is refused (as every batch encoded by the protocol is, C26) list fails and the search stays open; no call can close it (C71_refuted). True for listings that succeed (C71_flag_partial, C71_success_partial).",
 "C73": "User and domain are sent one after the other, each ended by NUL, so the first theorem needs that neither contains NUL (C73_nul shows two logins with the same bytes otherwise).",
 "C74": "For directories whose listing fits into one batch (more batches are not accepted by the code as the protocol encodes them, C26).",
 "C75": "False as stated: on every conforming server the status is returned as an error and the entries are dropped (C75_lost_partial for every such service, C75_refuted with an executable server). What holds: searches ended by the mark are returned (C25).",
 "C76": "False as stated: a batch with such a name anywhere never gives a result (C76_search_partial, C76_list_partial); two replies that differ in one character, one of which loses the listing (C76_refuted).",
 "C77": "False as stated: every login can be relayed, for both versions, and NTLMv1 can be asked for although the other server would negotiate NTLMv2 (C77_relay_partial for all accounts and servers, C77_refuted with an executable server that then deletes a file). What holds: the password itself is not sent (C36).",
 "C78": "False as stated: the requests depend on the announcements only through the unicode bit (C78_announced_partial), none is signed (C78_unsigned_partial); a server that wants signatures and does not announce the NT commands gets an unsigned NT_CREATE_ANDX (C78_refuted).",
 "C79": "False as stated: after a login every request reserves the announced buffer size (C79_reserved_partial), which can be 4 GiB - 1 (C79_refuted).",
 "C80": "Interleaved steps of programs (SpecPool.v) against whole calls; the hypothesis [sensible] (arguments fit, ids are left) is discharged for downloads in C80_downloads. Fuel: large enough for every answer of the server ([ample], met by the reference server). The clients' own connections: no client shares a connection with another one (the crate's methods take &mut self).",
 "C81": "The first part holds (C81_no_oplock); the id is not used if arithmetic is checked (C81_reserved_partial), else it is (C81_reserved_refuted); a break fails every call (C81_break_refuted).",
 "C82": "By induction on the program; C82_chatty gives a second conforming server for every conforming server.",
 "C83": "False as stated: every text that fits can be returned as a name (C83_any_refuted). A server that has only file names sends only file names (C83_names_partial).",
 "C85": "False as stated: with message number 65535 the debug build panics and the release build goes on (C85_refuted, C85_last). Everywhere else the builds agree (C85_call, C85_program, C85_bounded, C85_open; the latter while times fit their 64 bits).",
 "C87": "Hypotheses: the sizes of files in reachable states are at most what k reads of 64 KB - 1 return, fewer than 65536 requests, the other clients' calls are expressible at the server (sensible_others). Share access is a constant of the client (share reading only), so it is not a parameter of the operation but part of what the requests of C78 ask for.",
 "C89": "False as stated: the code passes on paths with wildcards (C89_wildcard_refuted) and with NUL (C89_nul_refuted), and all files are gone that such a path stands for (C89_all). True for all other paths (C89_one_partial).",
 "C90": "False as stated: the client uses str::to_uppercase, whose capitals can be longer (sharp s gives SS); C90_refuted shows an account that is refused for it with NTLMv2. True where both form the same capitals, and with NTLMv1 always (C90_partial); C90_differ: refused wherever they differ, unless the MACs collide. What to_uppercase does is a parameter of the model (upper in env); that it maps sharp s to SS is taken from the documentation of std.",
 "C92": "False: Auth and Cifs derive Debug (C92_refuted, for every connection), and the password can be read off the output (C92_reveals). C92_partial: nothing else in the output depends on it. Which characters std prints unescaped (plain) and what tokio prints for its stream are parameters.",
 "C94": "A request is never taken for a reply (C94_request_partial, C94_mirror_partial). The rest is false: process, signature, user and tree of a reply are not compared with the request's (C94_ignored, for all calls and servers; C94_refuted: a read answered to another user and tree is accepted, an open in one tree returns a handle in another).",
 "C95": "For every service that keeps a journal (C95_watch), and exactly what is returned for one in which any changes happen between the questions (C95_complete, C95_lost).",
 "C96": "At most once: C96_at_most_once; the connection goes on working: C96_goes_on, and whole programs: C96_program; both kinds of giving up occur at every call: C96_both; there are such servers: C96_server. Futures dropped inside a write or inside a message are C70 and C51.",
 "C97": "False of the code: the answer to a question given up comes late and is skipped, with the changes in it (C97_refuted). Only these are lost, everything else is reported once and in order (C97_partial).",
 "C98": "Result and state after up to j attempts: C98_retry; the next download succeeds: C98_again; a dropped download future is one of these attempts: C98_dropped. That a handle can stay open is shown in C98_example.",
 "C99": "Holds on connections of any length as long as no 65536 calls in a row are given up (C99_partial); C99_refuted: after 65536 reads given up, a read at offset 3 returns the bytes from offset 0 (release build).",
 "C100": "The ways of failing are the inductive relations of SpecWhy.v, made of the specifications of C12 (sizes), C84 (contents), C88 (frames, headers, status) and C34/C41 (login): C100_call, C100_login, C100_session and C100_open are equivalences; C100_one, C100_no_answer and C100_open_one: no two errors.",
 "C101": "SpecFate.v: answers, fails (of C100), panics, stalls; C101_call is an equivalence, C101_cases and C101_one say exactly one. flow_fate composes them; download_fate and list_fate are the two programs written out. Starved (the bound of the model is too small) is the only outcome excluded; C101_download_never and C101_list_never say when no bound is large enough.",
 "C102": "False as stated: without extended security in the reply to the negotiation the client answers with NTLMv1 (C102_obeys and C102_sent for every server, C102_refuted with one changed bit). What holds: if the server announces extended security only the two NTLMv2 requests follow (C102_partial). C102_parts and C102_last: what an NTLMv1 response gives away, whatever DES is.",
 "C103": "SpecOpening.v: open_fate, from the fates of the calls (C101), of the session request and of the NTLM messages. C103_open is an equivalence; the only outcome excluded is that the bound of the model is too small, and C103_ends says that this is so only below some bound. C103_agrees: the separate descriptions of success (C41) and failure (C100) say the same.",
 "C104": "SpecOem.v: where a server without Unicode looks for the name in each request (no padding), and what it reads there. C104_partial says exactly which names arrive: tree connects, empty names, names of one letter in delete, rmdir and searches. C104_found says what is read instead: the first letter (delete, rmdir, searches) or nothing (open, login). C104_refuted: such a server, asked to delete foo, deletes f. C104_entries, C104_changes, C104_listing_refuted: names in its replies panic or come out as other text. Names are restricted to characters 1 to 127, on which all code pages agree.",
 "C105": "SpecClear.v: shows_password, read off a frame. C105_shows: every request of mount_password with a password shows it, C105_one: and no other. C105_refuted: so it does towards a server that announced encrypted passwords. C105_partial: only without a password there is nothing to see.",
 "C106": "C106_partial: with the file service behind any conforming server, on the connection that opened the handle, after any program that neither closes it nor deletes the file. C106_ids: calls with handles that agree in tree and file id are the same calls. C106_refuted: on another connection the handle of one file reads another one.",
 "C107": "C107_kept: for every service that tells changes and whose searches are right about names that neither come nor go meanwhile. C107_directory: with a directory in which anything happens before every answer, the copy is the directory.",
 "C108": "On top of C101 (fates of calls and programs); panics are those of C12/C33 (ids, patterns, contents of replies that had arrived).",
 "C109": "unreliable: each answer arrives whole, is cut at any byte, or is lost together with the request or after it was carried out; then nothing reaches the server. Writing that fails does not desynchronise (nothing can be sent after it).",
 "C110": "C110_kept for one attempt on a connection that may break, C110_attempts for any number of them, C110_resumed for a connection that holds.",
 "C111": "C111_program for every program that returns at the first error; C111_strict: open, download, list and the fetch of C72 are such programs; C111_download, C111_list, C111_login_v1, C111_login_v2 say it for the functions of the crate. Not covered: the NetBIOS session request on port 139 (C103 says what becomes of it).",
 "C112": "False as stated: nothing of a login protects what follows (no message is signed, C78). C112_taken_over: for all servers, intruders and programs, from any point on; C112_login: after every login with either version of NTLM; C112_refuted: executable, the file downloaded is the intruder's. C112_partial: if nobody comes in, the answers are those of the service that has accepted the login.",
 "C113": "Opening and running over port 139 equals opening and running over port 445, after the session request.",
 "C114": "For every path without NUL and wildcards (see C89); attempts on connections that break anywhere.",
 "C115": "Generalises C72 from downloads to all programs.",
 "C116": "Each connection may break once, at any request (C109's network), and stays broken.",
 "C117": "One client at one server; [ticks] has one step per piece read or written by either side. The server serves a request when it has all of it and has written its last answer.",
 "C118": "The server is one state that all connections share; each request is served in one step.",
 "C119": "The server must keep the connection open (hanging up while requests are on the way is not compared). A server that does not read while it writes can get stuck with the client if it sends something unasked (Example C119_stuck); if it answers each frame with one frame, it cannot (C119_turns, C119_taking_turns).",
 "C120": "Servers that hang up are not compared: over the buffers the server only makes steps that keep the connection (SpecPipe).",
 "C121": "For directories whose listing fits into one batch (more batches are not accepted by the code as the protocol encodes them, C26). Deepest path and number of calls are bounded by what fits into a request and by the multiplex ids (room).",
 "C122": "For directories whose listing fits into one batch (C26). The server removes only empty directories, so the order of the calls matters.",
 "C123": "",
 "C124": "Proved for all interleavings of the clients' steps (as in C80, answers are delivered as a whole and connections do not fail). If two clients remove the same directory one of them can end with an error of the server, as the example C124_run shows.",
 "C125": "Proved for all interleavings of the clients' steps (as in C80, answers are delivered as a whole and connections do not fail). The number of reads per file is bounded by the fuel, as in C63. The copy is made by the program copy_tree of SpecTree.v, written with the crate's functions.",
 "C126": "Proved for all interleavings and all points of failure (SpecOutage.outages: on a broken connection nothing more reaches the server). A file opened before its client's connection broke stays open on this server, as in C116.",
 "C127": "Two calls of the API put together by the program of SpecMove.v; the copy is the caller's, kept from run to run. Files other clients have open may change between the runs.",
 "C128": "Others change the mailbox between the runs, not during one. The program of SpecMail.v is not part of the crate; it calls list, download and delete of the crate.",
 "C129": "Others' changes are one arbitrary function for each request, applied just before it; they do not change or remove files that are in the mailbox.",
 "C130": "The service takes any login without extended security; who is admitted is C64's matter. Others do not change or remove files that are in the mailbox.",
 "C131": "Others' changes are one arbitrary function for each request, applied just before it; to the file they only append.",
 "C132": "The clock of the client shows a time NTLMv2 can express. Others do not change or remove files that are in the mailbox."
}