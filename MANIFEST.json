{
 "claims": [
  {
   "property": "C01",
   "status": "proved",
   "theorems": [
    "C01_send",
    "C01_send_big",
    "C01_receive",
    "C01_received",
    "C01_request"
   ],
   "note": ""
  },
  {
   "property": "C02",
   "status": "proved",
   "theorems": [
    "C02_segmentation",
    "C02_refines"
   ],
   "note": ""
  },
  {
   "property": "C03",
   "status": "proved",
   "theorems": [
    "C03_finished",
    "C03_panicking",
    "C03_pending"
   ],
   "note": ""
  },
  {
   "property": "C04",
   "status": "proved",
   "theorems": [
    "C04_before",
    "C04_between"
   ],
   "note": ""
  },
  {
   "property": "C05",
   "status": "proved",
   "theorems": [
    "C05_foreign_replies"
   ],
   "note": ""
  },
  {
   "property": "C06",
   "status": "proved",
   "theorems": [
    "C06_single",
    "C06_search",
    "C06_converse"
   ],
   "note": ""
  },
  {
   "property": "C07",
   "status": "proved",
   "theorems": [
    "C07_single",
    "C07_search",
    "C07_names",
    "C07_meaning"
   ],
   "note": ""
  },
  {
   "property": "C08",
   "status": "partial",
   "theorems": [
    "C08_connection_partial",
    "C08_history_partial",
    "C08_download",
    "C08_list",
    "C08_open",
    "C08_wraps_refuted",
    "C08_overflows_refuted",
    "C08_gap_refuted"
   ],
   "note": "Ids are distinct up to 65536 calls (or always, with overflow checks) and consecutive if no call is refused. The full claim is false of the code: the 16 bit counter wraps (release) or panics (overflow checks) after 65536 calls, and a call refused for its arguments uses up an id."
  },
  {
   "property": "C09",
   "status": "proved",
   "theorems": [
    "C09_identity",
    "C09_history"
   ],
   "note": ""
  },
  {
   "property": "C10",
   "status": "proved",
   "theorems": [
    "C10_read",
    "C10_rejected",
    "C10_no_crash",
    "C10_written",
    "C10_round_trip"
   ],
   "note": ""
  },
  {
   "property": "C11",
   "status": "proved",
   "theorems": [
    "C11_consistent"
   ],
   "note": ""
  },
  {
   "property": "C12",
   "status": "partial",
   "theorems": [
    "C12_sent_iff",
    "C12_refused_partial",
    "C12_window",
    "C12_panics_refuted"
   ],
   "note": "Refusal is proved for all arguments except search patterns of 32726..32760 UTF-16 units, for which the code panics (expect \"data offset too big\"): proved as C12_window and C12_panics_refuted."
  },
  {
   "property": "C13",
   "status": "partial",
   "theorems": [
    "C13_netbios_partial",
    "C13_buffer_refuted"
   ],
   "note": "The NetBIOS limit holds. The size announced by the server is stored but never enforced (BytesMut grows), so that half is false of the code: C13_buffer_refuted."
  },
  {
   "property": "C14",
   "status": "proved",
   "theorems": [
    "C14_read"
   ],
   "note": ""
  },
  {
   "property": "C15",
   "status": "proved",
   "theorems": [
    "C15_close",
    "C15_umount"
   ],
   "note": ""
  },
  {
   "property": "C16",
   "status": "proved",
   "theorems": [
    "C16_openfile",
    "C16_opendir"
   ],
   "note": ""
  },
  {
   "property": "C17",
   "status": "proved",
   "theorems": [
    "C17_paths"
   ],
   "note": ""
  },
  {
   "property": "C18",
   "status": "proved",
   "theorems": [
    "C18_roundtrip",
    "C18_encode",
    "C18_strict"
   ],
   "note": ""
  },
  {
   "property": "C19",
   "status": "proved",
   "theorems": [
    "C19_utf8",
    "C19_utf16",
    "C19_missing",
    "C19_no_panic"
   ],
   "note": ""
  },
  {
   "property": "C20",
   "status": "partial",
   "theorems": [
    "C20_mount_partial",
    "C20_open_refuted"
   ],
   "note": "Holds for tree connect. All other requests send UTF-16 irrespective of the flag: C20_open_refuted."
  },
  {
   "property": "C21",
   "status": "proved",
   "theorems": [
    "C21_find",
    "C21_notify",
    "C21_contents"
   ],
   "note": ""
  },
  {
   "property": "C22",
   "status": "proved",
   "theorems": [
    "C22_any_order"
   ],
   "note": ""
  },
  {
   "property": "C23",
   "status": "proved",
   "theorems": [
    "C23_sound",
    "C23_inconsistent",
    "C23_misfit"
   ],
   "note": ""
  },
  {
   "property": "C24",
   "status": "proved",
   "theorems": [
    "C24_first",
    "C24_next",
    "C24_list"
   ],
   "note": ""
  },
  {
   "property": "C25",
   "status": "proved",
   "theorems": [
    "C25_whole",
    "C25_single",
    "C25_converse"
   ],
   "note": ""
  },
  {
   "property": "C26",
   "status": "partial",
   "theorems": [
    "C26_first",
    "C26_next_refuted_always",
    "C26_list_refuted_always",
    "C26_next_refuted"
   ],
   "note": "find_first accepts every batch encoded as the protocol says (C26_first). find_next does not: every non-empty batch encoded so is an error there (C26_next_refuted_always, for all batches; C26_next_refuted, a witness): the 0 of the last entry is taken for a length. So list fails on every directory that takes more than one batch (C26_list_refuted_always)."
  },
  {
   "property": "C27",
   "status": "proved",
   "theorems": [
    "C27_entries",
    "C27_entry",
    "C27_misfit"
   ],
   "note": ""
  },
  {
   "property": "C28",
   "status": "proved",
   "theorems": [
    "C28_exact"
   ],
   "note": ""
  },
  {
   "property": "C29",
   "status": "partial",
   "theorems": [
    "C29_feeding_partial",
    "C29_ends_partial",
    "C29_refuted"
   ],
   "note": "download ends exactly if there is a bound on the number of empty chunks among the answers to its reads (C29_ends_partial), in particular against every server that answers no read with an empty chunk, whatever else it does (C29_feeding_partial). False in general: a server that answers every read with an empty chunk keeps download asking for ever (C29_refuted)."
  },
  {
   "property": "C30",
   "status": "partial",
   "theorems": [
    "C30_bounds_partial",
    "C30_polite_partial",
    "C30_refuted"
   ],
   "note": "At least the announced size is returned and less than 65535 bytes more (C30_bounds_partial); exactly the size if no chunk is longer than what is missing (C30_polite_partial). The full claim is false: a chunk longer than what was asked for is not cut (C30_refuted)."
  },
  {
   "property": "C31",
   "status": "partial",
   "theorems": [
    "C31_closes_partial",
    "C31_refuted"
   ],
   "note": "When download returns, the open failed, or a close was the last thing sent, or a read failed (C31_closes_partial). The full claim is false: a failing read returns at once, without close (C31_refuted)."
  },
  {
   "property": "C32",
   "status": "partial",
   "theorems": [
    "C32_single_partial",
    "C32_search_partial",
    "C32_list_partial",
    "C32_download_partial",
    "C32_refuted",
    "C32_open_partial"
   ],
   "note": "False of the code: for every call there is a reply that makes it panic, a header alone is enough (C32_refuted). What cannot crash is stated by the _partial theorems; exactly which replies crash is C33."
  },
  {
   "property": "C33",
   "status": "proved",
   "theorems": [
    "C33_single",
    "C33_fragment",
    "C33_search",
    "C33_handle",
    "C33_read",
    "C33_session",
    "C33_server",
    "C33_notification",
    "C33_fragments",
    "C33_dir",
    "C33_challenge",
    "C33_open"
   ],
   "note": ""
  },
  {
   "property": "C34",
   "status": "proved",
   "theorems": [
    "C34_negotiate",
    "C34_negotiate_only",
    "C34_negotiate_too_long",
    "C34_negotiate_fits",
    "C34_authenticate",
    "C34_authenticate_fits",
    "C34_authenticate_too_long",
    "C34_sent"
   ],
   "note": ""
  },
  {
   "property": "C35",
   "status": "proved",
   "theorems": [
    "C35_response",
    "C35_message",
    "C35_login"
   ],
   "note": ""
  },
  {
   "property": "C36",
   "status": "proved",
   "theorems": [
    "C36_open",
    "C36_later"
   ],
   "note": ""
  },
  {
   "property": "C37",
   "status": "partial",
   "theorems": [
    "C37_decoded",
    "C37_wrong_partial",
    "C37_short_refuted",
    "C37_unique"
   ],
   "note": "Decoding is faithful for all layouts (C37_decoded). A wrong signature or message type is an error for messages of at least 12 bytes (C37_wrong_partial). The full claim is false: a shorter message with a wrong signature makes the parser panic (C37_short_refuted)."
  },
  {
   "property": "C38",
   "status": "proved",
   "theorems": [
    "C38_expanded",
    "C38_total",
    "C38_determined",
    "C38_injective"
   ],
   "note": ""
  },
  {
   "property": "C39",
   "status": "proved",
   "theorems": [
    "C39_response",
    "C39_crash",
    "C39_length",
    "C39_message"
   ],
   "note": ""
  },
  {
   "property": "C40",
   "status": "partial",
   "theorems": [
    "C40_partial",
    "C40_refuted"
   ],
   "note": "The last reply of a successful open has status SUCCESS or MORE_PROCESSING_REQUIRED (C40_partial). The full claim is false: MORE_PROCESSING_REQUIRED as the last answer is accepted too (C40_refuted)."
  },
  {
   "property": "C41",
   "status": "proved",
   "theorems": [
    "C41_login",
    "C41_state",
    "C41_headers",
    "C41_requests"
   ],
   "note": "With NTLMv2 the uid is taken from the first of the two session-setup replies; the one of the second is ignored."
  },
  {
   "property": "C42",
   "status": "proved",
   "theorems": [
    "C42_request",
    "C42_open",
    "C42_determined",
    "C42_readable",
    "C42_name",
    "C42_negative"
   ],
   "note": ""
  },
  {
   "property": "C43",
   "status": "partial",
   "theorems": [
    "C43_file_time",
    "C43_calendar_partial",
    "C43_beyond",
    "C43_refuted"
   ],
   "note": "From file time to calendar and back: all values (C43_file_time). From calendar to file time: all times that have a file time (C43_calendar_partial). Later times, after the year 60056, panic or are silently turned into others (C43_beyond, C43_refuted)."
  },
  {
   "property": "C44",
   "status": "proved",
   "theorems": [
    "C44_sound",
    "C44_complete",
    "C44_unique",
    "C44_reported",
    "C44_terminates"
   ],
   "note": ""
  },
  {
   "property": "C45",
   "status": "proved",
   "theorems": [
    "C45_notify_about",
    "C45_notify"
   ],
   "note": ""
  },
  {
   "property": "C46",
   "status": "proved",
   "theorems": [
    "C46_separators"
   ],
   "note": ""
  },
  {
   "property": "C47",
   "status": "partial",
   "theorems": [
    "C47_partial",
    "C47_misread",
    "C47_refuted"
   ],
   "note": "Holds for all URIs except those with port, without user and with an @ followed by host/share in the path (C47_partial). Those are all misread, with the host taken for a user and the connection going to the host named in the path (C47_misread, C47_refuted)."
  },
  {
   "property": "C48",
   "status": "partial",
   "theorems": [
    "C48_partial",
    "C48_refuted",
    "C48_rejected",
    "C48_port",
    "C48_error",
    "C48_no_panic"
   ],
   "note": "False as stated: the regular expression is not anchored, so text before and after the URI is ignored (C48_refuted). What is accepted contains a URI with the components returned (C48_partial). Ports that do not fit are errors (C48_port)."
  },
  {
   "property": "C49",
   "status": "proved",
   "theorems": [
    "C49_position",
    "C49_search",
    "C49_disagreeing"
   ],
   "note": ""
  },
  {
   "property": "C50",
   "status": "partial",
   "theorems": [
    "C50_position_partial",
    "C50_search_partial",
    "C50_refuted"
   ],
   "note": "False of the code: after FrameTooBig the payload is left in the stream and read as frames by the next call (C50_refuted)."
  },
  {
   "property": "C51",
   "status": "partial",
   "theorems": [
    "C51_waits_partial",
    "C51_search_waits_partial",
    "C51_late_reply_partial",
    "C51_refuted"
   ],
   "note": "Dropping a waiting call between frames is safe. In the middle of a frame it is not: the bytes read so far are lost and the rest of the frame is read as a header (C51_refuted)."
  },
  {
   "property": "C52",
   "status": "proved",
   "theorems": [
    "C52_handle",
    "C52_share",
    "C52_dir",
    "C52_share_password",
    "C52_server",
    "C52_entry"
   ],
   "note": ""
  },
  {
   "property": "C53",
   "status": "proved",
   "theorems": [
    "C53_refused",
    "C53_no_value"
   ],
   "note": ""
  },
  {
   "property": "C54",
   "status": "proved",
   "theorems": [
    "C54_sound",
    "C54_complete",
    "C54_misfit"
   ],
   "note": ""
  },
  {
   "property": "C55",
   "status": "proved",
   "theorems": [
    "C55_file",
    "C55_dir",
    "C55_complete",
    "C55_dir_complete"
   ],
   "note": ""
  },
  {
   "property": "C56",
   "status": "proved",
   "theorems": [
    "C56_sound",
    "C56_complete",
    "C56_password",
    "C56_password_complete"
   ],
   "note": ""
  },
  {
   "property": "C57",
   "status": "proved",
   "theorems": [
    "C57_one",
    "C57_answered"
   ],
   "note": ""
  },
  {
   "property": "C58",
   "status": "proved",
   "theorems": [
    "C58_sound",
    "C58_complete",
    "C58_dialect"
   ],
   "note": ""
  },
  {
   "property": "C59",
   "status": "proved",
   "theorems": [
    "C59_direct",
    "C59_refused",
    "C59_nowhere",
    "C59_session",
    "C59_positive"
   ],
   "note": ""
  },
  {
   "property": "C60",
   "status": "partial",
   "theorems": [
    "C60_notify_partial",
    "C60_search_partial",
    "C60_refuted"
   ],
   "note": "True of empty blocks in NT transact replies. A transaction 2 fragment with an empty block must nevertheless carry an offset inside the data block; with offset 0 it is an error (C60_refuted)."
  },
  {
   "property": "C61",
   "status": "proved",
   "theorems": [
    "C61_call",
    "C61_setup",
    "C61_stable"
   ],
   "note": ""
  },
  {
   "property": "C62",
   "status": "proved",
   "theorems": [
    "C62_call",
    "C62_program",
    "C62_functions",
    "C62_server"
   ],
   "note": ""
  },
  {
   "property": "C63",
   "status": "proved",
   "theorems": [
    "C63_served",
    "C63_download",
    "C63_absent",
    "C63_delete",
    "C63_list"
   ],
   "note": ""
  },
  {
   "property": "C64",
   "status": "proved",
   "theorems": [
    "C64_v1",
    "C64_v2",
    "C64_registered",
    "C64_unknown",
    "C64_collision",
    "C64_gate",
    "C64_server",
    "C64_session",
    "C64_open"
   ],
   "note": ""
  },
  {
   "property": "C65",
   "status": "partial",
   "theorems": [
    "C65_partial",
    "C65_refuted"
   ],
   "note": "False as stated: a server that never sends the end mark keeps list going forever, growing its result (C65_refuted). It ends exactly if the server sends a bounded number of batches without the mark (C65_partial); on conforming servers it does (C63_list)."
  },
  {
   "property": "C66",
   "status": "partial",
   "theorems": [
    "C66_held_partial",
    "C66_proper_partial",
    "C66_bound_partial",
    "C66_refuted"
   ],
   "note": "False as stated: the collector does not compare what it has with the total until the reply looks complete, so a server announcing 1 byte each makes it keep any number of fragments at distinct offsets, up to 4 GiB in one collector (C66_refuted, for all sizes). True for replies that are proper (C66_held_partial with C66_proper_partial); in any case at most 2*65535*65536 bytes (C66_bound_partial)."
  },
  {
   "property": "C67",
   "status": "partial",
   "theorems": [
    "C67_call_partial",
    "C67_call_v1_partial",
    "C67_refuted"
   ],
   "note": "False as stated: open drops guest_mode; the same success and the same connection either way (C67_refuted, both kinds of login). The session setup calls themselves decode the bit (C67_call_partial, C67_call_v1_partial)."
  },
  {
   "property": "C68",
   "status": "proved",
   "theorems": [
    "C68_distinct",
    "C68_status",
    "C68_numbers"
   ],
   "note": ""
  },
  {
   "property": "C69",
   "status": "proved",
   "theorems": [
    "C69_plain"
   ],
   "note": ""
  },
  {
   "property": "C70",
   "status": "partial",
   "theorems": [
    "C70_left_partial",
    "C70_whole_partial",
    "C70_refuted"
   ],
   "note": "False as stated: a future dropped inside write_all leaves a part of its frame on the stream, and the next request completes it: asked to delete foobar, then to close a handle, the server receives a request to delete foo (C70_refuted). Otherwise true: what a dropped call leaves behind is one of three things (C70_left_partial), and unless a future is dropped inside a write (or the stream fails) only whole requests of the calls made are written (C70_whole_partial)."
  },
  {
   "property": "C71",
   "status": "partial",
   "theorems": [
    "C71_flag_partial",
    "C71_success_partial",
    "C71_refuted"
   ],
   "note": "False as stated: when a later batch is refused (as every batch encoded by the protocol is, C26) list fails and the search stays open; no call can close it (C71_refuted). True for listings that succeed (C71_flag_partial, C71_success_partial)."
  },
  {
   "property": "C72",
   "status": "proved",
   "theorems": [
    "C72_fetch"
   ],
   "note": ""
  },
  {
   "property": "C73",
   "status": "proved",
   "theorems": [
    "C73_unambiguous",
    "C73_determined"
   ],
   "note": "User and domain are sent one after the other, each ended by NUL, so the first theorem needs that neither contains NUL (C73_nul shows two logins with the same bytes otherwise)."
  },
  {
   "property": "C74",
   "status": "proved",
   "theorems": [
    "C74_mirror"
   ],
   "note": "For directories whose listing fits into one batch (more batches are not accepted by the code as the protocol encodes them, C26)."
  },
  {
   "property": "C75",
   "status": "partial",
   "theorems": [
    "C75_lost_partial",
    "C75_refuted"
   ],
   "note": "False as stated: on every conforming server the status is returned as an error and the entries are dropped (C75_lost_partial for every such service, C75_refuted with an executable server). What holds: searches ended by the mark are returned (C25)."
  },
  {
   "property": "C76",
   "status": "partial",
   "theorems": [
    "C76_search_partial",
    "C76_list_partial",
    "C76_refuted"
   ],
   "note": "False as stated: a batch with such a name anywhere never gives a result (C76_search_partial, C76_list_partial); two replies that differ in one character, one of which loses the listing (C76_refuted)."
  },
  {
   "property": "C77",
   "status": "partial",
   "theorems": [
    "C77_relay_partial",
    "C77_server",
    "C77_refuted"
   ],
   "note": "False as stated: every login can be relayed, for both versions, and NTLMv1 can be asked for although the other server would negotiate NTLMv2 (C77_relay_partial for all accounts and servers, C77_refuted with an executable server that then deletes a file). What holds: the password itself is not sent (C36)."
  },
  {
   "property": "C78",
   "status": "partial",
   "theorems": [
    "C78_announced_partial",
    "C78_unsigned_partial",
    "C78_refuted"
   ],
   "note": "False as stated: the requests depend on the announcements only through the unicode bit (C78_announced_partial), none is signed (C78_unsigned_partial); a server that wants signatures and does not announce the NT commands gets an unsigned NT_CREATE_ANDX (C78_refuted)."
  },
  {
   "property": "C79",
   "status": "partial",
   "theorems": [
    "C79_reserved_partial",
    "C79_refuted"
   ],
   "note": "False as stated: after a login every request reserves the announced buffer size (C79_reserved_partial), which can be 4 GiB - 1 (C79_refuted)."
  },
  {
   "property": "C80",
   "status": "proved",
   "theorems": [
    "C80_serial",
    "C80_progress",
    "C80_halts",
    "C80_functions",
    "C80_downloads"
   ],
   "note": "Interleaved steps of programs (SpecPool.v) against whole calls; the hypothesis [sensible] (arguments fit, ids are left) is discharged for downloads in C80_downloads. Fuel: large enough for every answer of the server ([ample], met by the reference server). The clients' own connections: no client shares a connection with another one (the crate's methods take &mut self)."
  },
  {
   "property": "C81",
   "status": "partial",
   "theorems": [
    "C81_no_oplock",
    "C81_reserved_partial",
    "C81_reserved_refuted",
    "C81_break_refuted"
   ],
   "note": "The first part holds (C81_no_oplock); the id is not used if arithmetic is checked (C81_reserved_partial), else it is (C81_reserved_refuted); a break fails every call (C81_break_refuted)."
  },
  {
   "property": "C82",
   "status": "proved",
   "theorems": [
    "C82_twins",
    "C82_chatty"
   ],
   "note": "By induction on the program; C82_chatty gives a second conforming server for every conforming server."
  },
  {
   "property": "C83",
   "status": "partial",
   "theorems": [
    "C83_any_refuted",
    "C83_names_partial"
   ],
   "note": "False as stated: every text that fits can be returned as a name (C83_any_refuted). A server that has only file names sends only file names (C83_names_partial)."
  },
  {
   "property": "C84",
   "status": "proved",
   "theorems": [
    "C84_single",
    "C84_one",
    "C84_fragment",
    "C84_fragment_cases",
    "C84_blocks",
    "C84_blocks_cases",
    "C84_nofragment",
    "C84_batch"
   ],
   "note": ""
  },
  {
   "property": "C85",
   "status": "partial",
   "theorems": [
    "C85_call",
    "C85_program",
    "C85_functions",
    "C85_bounded",
    "C85_open",
    "C85_last",
    "C85_refuted"
   ],
   "note": "False as stated: with message number 65535 the debug build panics and the release build goes on (C85_refuted, C85_last). Everywhere else the builds agree (C85_call, C85_program, C85_bounded, C85_open; the latter while times fit their 64 bits)."
  },
  {
   "property": "C86",
   "status": "proved",
   "theorems": [
    "C86_program",
    "C86_download",
    "C86_list"
   ],
   "note": ""
  },
  {
   "property": "C87",
   "status": "proved",
   "theorems": [
    "C87_snapshot",
    "C87_service"
   ],
   "note": "Hypotheses: the sizes of files in reachable states are at most what k reads of 64 KB - 1 return, fewer than 65536 requests, the other clients' calls are expressible at the server (sensible_others). Share access is a constant of the client (share reading only), so it is not a parameter of the operation but part of what the requests of C78 ask for."
  },
  {
   "property": "C88",
   "status": "proved",
   "theorems": [
    "C88_message",
    "C88_search",
    "C88_cut",
    "C88_search_cut",
    "C88_cases",
    "C88_one"
   ],
   "note": ""
  },
  {
   "property": "C89",
   "status": "partial",
   "theorems": [
    "C89_one_partial",
    "C89_all",
    "C89_server",
    "C89_wildcard_refuted",
    "C89_nul_refuted"
   ],
   "note": "False as stated: the code passes on paths with wildcards (C89_wildcard_refuted) and with NUL (C89_nul_refuted), and all files are gone that such a path stands for (C89_all). True for all other paths (C89_one_partial)."
  },
  {
   "property": "C90",
   "status": "partial",
   "theorems": [
    "C90_partial",
    "C90_differ",
    "C90_refuted"
   ],
   "note": "False as stated: the client uses str::to_uppercase, whose capitals can be longer (sharp s gives SS); C90_refuted shows an account that is refused for it with NTLMv2. True where both form the same capitals, and with NTLMv1 always (C90_partial); C90_differ: refused wherever they differ, unless the MACs collide. What to_uppercase does is a parameter of the model (upper in env); that it maps sharp s to SS is taken from the documentation of std."
  },
  {
   "property": "C91",
   "status": "proved",
   "theorems": [
    "C91_open",
    "C91_later"
   ],
   "note": ""
  },
  {
   "property": "C92",
   "status": "partial",
   "theorems": [
    "C92_partial",
    "C92_reveals",
    "C92_literal",
    "C92_refuted"
   ],
   "note": "False: Auth and Cifs derive Debug (C92_refuted, for every connection), and the password can be read off the output (C92_reveals). C92_partial: nothing else in the output depends on it. Which characters std prints unescaped (plain) and what tokio prints for its stream are parameters."
  },
  {
   "property": "C93",
   "status": "proved",
   "theorems": [
    "C93_programs",
    "C93_crate",
    "C93_removing"
   ],
   "note": ""
  },
  {
   "property": "C94",
   "status": "partial",
   "theorems": [
    "C94_request_partial",
    "C94_mirror_partial",
    "C94_ignored",
    "C94_refuted"
   ],
   "note": "A request is never taken for a reply (C94_request_partial, C94_mirror_partial). The rest is false: process, signature, user and tree of a reply are not compared with the request's (C94_ignored, for all calls and servers; C94_refuted: a read answered to another user and tree is accepted, an open in one tree returns a handle in another)."
  },
  {
   "property": "C95",
   "status": "proved",
   "theorems": [
    "C95_watch",
    "C95_complete",
    "C95_lost"
   ],
   "note": "For every service that keeps a journal (C95_watch), and exactly what is returned for one in which any changes happen between the questions (C95_complete, C95_lost)."
  },
  {
   "property": "C96",
   "status": "proved",
   "theorems": [
    "C96_at_most_once",
    "C96_goes_on",
    "C96_program",
    "C96_both",
    "C96_server"
   ],
   "note": "At most once: C96_at_most_once; the connection goes on working: C96_goes_on, and whole programs: C96_program; both kinds of giving up occur at every call: C96_both; there are such servers: C96_server. Futures dropped inside a write or inside a message are C70 and C51."
  },
  {
   "property": "C97",
   "status": "partial",
   "theorems": [
    "C97_partial",
    "C97_refuted"
   ],
   "note": "False of the code: the answer to a question given up comes late and is skipped, with the changes in it (C97_refuted). Only these are lost, everything else is reported once and in order (C97_partial)."
  },
  {
   "property": "C98",
   "status": "proved",
   "theorems": [
    "C98_retry",
    "C98_again",
    "C98_dropped"
   ],
   "note": "Result and state after up to j attempts: C98_retry; the next download succeeds: C98_again; a dropped download future is one of these attempts: C98_dropped. That a handle can stay open is shown in C98_example."
  },
  {
   "property": "C99",
   "status": "partial",
   "theorems": [
    "C99_partial",
    "C99_server",
    "C99_refuted"
   ],
   "note": "Holds on connections of any length as long as no 65536 calls in a row are given up (C99_partial); C99_refuted: after 65536 reads given up, a read at offset 3 returns the bytes from offset 0 (release build)."
  },
  {
   "property": "C100",
   "status": "proved",
   "theorems": [
    "C100_call",
    "C100_one",
    "C100_no_answer",
    "C100_login",
    "C100_session",
    "C100_open",
    "C100_open_one"
   ],
   "note": "The ways of failing are the inductive relations of SpecWhy.v, made of the specifications of C12 (sizes), C84 (contents), C88 (frames, headers, status) and C34/C41 (login): C100_call, C100_login, C100_session and C100_open are equivalences; C100_one, C100_no_answer and C100_open_one: no two errors."
  },
  {
   "property": "C101",
   "status": "proved",
   "theorems": [
    "C101_call",
    "C101_cases",
    "C101_one",
    "C101_waits",
    "C101_program",
    "C101_download",
    "C101_list",
    "C101_download_never",
    "C101_list_never"
   ],
   "note": "SpecFate.v: answers, fails (of C100), panics, stalls; C101_call is an equivalence, C101_cases and C101_one say exactly one. flow_fate composes them; download_fate and list_fate are the two programs written out. Starved (the bound of the model is too small) is the only outcome excluded; C101_download_never and C101_list_never say when no bound is large enough."
  },
  {
   "property": "C102",
   "status": "partial",
   "theorems": [
    "C102_partial",
    "C102_obeys",
    "C102_sent",
    "C102_refuted",
    "C102_parts",
    "C102_last"
   ],
   "note": "False as stated: without extended security in the reply to the negotiation the client answers with NTLMv1 (C102_obeys and C102_sent for every server, C102_refuted with one changed bit). What holds: if the server announces extended security only the two NTLMv2 requests follow (C102_partial). C102_parts and C102_last: what an NTLMv1 response gives away, whatever DES is."
  },
  {
   "property": "C103",
   "status": "proved",
   "theorems": [
    "C103_open",
    "C103_ends",
    "C103_one",
    "C103_login",
    "C103_agrees"
   ],
   "note": "SpecOpening.v: open_fate, from the fates of the calls (C101), of the session request and of the NTLM messages. C103_open is an equivalence; the only outcome excluded is that the bound of the model is too small, and C103_ends says that this is so only below some bound. C103_agrees: the separate descriptions of success (C41) and failure (C100) say the same."
  },
  {
   "property": "C104",
   "status": "partial",
   "theorems": [
    "C104_partial",
    "C104_found",
    "C104_refuted",
    "C104_entries",
    "C104_changes",
    "C104_listing_refuted"
   ],
   "note": "SpecOem.v: where a server without Unicode looks for the name in each request (no padding), and what it reads there. C104_partial says exactly which names arrive: tree connects, empty names, names of one letter in delete, rmdir and searches. C104_found says what is read instead: the first letter (delete, rmdir, searches) or nothing (open, login). C104_refuted: such a server, asked to delete foo, deletes f. C104_entries, C104_changes, C104_listing_refuted: names in its replies panic or come out as other text. Names are restricted to characters 1 to 127, on which all code pages agree."
  },
  {
   "property": "C105",
   "status": "partial",
   "theorems": [
    "C105_partial",
    "C105_shows",
    "C105_one",
    "C105_refuted"
   ],
   "note": "SpecClear.v: shows_password, read off a frame. C105_shows: every request of mount_password with a password shows it, C105_one: and no other. C105_refuted: so it does towards a server that announced encrypted passwords. C105_partial: only without a password there is nothing to see."
  },
  {
   "property": "C106",
   "status": "partial",
   "theorems": [
    "C106_partial",
    "C106_ids",
    "C106_refuted"
   ],
   "note": "C106_partial: with the file service behind any conforming server, on the connection that opened the handle, after any program that neither closes it nor deletes the file. C106_ids: calls with handles that agree in tree and file id are the same calls. C106_refuted: on another connection the handle of one file reads another one."
  },
  {
   "property": "C107",
   "status": "proved",
   "theorems": [
    "C107_kept",
    "C107_directory"
   ],
   "note": "C107_kept: for every service that tells changes and whose searches are right about names that neither come nor go meanwhile. C107_directory: with a directory in which anything happens before every answer, the copy is the directory."
  },
  {
   "property": "C108",
   "status": "proved",
   "theorems": [
    "C108_no_wait",
    "C108_stays",
    "C108_answers",
    "C108_program",
    "C108_download",
    "C108_list",
    "C108_silent"
   ],
   "note": "On top of C101 (fates of calls and programs); panics are those of C12/C33 (ids, patterns, contents of replies that had arrived)."
  },
  {
   "property": "C109",
   "status": "proved",
   "theorems": [
    "C109_program",
    "C109_call"
   ],
   "note": "unreliable: each answer arrives whole, is cut at any byte, or is lost together with the request or after it was carried out; then nothing reaches the server. Writing that fails does not desynchronise (nothing can be sent after it)."
  },
  {
   "property": "C110",
   "status": "proved",
   "theorems": [
    "C110_kept",
    "C110_resumed",
    "C110_attempts"
   ],
   "note": "C110_kept for one attempt on a connection that may break, C110_attempts for any number of them, C110_resumed for a connection that holds."
  },
  {
   "property": "C111",
   "status": "proved",
   "theorems": [
    "C111_program",
    "C111_strict",
    "C111_download",
    "C111_list",
    "C111_login_v1",
    "C111_login_v2"
   ],
   "note": "C111_program for every program that returns at the first error; C111_strict: open, download, list and the fetch of C72 are such programs; C111_download, C111_list, C111_login_v1, C111_login_v2 say it for the functions of the crate. Not covered: the NetBIOS session request on port 139 (C103 says what becomes of it)."
  },
  {
   "property": "C112",
   "status": "partial",
   "theorems": [
    "C112_taken_over",
    "C112_login",
    "C112_partial",
    "C112_refuted"
   ],
   "note": "False as stated: nothing of a login protects what follows (no message is signed, C78). C112_taken_over: for all servers, intruders and programs, from any point on; C112_login: after every login with either version of NTLM; C112_refuted: executable, the file downloaded is the intruder's. C112_partial: if nobody comes in, the answers are those of the service that has accepted the login."
  },
  {
   "property": "C113",
   "status": "proved",
   "theorems": [
    "C113_open",
    "C113_program",
    "C113_fetch"
   ],
   "note": "Opening and running over port 139 equals opening and running over port 445, after the session request."
  },
  {
   "property": "C114",
   "status": "proved",
   "theorems": [
    "C114_repeated",
    "C114_attempt"
   ],
   "note": "For every path without NUL and wildcards (see C89); attempts on connections that break anywhere."
  },
  {
   "property": "C115",
   "status": "proved",
   "theorems": [
    "C115_program",
    "C115_list",
    "C115_delete",
    "C115_unshared"
   ],
   "note": "Generalises C72 from downloads to all programs."
  },
  {
   "property": "C116",
   "status": "proved",
   "theorems": [
    "C116_serial",
    "C116_progress",
    "C116_downloads"
   ],
   "note": "Each connection may break once, at any request (C109's network), and stays broken."
  },
  {
   "property": "C117",
   "status": "proved",
   "theorems": [
    "C117_no_deadlock",
    "C117_result",
    "C117_halts",
    "C117_download"
   ],
   "note": "One client at one server; [ticks] has one step per piece read or written by either side. The server serves a request when it has all of it and has written its last answer."
  },
  {
   "property": "C118",
   "status": "proved",
   "theorems": [
    "C118_progress",
    "C118_serial",
    "C118_halts",
    "C118_downloads"
   ],
   "note": "The server is one state that all connections share; each request is served in one step."
  },
  {
   "property": "C119",
   "status": "proved",
   "theorems": [
    "C119_result",
    "C119_ends",
    "C119_no_deadlock",
    "C119_half",
    "C119_waits",
    "C119_crate",
    "C119_open",
    "C119_then",
    "C119_fetch",
    "C119_turns",
    "C119_ref",
    "C119_taking_turns",
    "C119_then_turns",
    "C119_fetch_turns"
   ],
   "note": "The server must keep the connection open (hanging up while requests are on the way is not compared). A server that does not read while it writes can get stuck with the client if it sends something unasked (Example C119_stuck); if it answers each frame with one frame, it cannot (C119_turns, C119_taking_turns)."
  },
  {
   "property": "C120",
   "status": "proved",
   "theorems": [
    "C120_one_by_one",
    "C120_snapshot"
   ],
   "note": "Servers that hang up are not compared: over the buffers the server only makes steps that keep the connection (SpecPipe)."
  },
  {
   "property": "C121",
   "status": "proved",
   "theorems": [
    "C121_copied",
    "C121_server"
   ],
   "note": "For directories whose listing fits into one batch (more batches are not accepted by the code as the protocol encodes them, C26). Deepest path and number of calls are bounded by what fits into a request and by the multiplex ids (room)."
  },
  {
   "property": "C122",
   "status": "proved",
   "theorems": [
    "C122_cleared"
   ],
   "note": "For directories whose listing fits into one batch (C26). The server removes only empty directories, so the order of the calls matters."
  },
  {
   "property": "C123",
   "status": "proved",
   "theorems": [
    "C123_attempt",
    "C123_attempts",
    "C123_copied"
   ],
   "note": ""
  },
  {
   "property": "C124",
   "status": "proved",
   "theorems": [
    "C124_removals",
    "C124_apart"
   ],
   "note": "Proved for all interleavings of the clients' steps (as in C80, answers are delivered as a whole and connections do not fail). If two clients remove the same directory one of them can end with an error of the server, as the example C124_run shows."
  },
  {
   "property": "C125",
   "status": "proved",
   "theorems": [
    "C125_copies",
    "C125_untouched"
   ],
   "note": "Proved for all interleavings of the clients' steps (as in C80, answers are delivered as a whole and connections do not fail). The number of reads per file is bounded by the fuel, as in C63. The copy is made by the program copy_tree of SpecTree.v, written with the crate's functions."
  },
  {
   "property": "C126",
   "status": "proved",
   "theorems": [
    "C126_storm",
    "C126_untouched"
   ],
   "note": "Proved for all interleavings and all points of failure (SpecOutage.outages: on a broken connection nothing more reaches the server). A file opened before its client's connection broke stays open on this server, as in C116."
  },
  {
   "property": "C127",
   "status": "proved",
   "theorems": [
    "C127_once",
    "C127_often"
   ],
   "note": "Two calls of the API put together by the program of SpecMove.v; the copy is the caller's, kept from run to run. Files other clients have open may change between the runs."
  },
  {
   "property": "C128",
   "status": "proved",
   "theorems": [
    "C128_once",
    "C128_often"
   ],
   "note": "Others change the mailbox between the runs, not during one. The program of SpecMail.v is not part of the crate; it calls list, download and delete of the crate."
  },
  {
   "property": "C129",
   "status": "proved",
   "theorems": [
    "C129_once",
    "C129_often",
    "C129_server",
    "C129_post"
   ],
   "note": "Others' changes are one arbitrary function for each request, applied just before it; they do not change or remove files that are in the mailbox."
  },
  {
   "property": "C130",
   "status": "proved",
   "theorems": [
    "C130_once",
    "C130_often"
   ],
   "note": "The service takes any login without extended security; who is admitted is C64's matter. Others do not change or remove files that are in the mailbox."
  },
  {
   "property": "C131",
   "status": "proved",
   "theorems": [
    "C131_once",
    "C131_often",
    "C131_append"
   ],
   "note": "Others' changes are one arbitrary function for each request, applied just before it; to the file they only append."
  },
  {
   "property": "C132",
   "status": "proved",
   "theorems": [
    "C132_once",
    "C132_often"
   ],
   "note": "The clock of the client shows a time NTLMv2 can express. Others do not change or remove files that are in the mailbox."
  }
 ]
}