(** * Reply: incoming replies (smb/reply.rs, smb/trans.rs, smb/trans2/reply.rs,
    smb/trans2/subreply/*.rs, smb/trans2/collector.rs). *)
From Verif Require Import Base Text Utils Win Errors Info Common.
Open Scope N_scope.

(** smb/reply.rs:14-21 ReplyCtx *)
Record reply_ctx := mk_ctx {
  c_info : info;
  c_parameter : bytes;
  c_data : bytes;
  c_data_offset : N
}.

(** smb/reply.rs:24-28 trait Reply *)
Record reply (R : Type) := mk_reply {
  r_cmd : cmd;
  r_andx : bool;
  r_create : reply_ctx -> res smb_error R
}.
Arguments mk_reply {R}.
Arguments r_cmd {R}.
Arguments r_andx {R}.
Arguments r_create {R}.

(** smb/reply.rs:30-55 Reply::parse *)
Definition reply_parse {R} (r : reply R) (i : info) (buffer : bytes) : res smb_error R :=
  let* (parameter_count, buffer) := get_u8 buffer in
  let parameter_offset := SMB_HEADER_LEN + 1 in
  let* (parameter, buffer) := copy_to_bytes (2 * parameter_count) buffer in
  let* (data_count, buffer) := get_u16_le buffer in
  let data_offset := parameter_offset + 2 * parameter_count + 2 in
  let* (data, buffer) := copy_to_bytes data_count buffer in
  let* parameter :=
    (if r_andx r then
       let* (o, parameter) := andx_parse parameter in
       match o with
       | Some _ => Err (Unsupported AndXChaining)
       | None => Ok parameter
       end
     else Ok parameter) in
  r_create r (mk_ctx i parameter data data_offset).

(** smb/reply.rs:59-72 ServerSetup *)
Record server_setup := mk_server {
  s_dialect : N;
  s_security_mode : N;
  s_max_mpx_count : N;
  s_max_number_vcs : N;
  s_max_buffer_size : N;
  s_max_raw_size : N;
  s_session_key : N;
  s_capabilities : N;
  s_system_time : N;
  s_timezone : N;
  s_challenge : bytes
}.

(** smb/reply.rs:78-138 ServerSetup::create.  (Line 81 compares a number of bytes
    with the number of words the comment asks for.) *)
Definition server_setup_create (ctx : reply_ctx) : res smb_error server_setup :=
  let parameter := c_parameter ctx in
  if len parameter <? 17 then Err (Unsupported TooFewParameter) else
  let* (dialect, parameter) := get_u16_le parameter in
  if dialect =? 0xffff then Err NoDialect else
  if len SMB_SUPPORTED_DIALECTS <=? dialect then Err InvalidHeader else
  let* (security_mode, parameter) := get_u8 parameter in
  let* (max_mpx_count, parameter) := get_u16_le parameter in
  let* (max_number_vcs, parameter) := get_u16_le parameter in
  let* (max_buffer_size, parameter) := get_u32_le parameter in
  let* (max_raw_size, parameter) := get_u32_le parameter in
  let* (session_key, parameter) := get_u32_le parameter in
  let* (caps, parameter) := get_u32_le parameter in
  let capabilities := truncate_bits Capabilities_all caps in
  let* (t, parameter) := get_u64_le parameter in
  let* system_time := decode_windows_time t in
  let* (timezone, parameter) := get_u16_le parameter in
  let* (challenge_length, parameter) := get_u8 parameter in
  let data := c_data ctx in
  if len data <? challenge_length then Err InvalidData else
  let* (challenge, data) := copy_to_bytes challenge_length data in
  Ok (mk_server dialect security_mode max_mpx_count max_number_vcs max_buffer_size
        max_raw_size session_key capabilities system_time timezone challenge).
Definition r_server_setup : reply server_setup :=
  mk_reply CNegotiate false server_setup_create.

(** smb/reply.rs:143-184 SessionSetup *)
Record session_setup := mk_session {
  ss_guest_mode : bool;
  ss_uid : N;
  ss_blob : bytes
}.
Definition session_setup_create (ctx : reply_ctx) : res smb_error session_setup :=
  let parameter := c_parameter ctx in
  let* (action, parameter) := get_u16_le parameter in
  let* blob_length :=
    (if 2 <=? len parameter
     then let* (n, _) := get_u16_le parameter in Ok n
     else Ok 0) in
  let* (blob, _) := copy_to_bytes blob_length (c_data ctx) in
  Ok (mk_session (N.land action 1 =? 1) (i_uid (c_info ctx)) blob).
Definition r_session_setup : reply session_setup :=
  mk_reply CSessionSetup true session_setup_create.

(** smb/reply.rs:198-205 Share *)
Record share := mk_share {
  sh_access_rights : option N;
  sh_guest_rights : option N;
  sh_service : text;
  sh_filesystem : text;
  sh_tid : N
}.

(** smb/error.rs:64-68 *)
Definition of_parse_str_error (_ : parse_str_error) : smb_error := InvalidData.

Definition optional_rights (parameter : bytes) : res smb_error (option N * bytes) :=
  if 4 <=? len parameter then
    let* (v, parameter) := get_u32_le parameter in
    Ok (Some (truncate_bits DirAccessMask_all v), parameter)
  else Ok (None, parameter).

(** smb/reply.rs:212-252 Share::create *)
Definition share_create (ctx : reply_ctx) : res smb_error share :=
  let* parameter := advance 2 (c_parameter ctx) in
  let* (access_rights, parameter) := optional_rights parameter in
  let* (guest_rights, parameter) := optional_rights parameter in
  let* (service, data) := map_err of_parse_str_error (parse_str_0 (c_data ctx)) in
  let* (filesystem, _) :=
    (if contains (i_flags2 (c_info ctx)) F2_UNICODE then
       let* data := (if len (utf8 service) mod 2 =? 1 then advance 1 data else Ok data) in
       map_err of_parse_str_error (parse_utf16le_0 data)
     else map_err of_parse_str_error (parse_str_0 data)) in
  Ok (mk_share access_rights guest_rights service filesystem (i_tid (c_info ctx))).
Definition r_share : reply share := mk_reply CTreeConnect true share_create.

(** smb/reply.rs:257-266 TreeDisconnect, 346-355 Close, 399-408 Delete, 411-420 Rmdir *)
Definition r_tree_disconnect : reply unit := mk_reply CTreeDisconnect false (fun _ => Ok tt).
Definition r_close : reply unit := mk_reply CClose false (fun _ => Ok tt).
Definition r_delete : reply unit := mk_reply CDelete false (fun _ => Ok tt).
Definition r_rmdir : reply unit := mk_reply CRmdir false (fun _ => Ok tt).

(** smb/reply.rs:278-292 Handle *)
Record handle := mk_handle {
  h_tid : N;
  h_fid : N;
  h_oplock : N;
  h_disposition : N;
  h_create_time : N;
  h_access_time : N;
  h_write_time : N;
  h_change_time : N;
  h_attributes : N;
  h_allocation_size : N;
  h_size : N;
  h_file_type : N;
  h_directory : bool
}.

(** smb/reply.rs:298-341 Handle::create *)
Definition handle_create (ctx : reply_ctx) : res smb_error handle :=
  let parameter := c_parameter ctx in
  let* (oplock, parameter) := get_u8 parameter in
  let* (fid, parameter) := get_u16_le parameter in
  let* (disposition, parameter) := get_u32_le parameter in
  let* (create_time, parameter) := get_u64_le parameter in
  let* (access_time, parameter) := get_u64_le parameter in
  let* (write_time, parameter) := get_u64_le parameter in
  let* (change_time, parameter) := get_u64_le parameter in
  let* (attributes, parameter) := get_u32_le parameter in
  let* (allocation_size, parameter) := get_u64_le parameter in
  let* (size, parameter) := get_u64_le parameter in
  let* (file_type, parameter) := get_u16_le parameter in
  let* parameter := advance 2 parameter in
  let* (d, parameter) := get_u8 parameter in
  let* directory := (if d =? 0 then Ok false else if d =? 1 then Ok true else Err InvalidData) in
  Ok (mk_handle (i_tid (c_info ctx)) fid
        (truncate_bits OpLockLevel_all oplock)
        (truncate_bits CreateDisposition_all disposition)
        create_time access_time write_time change_time
        (truncate_bits ExtFileAttr_all attributes)
        allocation_size size
        (truncate_bits ResourceType_all file_type)
        directory).
Definition r_handle : reply handle := mk_reply CCreate true handle_create.

(** smb/reply.rs:359-395 Read *)
Definition read_create (ctx : reply_ctx) : res smb_error bytes :=
  let* parameter := advance 2 (c_parameter ctx) in
  let* parameter := advance 2 parameter in
  let* parameter := advance 2 parameter in
  let* (length, parameter) := get_u16_le parameter in
  let data := c_data ctx in
  let* data := (if length <? len data then advance 1 data else Ok data) in
  if negb (len data =? length) then Err InvalidData else
  let* (file_data, _) := copy_to_bytes length data in
  Ok file_data.
Definition r_read : reply bytes := mk_reply CRead true read_create.

(** smb/reply.rs:428-477 Transact::create; [sub] is T::parse (setup, parameter, data) *)
Definition transact_create {T} (sub : bytes -> bytes -> bytes -> res smb_error T)
  (ctx : reply_ctx) : res smb_error T :=
  let* p := advance 3 (c_parameter ctx) in
  let* (total_parameter_count, p) := get_u32_le p in
  let* (total_data_count, p) := get_u32_le p in
  let* (parameter_count, p) := get_u32_le p in
  let* (raw_parameter_offset, p) := get_u32_le p in
  let* (_, p) := get_u32_le p in
  let* (data_count, p) := get_u32_le p in
  let* (raw_data_offset, p) := get_u32_le p in
  let* (_, p) := get_u32_le p in
  let* (setup_words, p) := get_u8 p in
  let* (sub_setup, p) := copy_to_bytes (2 * setup_words) p in
  if (parameter_count <? total_parameter_count) || (data_count <? total_data_count)
  then Err (Unsupported SplitTransaction) else
  let* sub_parameter :=
    (if 0 <? parameter_count then
       let* offset := ok_or (try_sub raw_parameter_offset (c_data_offset ctx)) InvalidData in
       slice offset (offset + parameter_count) (c_data ctx)
     else Ok []) in
  let* sub_data :=
    (if 0 <? data_count then
       let* offset := ok_or (try_sub raw_data_offset (c_data_offset ctx)) InvalidData in
       slice offset (offset + data_count) (c_data ctx)
     else Ok []) in
  sub sub_setup sub_parameter sub_data.
Definition r_transact {T} (sub : bytes -> bytes -> bytes -> res smb_error T) : reply T :=
  mk_reply CTransact false (transact_create sub).

(** smb/trans.rs:99-118 parse_notify_info *)
Definition parse_notify_info (b : bytes) : res smb_error (text * notify_action) :=
  if len b <? 8 then Err InvalidData else
  let* (a, b) := get_u32_le b in
  let* action := ok_or (action_of_code a) InvalidData in
  let* (filename_length, b) := get_u32_le b in
  if len b <? filename_length then Err InvalidData else
  let* (raw, _) := copy_to_bytes filename_length b in
  let* filename := map_err of_utf16_error (decode_utf16le raw) in
  Ok (filename, action).

(** smb/trans.rs:125-148 Notification::parse, the loop: [start] grows by at least
    one in each round and [slice(start..)] panics beyond the end, so
    [length parameter + 2] rounds suffice; running out of rounds is the separate
    (provably unreachable) value [None]. *)
Fixpoint notification_loop (fuel : nat) (parameter : bytes) (start : N)
  (changes : list (text * notify_action))
  : option (res smb_error (list (text * notify_action))) :=
  match fuel with
  | O => None
  | S fuel =>
    match @slice_from smb_error start parameter with
    | Ok parser =>
      if len parser =? 0 then Some (Ok changes)
      else if len parser <? 4 then Some (Err InvalidData)
      else
        match @get_u32_le smb_error parser with
        | Ok (next, parser) =>
          match parse_notify_info parser with
          | Ok c =>
            if next =? 0 then Some (Ok (changes ++ [c]))
            else notification_loop fuel parameter (start + next) (changes ++ [c])
          | Err e => Some (Err e)
          | Panic => Some Panic
          end
        | Err e => Some (Err e)
        | Panic => Some Panic
        end
    | Err e => Some (Err e)
    | Panic => Some Panic
    end
  end.
(** (the [None] branch is unreachable: ReplyFacts.notification_loop_total) *)
Definition notification_parse (_ parameter _ : bytes)
  : res smb_error (list (text * notify_action)) :=
  match notification_loop (length parameter + 2) parameter 0 [] with
  | Some r => r
  | None => Panic
  end.
Definition r_notification : reply (list (text * notify_action)) :=
  r_transact notification_parse.

(** smb/trans2/reply.rs:9-17 Transact2 *)
Record trans2_reply := mk_trans2 {
  f_parameter : bytes;
  f_parameter_total : N;
  f_parameter_offset : N;
  f_data : bytes;
  f_data_total : N;
  f_data_offset : N
}.

(** smb/trans2/reply.rs:23-54 Transact2::create *)
Definition trans2_create (ctx : reply_ctx) : res smb_error trans2_reply :=
  let p := c_parameter ctx in
  let* (total_parameter_count, p) := get_u16_le p in
  let* (total_data_count, p) := get_u16_le p in
  let* p := advance 2 p in
  let* (parameter_count, p) := get_u16_le p in
  let* (raw_po, p) := get_u16_le p in
  let* parameter_offset := ok_or (try_sub raw_po (c_data_offset ctx)) InvalidData in
  let* (parameter_displacement, p) := get_u16_le p in
  let* (data_count, p) := get_u16_le p in
  let* (raw_do, p) := get_u16_le p in
  let* data_offset := ok_or (try_sub raw_do (c_data_offset ctx)) InvalidData in
  let* (data_displacement, p) := get_u16_le p in
  let* sub_parameter := slice parameter_offset (parameter_offset + parameter_count) (c_data ctx) in
  let* sub_data := slice data_offset (data_offset + data_count) (c_data ctx) in
  Ok (mk_trans2 sub_parameter total_parameter_count parameter_displacement
                sub_data total_data_count data_displacement).
Definition r_trans2 : reply trans2_reply := mk_reply CTransact2 false trans2_create.

(** smb/trans2/collector.rs:44-55 Collector.  The HashMap is an association list
    with unique keys; the code never depends on its iteration order
    (sum of lengths, [sorted]). *)
Record collector := mk_collector {
  fragments : list (N * bytes);
  total : option N
}.
Definition collector_new : collector := mk_collector [] None.

(** HashMap::insert: the new map, and whether the key was present *)
Definition frag_insert (k : N) (v : bytes) (m : list (N * bytes)) : list (N * bytes) * bool :=
  ((k, v) :: filter (fun e => negb (fst e =? k)) m, existsb (fun e => fst e =? k) m).

(** smb/trans2/collector.rs:57-81 Collector::add.  On an error the collector is
    discarded by the only caller (lib.rs:390), so only Ok carries a new state. *)
Definition collector_add (c : collector) (data : bytes) (offset tot : N)
  : res smb_error collector :=
  let* t :=
    match total c with
    | Some saved => if negb (saved =? tot) then Err (Reassemble (TotalChanged saved tot))
                    else Ok saved
    | None => Ok tot
    end in
  if len data =? 0 then Ok (mk_collector (fragments c) (Some t)) else
  let '(m, dup) := frag_insert offset data (fragments c) in
  if dup then Err (Reassemble (FragmentTwice offset))
  else Ok (mk_collector m (Some t)).

(** smb/trans2/collector.rs:83-85 *)
Definition collector_len (c : collector) : N :=
  fold_right (fun e n => len (snd e) + n) 0 (fragments c).

(** smb/trans2/collector.rs:87-93 *)
Definition is_ready (c : collector) : bool :=
  match total c with
  | Some t => t <=? collector_len c
  | None => false
  end.

(** itertools sorted() on (offset, data) pairs with unique offsets *)
Fixpoint insert_sorted (e : N * bytes) (l : list (N * bytes)) : list (N * bytes) :=
  match l with
  | [] => [e]
  | x :: r => if fst e <=? fst x then e :: l else x :: insert_sorted e r
  end.
Definition sorted (l : list (N * bytes)) : list (N * bytes) := fold_right insert_sorted [] l.

(** smb/trans2/collector.rs:104-110, the loop of get *)
Fixpoint assemble (l : list (N * bytes)) (buffer : bytes) : res smb_error bytes :=
  match l with
  | [] => Ok buffer
  | (offset, data) :: r =>
    if negb (len buffer =? offset) then Err (Reassemble (OffsetMismatch offset (len buffer)))
    else assemble r (buffer ++ data)
  end.

(** smb/trans2/collector.rs:95-113 Collector::get *)
Definition collector_get (c : collector) : res smb_error bytes :=
  let* t := ok_or (total c) InvalidData in
  if negb (collector_len c =? t) then Err (Reassemble (LengthMismatch t (collector_len c)))
  else assemble (sorted (fragments c)) [].

(** smb/trans2/collector.rs:12-41 CollectTrans2 *)
Record collect2 := mk_collect2 { k_parameter : collector; k_data : collector }.
Definition collect2_new : collect2 := mk_collect2 collector_new collector_new.
Definition collect2_add (k : collect2) (m : trans2_reply) : res smb_error (collect2 * bool) :=
  let* p := collector_add (k_parameter k) (f_parameter m) (f_parameter_offset m) (f_parameter_total m) in
  let* d := collector_add (k_data k) (f_data m) (f_data_offset m) (f_data_total m) in
  Ok (mk_collect2 p d, is_ready p && is_ready d).
Definition get_subreply {T} (sub : bytes -> bytes -> res smb_error T) (k : collect2)
  : res smb_error T :=
  let* parameter := collector_get (k_parameter k) in
  let* data := collector_get (k_data k) in
  sub parameter data.

(** smb/trans2/subreply/findfirst2.rs:36-63, the loop.  Each round consumes at
    least four bytes; [length data + 1] rounds suffice, [None] is unreachable. *)
Fixpoint find_first_loop (fuel : nat) (data : bytes) (acc : list dir_info)
  : option (res smb_error (list dir_info)) :=
  match fuel with
  | O => None
  | S fuel =>
    if len data =? 0 then Some (Ok acc)
    else if len data <? 4 then Some (Err InvalidData)
    else
      match @get_u32_le smb_error data with
      | Ok (next_entry, data) =>
        if (negb (next_entry =? 0)) && (next_entry <? 4) then Some (Err InvalidData)
        else
          let size := if next_entry =? 0 then len data else next_entry - 4 in
          if size =? 0 then Some (Ok acc)
          else if len data <? size then Some (Err InvalidData)
          else
            match dir_info_parse (take size data) with
            | Ok d => find_first_loop fuel (drop size data) (acc ++ [d])
            | Err e => Some (Err e)
            | Panic => Some Panic
            end
      | Err e => Some (Err e)
      | Panic => Some Panic
      end
  end.

(** smb/trans2/subreply/findfirst2.rs:7-11 FindFirst2 *)
Record found := mk_found { ff_sid : N; ff_end : bool; ff_info : list dir_info }.

(** smb/trans2/subreply/findfirst2.rs:16-80 *)
Definition find_first_parse (parameter data : bytes) : res smb_error found :=
  if len parameter <? 10 then Err InvalidData else
  let* (sid, parameter) := get_u16_le parameter in
  let* (count, parameter) := get_u16_le parameter in
  let* (e, parameter) := get_u16_le parameter in
  let end_ := negb (e =? 0) in
  let* _ := advance 2 parameter in
  let* info := match find_first_loop (length data + 1) data [] with
               | Some r => r | None => Panic end in
  if negb (len info =? count) then Err InvalidData else
  if negb end_ && (count =? 0) then Err InvalidData else
  Ok (mk_found sid end_ info).

(** smb/trans2/subreply/findnext2.rs:27-51, the loop *)
Fixpoint find_next_loop (fuel : nat) (data : bytes) (acc : list dir_info)
  : option (res smb_error (list dir_info)) :=
  match fuel with
  | O => None
  | S fuel =>
    if len data =? 0 then Some (Ok acc)
    else if len data <? 4 then Some (Err InvalidData)
    else
      match @get_u32_le smb_error data with
      | Ok (rawsize, data) =>
        if rawsize <? 4 then Some (Err InvalidData)
        else
          let size := rawsize - 4 in
          if size =? 0 then Some (Ok acc)
          else if len data <? size then Some (Err InvalidData)
          else
            match dir_info_parse (take size data) with
            | Ok d => find_next_loop fuel (drop size data) (acc ++ [d])
            | Err e => Some (Err e)
            | Panic => Some Panic
            end
      | Err e => Some (Err e)
      | Panic => Some Panic
      end
  end.

(** smb/trans2/subreply/findnext2.rs:6-9 FindNext2 *)
Record found_next := mk_found_next { fn_end : bool; fn_info : list dir_info }.

(** smb/trans2/subreply/findnext2.rs:14-62 *)
Definition find_next_parse (parameter data : bytes) : res smb_error found_next :=
  if len parameter <? 4 then Err InvalidData else
  let* (count, parameter) := get_u16_le parameter in
  let* (e, parameter) := get_u16_le parameter in
  let end_ := negb (e =? 0) in
  let* info := match find_next_loop (length data + 1) data [] with
               | Some r => r | None => Panic end in
  if negb (len info =? count) then Err InvalidData else
  if negb end_ && (count =? 0) then Err InvalidData else
  Ok (mk_found_next end_ info).
