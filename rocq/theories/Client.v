(** * Client: netbios.rs and the struct Cifs of lib.rs. *)
From Verif Require Import Base Text Utils Win Errors Info Common Msg Reply Ntlm Prog.
Open Scope N_scope.

(** lib.rs:26-35 Cifs (the netbios stream is the world of Prog.v) *)
Record cifs := mk_cifs {
  auth_of : auth;
  max_smb_size : N;
  use_unicode : bool;
  uid : N;
  mid : N
}.
Definition set_mid (v : N) (c : cifs) : cifs :=
  mk_cifs (auth_of c) (max_smb_size c) (use_unicode c) (uid c) v.
Definition set_uid (v : N) (c : cifs) : cifs :=
  mk_cifs (auth_of c) (max_smb_size c) (use_unicode c) v (mid c).
Definition set_options (m : N) (u : bool) (c : cifs) : cifs :=
  mk_cifs (auth_of c) m u (uid c) (mid c).

(** Result<A, Error> of an async fn *)
Inductive ans (A : Type) := Good (a : A) | Bad (e : error).
Arguments Good {A} a.
Arguments Bad {A} e.

(** an async fn of Cifs or NetBios returning Result<A, Error> *)
Notation M A := (prog cifs (ans A)).

Definition ret {A} (a : A) : M A := Ret (Good a).
Definition fail {A} (e : error) : M A := Ret (Bad e).
(** the [?] operator *)
Definition mbind {A B} (p : M A) (f : A -> M B) : M B :=
  pbind p (fun r => match r with Good a => f a | Bad e => Ret (Bad e) end).
Notation "'do!' x ':=' c1 'in' c2" := (mbind c1 (fun x => c2))
  (at level 61, x pattern, c1 at next level, right associativity).
(** a Result (or panic) of a pure function, error converted by [From] *)
Definition lift {E A} (f : E -> error) (r : res E A) : M A :=
  match r with Ok a => ret a | Err e => fail (f e) | Panic => Panicked end.
Definition get : M cifs := Get (fun c => ret c).
Definition put (c : cifs) : M unit := Put c (ret tt).

(** ** netbios.rs *)

(** netbios.rs:10 *)
Definition MAX_FRAME_LENGTH : N := 0x1ffff.

(** netbios.rs:55-62 Frame *)
Inductive frame :=
| FMessage (b : bytes)
| FSessionRequest (b : bytes)
| FPositiveResponse
| FNegativeResponse (code : N)
| FRetarget
| FKeepalive.

(** netbios.rs:64-74 FrameType and 77-112 Frame::new *)
Definition frame_new (ty : N) (data : bytes) : res nb_error frame :=
  if ty =? 0x00 then Ok (FMessage data)
  else if ty =? 0x81 then Ok (FSessionRequest data)
  else if ty =? 0x82 then
    if negb (len data =? 0) then Err InvalidFrame else Ok FPositiveResponse
  else if ty =? 0x83 then
    match data with [c] => Ok (FNegativeResponse (b2n c)) | _ => Err InvalidFrame end
  else if ty =? 0x84 then
    if negb (len data =? 6) then Err InvalidFrame else Ok FRetarget
  else if ty =? 0x85 then
    if negb (len data =? 0) then Err InvalidFrame else Ok FKeepalive
  else Err (InvalidFrameType ty).

(** netbios.rs:114-156 get_type, encode ([n.to_be_bytes()[1..4]] are the low three
    bytes, big endian; the u32 conversions cannot fail below the limits checked
    before, FrameTooBig stands for their error) *)
Definition frame_encode (f : frame) : res nb_error bytes :=
  match f with
  | FMessage msg =>
    if MAX_FRAME_LENGTH <? len msg then Err InvalidFrame else
    let* n := try_into 32 FrameTooBig (len msg) in
    Ok (le 1 0x00 ++ drop 1 (be 4 n) ++ msg)
  | FSessionRequest msg =>
    if negb (len msg =? 68) then Err InvalidFrame else
    let* n := try_into 32 FrameTooBig (len msg) in
    Ok (le 1 0x81 ++ drop 1 (be 4 n) ++ msg)
  | _ => Err InvalidFrame
  end.

(** netbios.rs:276-283 write_exactly (see Prog.write_loop for the loop) *)
Definition write_exactly (b : bytes) : M unit :=
  Write b (fun r => match r with
                    | None => ret tt
                    | Some e => fail (ENetBios (IoError (IoOther e)))
                    end).

(** netbios.rs:229-231 NetBios::send *)
Definition nb_send (f : frame) : M unit :=
  do! b := lift ENetBios (frame_encode f) in write_exactly b.

(** netbios.rs:189-191 send_message *)
Definition send_message (msg : bytes) : M unit := nb_send (FMessage msg).

(** tokio read_u8 / read_exact, netbios.rs:235,242 *)
Definition read_std (n : N) : M bytes :=
  Read n (fun r => match r with
                   | Got b => ret b
                   | RdEof => fail (ENetBios (IoError IoUnexpectedEof))
                   | RdErr e => fail (ENetBios (IoError (IoOther e)))
                   end).
(** netbios.rs:257-274 read_exactly (see Prog.read_loop for the loop) *)
Definition read_exactly (n : N) : M bytes :=
  Read n (fun r => match r with
                   | Got b => ret b
                   | RdEof => fail (ENetBios UnexpectedEOF)
                   | RdErr e => fail (ENetBios (IoError (IoOther e)))
                   end).

(** netbios.rs:233-254 NetBios::recv *)
Definition nb_recv : M frame :=
  do! t := read_std 1 in
  do! raw := read_std 3 in
  let msg_length := unbe (x00 :: raw) in
  if MAX_FRAME_LENGTH <? msg_length then fail (ENetBios FrameTooBig) else
  do! data := read_exactly msg_length in
  lift ENetBios (frame_new (unle t) data).

(** netbios.rs:193-202 recv_message *)
Fixpoint recv_message (fuel : nat) : M bytes :=
  match fuel with
  | O => OutOfFuel
  | S fuel =>
    do! f := nb_recv in
    match f with
    | FMessage msg => ret msg
    | FKeepalive => recv_message fuel
    | _ => fail (ENetBios UnexpectedFrame)
    end
  end.

(** "*SMBSERVER" (netbios.rs:180) *)
Definition SMBSERVER : text := [42; 83; 77; 66; 83; 69; 82; 86; 69; 82].

(** netbios.rs:204-224 create_session *)
Definition create_session (dst src : text) : M unit :=
  let msgbuf := le 1 0x20 ++ utf8 (encode_netbios_name dst) ++ le 1 0
                ++ le 1 0x20 ++ utf8 (encode_netbios_name src) ++ le 1 0 in
  do! _ := nb_send (FSessionRequest msgbuf) in
  do! f := nb_recv in
  match f with
  | FPositiveResponse => ret tt
  | FNegativeResponse code => fail (ENetBios (CreateSession code))
  | _ => fail (ENetBios InvalidFrame)
  end.

(** ** lib.rs *)
Section Env.
Variable E : env.

(** lib.rs:296: how many bytes [send] reserves for the frame before it writes anything *)
Definition reserved (c : cifs) : N := max_smb_size c.
(** lib.rs:294-315 Cifs::send.  (with_capacity, line 296, only preallocates: see
    [reserved].)  [self.mid += 1] on u16 panics on overflow with overflow
    checks and wraps without. *)
Definition send (m : msg) : M N :=
  do! c := get in
  let id := mid c in
  let next := id + 1 in
  if (2 ^ 16 <=? next) && overflow_checks E then Panicked else
  do! _ := put (set_mid (next mod 2 ^ 16) c) in
  let i := info_default (m_cmd m) in
  let i := mk_info (i_cmd i) (i_status i) (i_flags1 i)
             (set_flag (i_flags2 i) F2_UNICODE (use_unicode c))
             (i_pid i) (i_tid i) (uid c) id in
  let i := m_fix m i in
  let frame_out := info_write i in
  do! body := lift ESmb (msg_write m i (len frame_out)) in
  do! _ := send_message (frame_out ++ body) in
  ret id.

(** lib.rs:323-329, the loop of recv *)
Fixpoint recv_frame (fuel inner : nat) (id : N) : M (info * bytes) :=
  match fuel with
  | O => OutOfFuel
  | S fuel =>
    do! frame := recv_message inner in
    do! (i, body) := lift ESmb (info_parse frame) in
    if i_mid i =? id then ret (i, body) else recv_frame fuel inner id
  end.

(** lib.rs:336-346, the status check *)
Definition status_ok (i : info) : bool :=
  match i_status i with
  | Known SUCCESS => true
  | Known MORE_PROCESSING => cmd_eqb (i_cmd i) CSessionSetup
  | _ => false
  end.

(** lib.rs:321-350 Cifs::recv *)
Definition recv {R} (fuel : nat) (r : reply R) (id : N) : M R :=
  do! (i, body) := recv_frame fuel fuel id in
  if negb (cmd_eqb (i_cmd i) (r_cmd r)) then fail (UnexpectedReply (r_cmd r) (i_cmd i)) else
  if negb (status_ok i) then fail (ServerError (i_status i)) else
  lift ESmb (reply_parse r i body).

(** lib.rs:357-364 command *)
Definition command {R} (fuel : nat) (m : msg) (r : reply R) : M R :=
  do! id := send m in recv fuel r id.

(** lib.rs:388-393, the loop of transact2 *)
Fixpoint collect (fuel inner : nat) (id : N) (ctx : collect2) : M collect2 :=
  match fuel with
  | O => OutOfFuel
  | S fuel =>
    do! f := recv inner r_trans2 id in
    do! (ctx, done) := lift ESmb (collect2_add ctx f) in
    if (done : bool) then ret ctx else collect fuel inner id ctx
  end.

(** lib.rs:377-396 transact2 *)
Definition transact2 {R} (fuel : nat) (tid : N) (t : subcmd2)
  (sub : bytes -> bytes -> res smb_error R) : M R :=
  do! id := send (msg_transact2 tid t) in
  do! ctx := collect fuel fuel id collect2_new in
  lift ESmb (get_subreply sub ctx).

(** lib.rs:70-113 *)
Definition mount_password (fuel : nat) (path password : text) : M share :=
  command fuel (msg_tree_connect (sanitize_path path) password) r_share.
Definition mount (fuel : nat) (path : text) : M share := mount_password fuel path [].
Definition umount (fuel : nat) (s : share) : M unit :=
  command fuel (msg_tree_disconnect (sh_tid s)) r_tree_disconnect.
Definition openfile (fuel : nat) (s : share) (path : text) : M handle :=
  command fuel (msg_open (sh_tid s) (open_file_ro (sanitize_path path))) r_handle.
Definition opendir (fuel : nat) (s : share) (path : text) : M handle :=
  command fuel (msg_open (sh_tid s) (open_dir (sanitize_path path))) r_handle.
Definition close (fuel : nat) (h : handle) : M unit :=
  command fuel (msg_close (h_tid h) (h_fid h)) r_close.
Definition read (fuel : nat) (h : handle) (offset : N) : M bytes :=
  command fuel (msg_read (h_tid h) (h_fid h) offset) r_read.

(** lib.rs:118-122, the loop of download *)
Fixpoint download_loop (fuel inner : nat) (h : handle) (data : bytes) : M bytes :=
  match fuel with
  | O => OutOfFuel
  | S fuel =>
    if len data <? h_size h then
      do! chunk := read inner h (len data) in
      download_loop fuel inner h (data ++ chunk)
    else ret data
  end.
(** lib.rs:115-126 download *)
Definition download (fuel : nat) (s : share) (path : text) : M bytes :=
  do! file := openfile fuel s path in
  do! data := download_loop fuel fuel file [] in
  do! _ := close fuel file in
  ret data.

(** lib.rs:128-140 *)
Definition delete (fuel : nat) (s : share) (path : text) : M unit :=
  command fuel (msg_delete (sh_tid s) (sanitize_path path)) r_delete.
Definition rmdir (fuel : nat) (s : share) (path : text) : M unit :=
  command fuel (msg_rmdir (sh_tid s) (sanitize_path path)) r_rmdir.

(** lib.rs:142-159, 366-375 transact *)
Definition notify_about (fuel : nat) (h : handle) (mode : N)
  : M (list (text * notify_action)) :=
  command fuel (msg_transact (h_tid h) (notify_setup (h_fid h) mode false)) r_notification.
Definition notify (fuel : nat) (h : handle) : M (list (text * notify_action)) :=
  notify_about fuel h NotifyMode_all.

(** lib.rs:170-178 find_first *)
Definition find_first (fuel : nat) (s : share) (pattern : text) : M found :=
  transact2 fuel (sh_tid s)
    (find_first2 (sanitize_path pattern) (lor_all [ATTR_HIDDEN; ATTR_SYSTEM; ATTR_DIRECTORY]))
    find_first_parse.
(** lib.rs:189-197 find_next *)
Definition find_next (fuel : nat) (s : share) (sid : N) (lastfile : text) : M found_next :=
  transact2 fuel (sh_tid s) (find_next2 sid lastfile) find_next_parse.

(** lib.rs:213-222, the loop of list; [result.last().unwrap()] panics when empty *)
Fixpoint list_loop (fuel inner : nat) (s : share) (sid : N) (result : list dir_info)
  : M (list dir_info) :=
  match fuel with
  | O => OutOfFuel
  | S fuel =>
    match last (map Some result) None with
    | None => Panicked
    | Some d =>
      do! r := find_next inner s sid (d_filename d) in
      let result := result ++ fn_info r in
      if fn_end r then ret result else list_loop fuel inner s sid result
    end
  end.
(** lib.rs:203-225 list *)
Definition list_dir (fuel : nat) (s : share) (pattern : text) : M (list dir_info) :=
  do! r := find_first fuel s pattern in
  if ff_end r then ret (ff_info r) else list_loop fuel fuel s (ff_sid r) (ff_info r).

(** lib.rs:398-414 *)
Definition negotiate (fuel : nat) : M server_setup := command fuel msg_negotiate r_server_setup.
Definition session_setup_auth (fuel : nat) (user domain : text) (secret : bytes)
  : M session_setup := command fuel (msg_session_setup (Classic user domain secret)) r_session_setup.
Definition session_setup_blob (fuel : nat) (blob : bytes) : M session_setup :=
  command fuel (msg_session_setup (Extended blob)) r_session_setup.

(** lib.rs:247-260 authenticate_ntlm *)
Definition authenticate_ntlm (fuel : nat) (challenge : bytes) : M unit :=
  do! c := get in
  do! secret := lift ENtlm (ntlmv1_authenticate E (auth_of c) challenge) in
  do! r := session_setup_auth fuel (a_user (auth_of c)) (a_domain (auth_of c)) secret in
  do! c := get in
  put (set_uid (ss_uid r) c).

(** lib.rs:262-292 authenticate_ntlmv2 *)
Definition authenticate_ntlmv2 (fuel : nat) : M unit :=
  do! c := get in
  let a := auth_of c in
  do! ntlm_init := lift ENtlm (init_msg (a_domain a) (a_workstation a)) in
  do! r := session_setup_blob fuel ntlm_init in
  do! c := get in
  do! _ := put (set_uid (ss_uid r) c) in
  do! ch := lift ENtlm (challenge_parse (ss_blob r)) in
  do! resp := lift ENtlm (challenge_response E ch a) in
  do! _ := session_setup_blob fuel resp in
  ret tt.

(** lib.rs:230-245 setup_connection *)
Definition setup_connection (fuel : nat) : M unit :=
  do! s := negotiate fuel in
  do! c := get in
  do! _ := put (set_options (s_max_buffer_size s)
                 (contains (s_capabilities s) CAP_UNICODE) c) in
  if contains (s_capabilities s) CAP_EXTENDED_SECURITY
  then authenticate_ntlmv2 fuel
  else authenticate_ntlm fuel (s_challenge s).

(** lib.rs:43-48 the default credentials: user "", password "", domain
    "WORKGROUP", workstation "ANONYMOUS" *)
Definition default_auth : auth :=
  mk_auth [] [65; 78; 79; 78; 89; 77; 79; 85; 83]
          [87; 79; 82; 75; 71; 82; 79; 85; 80] [].
(** lib.rs:55-63 *)
Definition initial_cifs (a : auth) : cifs := mk_cifs a 1024 true 0 0.

(** The network: what connecting to a port of the host gives, an io error or a
    fresh stream (peer state and what the peer sends unasked). *)
Section Net.
Variable Sv : Type.
Record stream := mk_stream { st_srv : Sv; st_rx : bytes; st_tl : tail }.
Inductive connection := Connected (s : stream) | ConnectError (e : N).
Variable net : N -> connection.
Variable react : Sv -> bytes -> reaction Sv.

(** result of open: the ports tried in order, and either the connect error or
    the outcome of the program run on the connected stream *)
Inductive opened :=
| NoConnection (e : error)
| OnStream (o : outcome cifs Sv (ans unit)).

Definition start (a : auth) (st : stream) : world cifs Sv :=
  mk_world (initial_cifs a) (st_srv st) (st_rx st) (st_tl st) [].

(** netbios.rs:167-186 open_raw, open; lib.rs:38-68 Cifs::open *)
Definition open (fuel : nat) (port : option N) (maybe_auth : option auth)
  : list N * opened :=
  let a := match maybe_auth with Some a => a | None => default_auth end in
  match port with
  | Some p =>
    ([p], match net p with
          | ConnectError e => NoConnection (ENetBios (IoError (IoOther e)))
          | Connected st => OnStream (run react (setup_connection fuel) (start a st))
          end)
  | None =>
    match net 445 with
    | Connected st => ([445], OnStream (run react (setup_connection fuel) (start a st)))
    | ConnectError _ =>
      ([445; 139],
       match net 139 with
       | ConnectError e => NoConnection (ENetBios (IoError (IoOther e)))
       | Connected st =>
         OnStream (run react
           (do! _ := create_session SMBSERVER (a_workstation a) in setup_connection fuel)
           (start a st))
       end)
    end
  end.
End Net.
End Env.
Arguments mk_stream {Sv} st_srv st_rx st_tl.
Arguments Connected {Sv} s.
Arguments ConnectError {Sv} e.
Arguments NoConnection {Sv} e.
Arguments OnStream {Sv} o.
