(** * SpecRemote: services behind a conforming server.

    A service is any deterministic state machine that answers operations; a conforming
    server reads requests and writes replies as the protocol says and leaves the
    decisions to the service.  [local] runs a client program directly on the service,
    without any protocol. *)
From Verif Require Import Base Text Win Errors Common Reply Ntlm Prog Client Spec SpecReply SpecMsg Api SpecCall Flow.
Open Scope N_scope.

(** '/' becomes '\' *)
Definition backslashes (p : text) : text := map (fun c => if c =? 47 then 92 else c) p.

(** what a request asks for, as far as the server can see it: trees, files and searches are
    named by their ids *)
Inductive op : Type -> Type :=
| OMount (path password : text) : op share
| OUmount (tid : N) : op unit
| OOpenFile (tid : N) (path : text) : op handle
| OOpenDir (tid : N) (path : text) : op handle
| OClose (tid fid : N) : op unit
| ORead (tid fid offset : N) : op bytes
| ODelete (tid : N) (path : text) : op unit
| ORmdir (tid : N) (path : text) : op unit
| ONotify (tid fid mode : N) : op (list (text * notify_action))
| OFindFirst (tid : N) (pattern : text) : op found
| OFindNext (tid sid : N) (name : text) : op found_next
| ONegotiate : op server_setup
| OSetupAuth (user domain : text) (secret : bytes) : op session_setup
| OSetupBlob (blob : bytes) : op session_setup.
(** without a password one NUL is sent, as for the password that consists of one NUL *)
Definition sent_password (password : text) : text := match password with [0] => [] | _ => password end.
Definition op_of {R} (c : call R) : op R :=
  match c with
  | MountPassword path password => OMount (backslashes path) (sent_password password)
  | Mount path => OMount (backslashes path) []
  | Umount s => OUmount (sh_tid s)
  | OpenFile s path => OOpenFile (sh_tid s) (backslashes path)
  | OpenDir s path => OOpenDir (sh_tid s) (backslashes path)
  | Close h => OClose (h_tid h) (h_fid h)
  | ReadAt h offset => ORead (h_tid h) (h_fid h) offset
  | Delete s path => ODelete (sh_tid s) (backslashes path)
  | Rmdir s path => ORmdir (sh_tid s) (backslashes path)
  | NotifyAbout h mode => ONotify (h_tid h) (h_fid h) mode
  | Notify h => ONotify (h_tid h) (h_fid h) ALL_CHANGES
  | FindFirst s pattern => OFindFirst (sh_tid s) (backslashes pattern)
  | FindNext s sid name => OFindNext (sh_tid s) sid name
  | Negotiate => ONegotiate
  | SetupAuth user domain secret => OSetupAuth user domain secret
  | SetupBlob blob => OSetupBlob blob
  end.

(** user and domain are sent one after the other, each ended by NUL *)
Definition unambiguous {R} (c : call R) : Prop :=
  match c with SetupAuth user domain _ => ~ In 0 user /\ ~ In 0 domain | _ => True end.

(** a service: the user id, the operation, the state; the answer is a value or a status *)
Definition service (St : Type) := forall R, N -> op R -> St -> (R + N) * St.

(** the incoming bytes [inc] are the answer [r] to the request [id] for [c] (and possibly
    messages that are skipped) *)
Definition answers {R} (c : call R) (id : N) (inc : bytes) (r : R + N) : Prop :=
  match r with
  | inr st => exists p, reply_arrives id inc p [] /\ smb_reply p (opcode c) st id /\ ~ op_status c st
  | inl v =>
      (single_reply c -> exists p st, reply_arrives id inc p [] /\ smb_reply p (opcode c) st id
        /\ op_status c st /\ decodes c p v)
      /\ (~ single_reply c -> exists fs a b, fragments_arrive id inc fs [] /\ split_of fs a b
        /\ last_completes fs (len a) (len b) /\ found_in c a b v)
  end.

(** [react] is a conforming server for [B]; [abs] is the service's part of its state *)
Definition conforming {Sv St} (react : Sv -> bytes -> reaction Sv) (B : service St) (abs : Sv -> St) : Prop :=
  forall s R (c : call R) (unicode : bool) who id p words data,
  typed c -> unambiguous c -> len p <= 65618 -> smb_parts p words data [] ->
  request_header p (opcode c) (if unicode then 0xc843 else 0x4843) (op_tid c) who id ->
  asks unicode c p words data ->
  exists s' inc, react s (session_message p) = Accept s' inc Open
    /\ abs s' = snd (B R who (op_of c) (abs s))
    /\ answers c id inc (fst (B R who (op_of c) (abs s))).

(** nothing unread, the stream open *)
Definition idle {Sv} (w : world cifs Sv) : Prop := rx w = [] /\ tl w = Open.
(** [n] more calls can be made before the multiplex ids are used up; if the crate is built
    without overflow checks they start again at 0 *)
Definition room (E : env) (c : cifs) (n : nat) : Prop := overflow_checks E = true -> mid c + N.of_nat n <= 65535.

(** what the client's program gets *)
Definition returned {R} (r : R + N) : ans R :=
  match r with inl v => Good v | inr st => Bad (ServerError (status_of_code st)) end.

(** [f], started with the client in state [c] and the service in state [st], makes [n] calls,
    answered by the service itself, and returns [a] *)
Inductive local {St} (B : service St) {A} : flow A -> cifs -> St -> nat -> ans A -> cifs -> St -> Prop :=
| l_ret a c st : local B (FRet a) c st 0 a c st
| l_call R (q : call R) k c st r st1 n a c' st' :
    typed q -> unambiguous q -> fits_request (use_unicode c) q ->
    B R (uid c) (op_of q) st = (r, st1) ->
    local B (k (returned r)) (next_client c) st1 n a c' st' ->
    local B (FCall q k) c st (S n) a c' st'
| l_state k c st n a c' st' : local B (k c) c st n a c' st' -> local B (FState k) c st n a c' st'
| l_uid u k c st n a c' st' : u16 u -> local B k (set_uid u c) st n a c' st' -> local B (FUid u k) c st n a c' st'
| l_options m u k c st n a c' st' :
    local B k (set_options m u c) st n a c' st' -> local B (FOptions m u k) c st n a c' st'.

(** ** files *)
(** reading the open file [h]: as long as [inv] holds, reads give a beginning of what follows
    in [d], at least [q] bytes of it or all *)
Definition reads_file {St} (B : service St) (who : N) (h : handle) (d : bytes) (q : N) (inv : St -> Prop) : Prop :=
  forall st o, inv st -> o < len d -> exists chunk rest st',
  B bytes who (ORead (h_tid h) (h_fid h) o) st = (inl chunk, st') /\ inv st' /\ drop o d = chunk ++ rest
  /\ (q <= len chunk \/ rest = []).
(** so many pieces of [q] bytes make [n] bytes *)
Definition pieces (n q : N) : nat := N.to_nat ((n + q - 1) / q).
(** there is a file [d] at [path], which is opened with handle [h]; once it is closed, [over]
    holds of the service *)
Definition file_at {St} (B : service St) (who tid : N) (path : text) (d : bytes) (q : N) (st : St) (h : handle)
  (over : St -> Prop) : Prop :=
  1 <= q /\ h_size h = len d /\ u16 (h_tid h) /\ u16 (h_fid h)
  /\ exists inv, (exists st1, B handle who (OOpenFile tid path) st = (inl h, st1) /\ inv st1)
  /\ reads_file B who h d q inv
  /\ forall st', inv st' -> exists st2, B unit who (OClose (h_tid h) (h_fid h)) st' = (inl tt, st2) /\ over st2.
