(** * SpecCall: the vocabulary for whole calls: sending a request, the reply a call
    waits for, what the reply means for the call. *)
From Coq Require Import Permutation.
From Verif Require Import Base Text Win Errors Common Reply Ntlm Prog Client Spec SpecReply SpecCrash Api.
Open Scope N_scope.

(** the client's state after a request was built: the next multiplex id *)
Definition next_client (c : cifs) : cifs :=
  mk_cifs (auth_of c) (max_smb_size c) (use_unicode c) (uid c) ((mid c + 1) mod 65536).

(** [w1] is [w] after the request [f] was written and the peer reacted to it *)
Definition asked {Sv} (react : Sv -> bytes -> reaction Sv) (w : world cifs Sv) (f : bytes)
  (w1 : world cifs Sv) : Prop :=
  exists s inc t, react (srv w) f = Accept s inc t
  /\ cl w1 = next_client (cl w) /\ srv w1 = s /\ tx w1 = tx w ++ [f]
  /\ (rx w1, tl w1) = deliver (tl w) (rx w) inc t.

(** [w] with [rest] still to be read *)
Definition leaving {Sv} (w : world cifs Sv) (rest : bytes) : world cifs Sv :=
  mk_world (cl w) (srv w) rest (tl w) (tx w).

(** the incoming bytes: only skipped messages, then the reply [p] to [id], then [rest] *)
Definition reply_arrives (id : N) (b p rest : bytes) : Prop :=
  exists skip, skipped id skip /\ len p <= NB_MAX /\ b = skip ++ session_message p ++ rest.

(** what a (successful) reply [p] means for a call answered by one reply *)
Definition decodes {R} (c : call R) (p : bytes) : R -> Prop :=
  match c in call R return R -> Prop with
  | MountPassword _ _ | Mount _ => share_of p
  | OpenFile _ _ | OpenDir _ _ => handle_of p
  | ReadAt _ _ => read_of p
  | NotifyAbout _ _ | Notify _ => notification_of p
  | Umount _ | Close _ | Delete _ _ | Rmdir _ _ => fun _ => plain_reply p
  | Negotiate => server_of p
  | SetupAuth _ _ _ | SetupBlob _ => session_of p
  | FindFirst _ _ => fun _ => False
  | FindNext _ _ _ => fun _ => False
  end.
(** and which such replies crash it *)
Definition crashes {R} (c : call R) (p : bytes) : Prop :=
  match c with
  | MountPassword _ _ | Mount _ => crash_share p
  | OpenFile _ _ | OpenDir _ _ => crash_handle p
  | ReadAt _ _ => crash_read p
  | NotifyAbout _ _ | Notify _ => crash_notification p
  | Umount _ | Close _ | Delete _ _ | Rmdir _ _ => crash_plain p
  | Negotiate => crash_server p
  | SetupAuth _ _ _ | SetupBlob _ => crash_session p
  | FindFirst _ _ | FindNext _ _ _ => False
  end.

(** the incoming bytes: the fragments [fs] of the transaction [id] (with skipped
    messages in between), then [rest] *)
Inductive fragments_arrive (id : N) : bytes -> list trans2_reply -> bytes -> Prop :=
| no_fragment b : fragments_arrive id b [] b
| next_fragment b p b' f fs rest :
    reply_arrives id b p b' -> smb_reply p 0x32 0 id -> fragment_of p f ->
    fragments_arrive id b' fs rest -> fragments_arrive id b (f :: fs) rest.

Definition parameter_pieces (fs : list trans2_reply) : list (N * bytes) :=
  map (fun f => (f_parameter_offset f, f_parameter f)) fs.
Definition data_pieces (fs : list trans2_reply) : list (N * bytes) :=
  map (fun f => (f_data_offset f, f_data f)) fs.
Fixpoint size_of (pieces : list (N * bytes)) : N :=
  match pieces with [] => 0 | e :: r => len (snd e) + size_of r end.

(** all fragments announce these totals *)
Definition totals (fs : list trans2_reply) (tp td : N) : Prop :=
  Forall (fun f => f_parameter_total f = tp /\ f_data_total f = td) fs.
(** the fragments are the blocks [parameter] and [data], in pieces *)
Definition split_of (fs : list trans2_reply) (parameter data : bytes) : Prop :=
  fs <> [] /\ totals fs (len parameter) (len data)
  /\ reassembles (parameter_pieces fs) parameter
  /\ reassembles (data_pieces fs) data.
(** nothing is missing before the last fragment only *)
Definition enough (fs : list trans2_reply) (tp td : N) : Prop :=
  tp <= size_of (parameter_pieces fs) /\ td <= size_of (data_pieces fs).
Definition last_completes (fs : list trans2_reply) (tp td : N) : Prop :=
  forall fs1 fs2, fs = fs1 ++ fs2 -> fs1 <> [] -> fs2 <> [] -> ~ enough fs1 tp td.

(** no two non-empty pieces at the same displacement *)
Definition distinct (pieces : list (N * bytes)) : Prop := NoDup (map fst (nonempty pieces)).
(** the fragments agree so far, and more are needed *)
Definition collecting (fs : list trans2_reply) (tp td : N) : Prop :=
  totals fs tp td /\ distinct (parameter_pieces fs) /\ distinct (data_pieces fs)
  /\ forall fs1 fs2, fs = fs1 ++ fs2 -> fs1 <> [] -> ~ enough fs1 tp td.

(** what the two blocks mean for a search *)
Definition found_in {R} (c : call R) (parameter data : bytes) : R -> Prop :=
  match c in call R return R -> Prop with
  | FindFirst _ _ => fun f => first_of parameter data (ff_sid f) (ff_end f) (ff_info f)
  | FindNext _ _ _ => fun f => next_of parameter data (fn_end f) (fn_info f)
  | _ => fun _ => False
  end.
Definition find_crashes {R} (c : call R) (parameter data : bytes) : Prop :=
  match c with
  | FindFirst _ _ => 10 <= len parameter /\ crash_entries true data
  | FindNext _ _ _ => 4 <= len parameter /\ crash_entries false data
  | _ => False
  end.

(** complete replies to the request with the id [id] (or fragments of one) *)
Definition late_replies (id : N) (ps : list bytes) : Prop :=
  Forall (fun p => len p <= NB_MAX /\ exists code st, smb_reply p code st id) ps.

(** [b'] is [b] with messages inserted that a client waiting for [id] skips:
    anywhere between complete frames *)
Inductive inserted (id : N) : bytes -> bytes -> Prop :=
| ins_none b : inserted id b b
| ins_skip s b b' : skipped id s -> inserted id b b' -> inserted id b (s ++ b')
| ins_frame ty p b b' : len p <= NB_MAX -> inserted id b b' ->
    inserted id (nb_frame ty p ++ b) (nb_frame ty p ++ b').

(** the same answer; up to inserted messages the same stream left *)
Definition same_but_inserted (id : N) {S1 S2 A} (o1 : outcome cifs S1 A) (o2 : outcome cifs S2 A) : Prop :=
  match o1, o2 with
  | Done a1 w1, Done a2 w2 => a1 = a2 /\ cl w1 = cl w2 /\ tl w1 = tl w2 /\ inserted id (rx w1) (rx w2)
  | Blocked w1, Blocked w2 => cl w1 = cl w2
  | Crashed w1, Crashed w2 => cl w1 = cl w2 /\ tl w1 = tl w2 /\ inserted id (rx w1) (rx w2)
  | _, _ => False
  end.

(** the same answer, and the same state of the client and of the stream *)
Definition same_end {S1 S2 A} (o1 : outcome cifs S1 A) (o2 : outcome cifs S2 A) : Prop :=
  match o1, o2 with
  | Done a1 w1, Done a2 w2 => a1 = a2 /\ cl w1 = cl w2 /\ tl w1 = tl w2 /\ rx w1 = rx w2
  | Blocked w1, Blocked w2 | Crashed w1, Crashed w2 => cl w1 = cl w2 /\ tl w1 = tl w2 /\ rx w1 = rx w2
  | _, _ => False
  end.
(** any number of keep-alives *)
Definition keepalives (n : nat) : bytes := concat (repeat keepalive n).
(** [b'] is [b] with keep-alives inserted between frames *)
Inductive kept_alive : bytes -> bytes -> Prop :=
| kept_none b : kept_alive b b
| kept_here b b' : kept_alive b b' -> kept_alive b (keepalive ++ b')
| kept_frame ty p b b' : len p <= NB_MAX -> kept_alive b b' ->
    kept_alive (nb_frame ty p ++ b) (nb_frame ty p ++ b').
