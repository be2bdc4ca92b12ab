(** * SpecFate: everything that can become of a call, and of a sequence of calls (C101).

    SpecWhy.v has the failures; here are the other three: the call is answered, the client
    panics, or it waits. *)
From Verif Require Import Base Text Win Errors Common Reply Ntlm Prog Client Spec SpecReply SpecCrash SpecNtlm SpecMsg
  Api SpecCall Flow SpecFault SpecBlame SpecLogin SizeFacts SpecWhy.
Open Scope N_scope.

Section Server.
Context {Sv : Type}.
Variable react : Sv -> bytes -> reaction Sv.
Notation world := (world cifs Sv).
Variable E : env.

(** the call is answered: by one reply, or by the fragments of one *)
Inductive answers {R} (c : call R) (w : world) : R -> world -> Prop :=
| answers_reply f w1 p st rest v : is_request E (cl w) c f -> asked react w f w1 -> single_reply c ->
    reply_arrives (mid (cl w)) (rx w1) p rest -> smb_reply p (opcode c) st (mid (cl w)) -> op_status c st -> decodes c p v ->
    answers c w v (leaving w1 rest)
| answers_search f w1 fs x y rest v : is_request E (cl w) c f -> asked react w f w1 -> ~ single_reply c ->
    fragments_arrive (mid (cl w)) (rx w1) fs rest -> split_of fs x y -> last_completes fs (len x) (len y) -> found_in c x y v ->
    answers c w v (leaving w1 rest).

(** the client panics:
    - there are no more ids, with overflow checks;
    - the pattern is one of those of C12;
    - the reply (a fragment, the blocks of a search) is one of those of C33 *)
Inductive panics {R} (c : call R) (w : world) : world -> Prop :=
| panics_ids : mid_full E (cl w) -> panics c w w
| panics_pattern : ~ mid_full E (cl w) -> pattern_window c ->
    panics c w (mk_world (next_client (cl w)) (srv w) (rx w) (tl w) (tx w))
| panics_reply f w1 p st rest : is_request E (cl w) c f -> asked react w f w1 -> single_reply c ->
    reply_arrives (mid (cl w)) (rx w1) p rest -> smb_reply p (opcode c) st (mid (cl w)) -> op_status c st -> crashes c p ->
    panics c w (leaving w1 rest)
| panics_fragment f w1 fs tp td b p rest : is_request E (cl w) c f -> asked react w f w1 -> ~ single_reply c ->
    fragments_arrive (mid (cl w)) (rx w1) fs b -> collecting fs tp td ->
    reply_arrives (mid (cl w)) b p rest -> smb_reply p 0x32 0 (mid (cl w)) -> crash_fragment p ->
    panics c w (leaving w1 rest)
| panics_blocks f w1 fs x y rest : is_request E (cl w) c f -> asked react w f w1 -> ~ single_reply c ->
    fragments_arrive (mid (cl w)) (rx w1) fs rest -> split_of fs x y -> last_completes fs (len x) (len y) -> find_crashes c x y ->
    panics c w (leaving w1 rest).

(** the client waits: what is to be read of the reply is not complete, and the stream is open *)
Inductive stalls {R} (c : call R) (w : world) : world -> Prop :=
| stalls_open f w1 s r : is_request E (cl w) c f -> asked react w f w1 ->
    waits c (mid (cl w)) (rx w1) (s ++ r) -> skipped (mid (cl w)) s -> incomplete r -> tl w1 = Prog.Open ->
    stalls c w (leaving w1 []).

(** what becomes of a call *)
Inductive fate {R} (c : call R) (w : world) : outcome cifs Sv (ans R) -> Prop :=
| fate_good v w' : answers c w v w' -> fate c w (Done (Good v) w')
| fate_bad e w' : fails react E c w e w' -> fate c w (Done (Bad e) w')
| fate_crash w' : panics c w w' -> fate c w (Crashed w')
| fate_wait w' : stalls c w w' -> fate c w (Blocked w').

(** what becomes of a sequence of calls: the next one gets the world the one before left; a
    panic or waiting for ever is the end *)
Fixpoint flow_fate {A} (f : flow A) (w : world) (o : outcome cifs Sv (ans A)) : Prop :=
  match f with
  | FRet a => o = Done a w
  | FPanic => o = Crashed w
  | FFuel => False
  | FCall c k => (exists r w', fate c w (Done r w') /\ flow_fate (k r) w' o)
      \/ (exists w', panics c w w' /\ o = Crashed w') \/ (exists w', stalls c w w' /\ o = Blocked w')
  | FState k => flow_fate (k (cl w)) w o
  | FUid u k => flow_fate k (mk_world (set_uid u (cl w)) (srv w) (rx w) (tl w) (tx w)) o
  | FOptions m u k => flow_fate k (mk_world (set_options m u (cl w)) (srv w) (rx w) (tl w) (tx w)) o
  end.

(** ** download *)
(** [n] reads from the handle with [data] read before leave [data'] and the world *)
Inductive reads_on (h : handle) : bytes -> world -> bytes -> world -> Prop :=
| reads_none data w : reads_on h data w data w
| reads_more data w x w1 data' w' : len data < h_size h -> answers (ReadAt h (len data)) w x w1 ->
    reads_on h (data ++ x) w1 data' w' -> reads_on h data w data' w'.
(** a download: open, read until there are as many bytes as the file had, close; any of the
    calls may be the last. It returns the data only if it is closed, too. *)
Inductive download_fate (s : share) (path : text) (w : world) : outcome cifs Sv (ans bytes) -> Prop :=
| download_data h w1 data w2 w' : answers (OpenFile s path) w h w1 -> reads_on h [] w1 data w2 -> h_size h <= len data ->
    answers (Close h) w2 tt w' -> download_fate s path w (Done (Good data) w')
| download_no_open e w' : fails react E (OpenFile s path) w e w' -> download_fate s path w (Done (Bad e) w')
| download_no_read h w1 data w2 e w' : answers (OpenFile s path) w h w1 -> reads_on h [] w1 data w2 -> len data < h_size h ->
    fails react E (ReadAt h (len data)) w2 e w' -> download_fate s path w (Done (Bad e) w')
| download_no_close h w1 data w2 e w' : answers (OpenFile s path) w h w1 -> reads_on h [] w1 data w2 -> h_size h <= len data ->
    fails react E (Close h) w2 e w' -> download_fate s path w (Done (Bad e) w')
| download_crash w' : (panics (OpenFile s path) w w'
      \/ exists h w1 data w2, answers (OpenFile s path) w h w1 /\ reads_on h [] w1 data w2
         /\ if len data <? h_size h then panics (ReadAt h (len data)) w2 w' else panics (Close h) w2 w') ->
    download_fate s path w (Crashed w')
| download_wait w' : (stalls (OpenFile s path) w w'
      \/ exists h w1 data w2, answers (OpenFile s path) w h w1 /\ reads_on h [] w1 data w2
         /\ if len data <? h_size h then stalls (ReadAt h (len data)) w2 w' else stalls (Close h) w2 w') ->
    download_fate s path w (Blocked w').
(** it never ends: however much was read, the next read is answered, and that is not enough *)
Definition reads_for_ever (s : share) (path : text) (w : world) : Prop :=
  exists h w1, answers (OpenFile s path) w h w1
  /\ forall data w2, reads_on h [] w1 data w2 -> len data < h_size h /\ exists x w3, answers (ReadAt h (len data)) w2 x w3.

(** ** list *)
(** searching on from [l], whose last entry has the name the next call names *)
Inductive finds_on (s : share) (sid : N) : list dir_info -> world -> list dir_info -> world -> Prop :=
| finds_none l w : finds_on s sid l w l w
| finds_more l d w r w1 l' w' : answers (FindNext s sid (d_filename d)) w r w1 -> fn_end r = false ->
    finds_on s sid ((l ++ [d]) ++ fn_info r) w1 l' w' -> finds_on s sid (l ++ [d]) w l' w'.
(** listing: the first call, and further ones until the server says that it was the last *)
Inductive list_fate (s : share) (pattern : text) (w : world) : outcome cifs Sv (ans (list dir_info)) -> Prop :=
| list_at_once r w' : answers (FindFirst s pattern) w r w' -> ff_end r = true -> list_fate s pattern w (Done (Good (ff_info r)) w')
| list_in_parts r w1 l d w2 r' w' : answers (FindFirst s pattern) w r w1 -> ff_end r = false ->
    finds_on s (ff_sid r) (ff_info r) w1 (l ++ [d]) w2 -> answers (FindNext s (ff_sid r) (d_filename d)) w2 r' w' -> fn_end r' = true ->
    list_fate s pattern w (Done (Good ((l ++ [d]) ++ fn_info r')) w')
| list_no_first e w' : fails react E (FindFirst s pattern) w e w' -> list_fate s pattern w (Done (Bad e) w')
| list_no_next r w1 l d w2 e w' : answers (FindFirst s pattern) w r w1 -> ff_end r = false ->
    finds_on s (ff_sid r) (ff_info r) w1 (l ++ [d]) w2 -> fails react E (FindNext s (ff_sid r) (d_filename d)) w2 e w' ->
    list_fate s pattern w (Done (Bad e) w')
| list_crash w' : (panics (FindFirst s pattern) w w'
      \/ (exists r w1 l d w2, answers (FindFirst s pattern) w r w1 /\ ff_end r = false
          /\ finds_on s (ff_sid r) (ff_info r) w1 (l ++ [d]) w2 /\ panics (FindNext s (ff_sid r) (d_filename d)) w2 w')) ->
    list_fate s pattern w (Crashed w')
| list_wait w' : (stalls (FindFirst s pattern) w w'
      \/ (exists r w1 l d w2, answers (FindFirst s pattern) w r w1 /\ ff_end r = false
          /\ finds_on s (ff_sid r) (ff_info r) w1 (l ++ [d]) w2 /\ stalls (FindNext s (ff_sid r) (d_filename d)) w2 w')) ->
    list_fate s pattern w (Blocked w').
Definition finds_for_ever (s : share) (pattern : text) (w : world) : Prop :=
  exists r w1, answers (FindFirst s pattern) w r w1 /\ ff_end r = false
  /\ forall l w2, finds_on s (ff_sid r) (ff_info r) w1 l w2 -> exists l' d r' w3, l = l' ++ [d]
       /\ answers (FindNext s (ff_sid r) (d_filename d)) w2 r' w3 /\ fn_end r' = false.
End Server.
