(** * What calls make of the replies: C44, C52-C56, C58 *)
From Verif Require Import Base Text Win Errors Info Common Reply Ntlm Prog Client Spec SpecReply SpecCrash
  Api SpecCall Flow Sample TextFacts ReplyFacts MsgFacts CallFacts AnswerFacts ResultFacts LoopFacts DownloadFacts.
Open Scope N_scope.

(** C44: a notification is returned exactly if the reply lists these changes, in this
    order (each entry says where the next one is, the last one 0). *)
Theorem C44_sound : forall Sv (react : Sv -> bytes -> reaction Sv) E fuel h w v w',
  run react (exec E fuel (Notify h)) w = Done (Good v) w' ->
  exists w1 p, answered react E fuel (Notify h) w w1 p (rx w') /\ w' = leaving w1 (rx w') /\ notification_of p v.
Proof. intros Sv react E fuel h w v w'. exact (@answer_good _ react E fuel _ (Notify h) w v w' I). Qed.
Print Assumptions C44_sound.

Theorem C44_complete : forall Sv (react : Sv -> bytes -> reaction Sv) E fuel h w w1 p rest v,
  (length (rx w1) < fuel)%nat -> answered react E fuel (Notify h) w w1 p rest -> notification_of p v ->
  run react (exec E fuel (Notify h)) w = Done (Good v) (leaving w1 rest).
Proof. intros Sv react E fuel h w w1 p rest v. exact (@answer_complete _ react E fuel _ (Notify h) w w1 p rest v I). Qed.
Print Assumptions C44_complete.

(** Every list of changes can be reported: any chain of well-formed entries has exactly
    one reading. *)
Theorem C44_unique : forall p v1 v2, notification_of p v1 -> notification_of p v2 -> v1 = v2.
Proof. exact notification_unique. Qed.
Print Assumptions C44_unique.

Theorem C44_reported : forall (l : list (text * notify_action)),
  Forall (fun c => str (fst c) /\ len (encode_utf16le (fst c)) < 4294967284) l -> exists b, notify_chain b 0 l.
Proof. exact notification_exists. Qed.
Print Assumptions C44_reported.

(** Decoding ends, whatever the offsets say: each round moves forward. *)
Theorem C44_terminates : forall b, notification_loop (length b + 2) b 0 [] <> None.
Proof. exact notification_total. Qed.
Print Assumptions C44_terminates.

(** two changes: a added, b removed *)
Definition transact_words (np : N) : bytes :=
  zeros 3 ++ le 4 np ++ le 4 0 ++ le 4 np ++ le 4 71 ++ le 4 0 ++ le 4 0 ++ le 4 0 ++ le 4 0 ++ [x00].
Definition changes : bytes :=
  le 4 16 ++ le 4 1 ++ le 4 2 ++ [x61; x00; x00; x00] ++ le 4 0 ++ le 4 2 ++ le 4 2 ++ [x62; x00].
Example C44_example : exists w', run script (exec (env0 true) 1000 (Notify handle0))
  (world0 [session_message (message 0xa0 0 3 (transact_words 30) changes)]) = Done (Good [([97], ADDED); ([98], REMOVED)]) w'.
Proof. eexists. runs. Qed.

(** C52: flag words returned to the user have exactly those bits of the server's word
    that are defined. *)
Theorem C52_handle : forall Sv (react : Sv -> bytes -> reaction Sv) E fuel s path w h w',
  run react (exec E fuel (OpenFile s path)) w = Done (Good h) w' ->
  exists w1 p words data rest oplock disposition attributes file_type,
  answered react E fuel (OpenFile s path) w w1 p (rx w') /\ smb_parts p words data rest
  /\ u8_at words 4 = Some oplock /\ flags_of OPLOCK_BITS oplock (h_oplock h)
  /\ u32_at words 7 = Some disposition /\ flags_of DISPOSITION_BITS disposition (h_disposition h)
  /\ u32_at words 43 = Some attributes /\ flags_of FILE_ATTR_BITS attributes (h_attributes h)
  /\ u16_at words 63 = Some file_type /\ flags_of RESOURCE_BITS file_type (h_file_type h).
Proof. exact handle_flags. Qed.
Print Assumptions C52_handle.

Theorem C52_share : forall Sv (react : Sv -> bytes -> reaction Sv) E fuel path w s w',
  run react (exec E fuel (Mount path)) w = Done (Good s) w' ->
  exists w1 p words data rest,
  answered react E fuel (Mount path) w w1 p (rx w') /\ smb_parts p words data rest
  /\ rights_of words 6 (sh_access_rights s) /\ rights_of words 10 (sh_guest_rights s).
Proof. exact share_flags. Qed.
Print Assumptions C52_share.

Theorem C52_dir : forall Sv (react : Sv -> bytes -> reaction Sv) E fuel s path w h w',
  run react (exec E fuel (OpenDir s path)) w = Done (Good h) w' ->
  exists w1 p words data rest oplock disposition attributes file_type,
  answered react E fuel (OpenDir s path) w w1 p (rx w') /\ smb_parts p words data rest
  /\ u8_at words 4 = Some oplock /\ flags_of OPLOCK_BITS oplock (h_oplock h)
  /\ u32_at words 7 = Some disposition /\ flags_of DISPOSITION_BITS disposition (h_disposition h)
  /\ u32_at words 43 = Some attributes /\ flags_of FILE_ATTR_BITS attributes (h_attributes h)
  /\ u16_at words 63 = Some file_type /\ flags_of RESOURCE_BITS file_type (h_file_type h).
Proof. exact dir_flags. Qed.
Print Assumptions C52_dir.

Theorem C52_share_password : forall Sv (react : Sv -> bytes -> reaction Sv) E fuel password path w s w',
  run react (exec E fuel (MountPassword password path)) w = Done (Good s) w' ->
  exists w1 p words data rest,
  answered react E fuel (MountPassword password path) w w1 p (rx w') /\ smb_parts p words data rest
  /\ rights_of words 6 (sh_access_rights s) /\ rights_of words 10 (sh_guest_rights s).
Proof. exact share_password_flags. Qed.
Print Assumptions C52_share_password.

Theorem C52_server : forall Sv (react : Sv -> bytes -> reaction Sv) E fuel w s w',
  run react (exec E fuel Negotiate) w = Done (Good s) w' ->
  exists w1 p words data rest caps,
  answered react E fuel Negotiate w w1 p (rx w') /\ smb_parts p words data rest
  /\ u32_at words 19 = Some caps /\ flags_of CAPABILITY_BITS caps (s_capabilities s).
Proof. exact server_flags. Qed.
Print Assumptions C52_server.

Theorem C52_entry : forall e d, dir_info_parse e = Ok d ->
  exists attr, u32_at e 52 = Some attr /\ flags_of FILE_ATTR_BITS attr (d_attributes d).
Proof. exact entry_flags. Qed.
Print Assumptions C52_entry.

(** the bits themselves are those of the protocol *)
Example C52_example : flags_of FILE_ATTR_BITS 0xffffffff 0xbf0009b7 /\ flags_of RESOURCE_BITS 0x0e 0x06.
Proof. rewrite !flags_of_iff. vm_compute. auto. Qed.

(** C53: a reply with a further command chained to it is an error, for each call whose
    reply has an AndX block. *)
Theorem C53_refused : forall Sv (react : Sv -> bytes -> reaction Sv) E fuel R (c : call R) w w1 p rest words data more x,
  andx_call c -> (length (rx w1) < fuel)%nat ->
  answered react E fuel c w w1 p rest -> smb_parts p words data more -> 4 <= len words ->
  u8_at words 0 = Some x -> x <> 255 ->
  run react (exec E fuel c) w = Done (Bad (ESmb (if existsb (N.eqb x) known_codes then Unsupported AndXChaining else InvalidCommand x)))
    (leaving w1 rest).
Proof. exact chained_refused. Qed.
Print Assumptions C53_refused.

(** and never a value: *)
Theorem C53_no_value : forall Sv (react : Sv -> bytes -> reaction Sv) E fuel R (c : call R) w w1 p rest words data more v w',
  andx_call c -> (length (rx w1) < fuel)%nat ->
  answered react E fuel c w w1 p rest -> smb_parts p words data more -> ~ unchained words ->
  run react (exec E fuel c) w <> Done (Good v) w'.
Proof. exact chained_no_value. Qed.
Print Assumptions C53_no_value.

Example C53_example : exists w1 w2,
  run script (exec (env0 true) 1000 (ReadAt handle0 0))
    (world0 [session_message (message 0x2e 0 3 ([x04; x00; x00; x00] ++ zeros 6 ++ le 2 0 ++ zeros 12) [])])
  = Done (Bad (ESmb (Unsupported AndXChaining))) w1
  /\ run script (exec (env0 true) 1000 (ReadAt handle0 0))
    (world0 [session_message (message 0x2e 0 3 ([x05; x00; x00; x00] ++ zeros 6 ++ le 2 0 ++ zeros 12) [])])
  = Done (Bad (ESmb (InvalidCommand 5))) w2.
Proof. do 2 eexists. split; [runs|]. runs. Qed.

(** C54: read returns as many bytes as announced: all of the data block, or all but its
    first byte; at most 65535. *)
Theorem C54_sound : forall Sv (react : Sv -> bytes -> reaction Sv) E fuel h o w v w',
  run react (exec E fuel (ReadAt h o)) w = Done (Good v) w' ->
  exists w1 p, answered react E fuel (ReadAt h o) w w1 p (rx w') /\ w' = leaving w1 (rx w') /\ read_of p v /\ len v <= 65535.
Proof. exact read_good. Qed.
Print Assumptions C54_sound.

Theorem C54_complete : forall Sv (react : Sv -> bytes -> reaction Sv) E fuel h o w w1 p rest v,
  (length (rx w1) < fuel)%nat -> answered react E fuel (ReadAt h o) w w1 p rest -> read_of p v ->
  run react (exec E fuel (ReadAt h o)) w = Done (Good v) (leaving w1 rest).
Proof. intros Sv react E fuel h o w w1 p rest v. exact (@answer_complete _ react E fuel _ (ReadAt h o) w w1 p rest v I). Qed.
Print Assumptions C54_complete.

Theorem C54_misfit : forall Sv (react : Sv -> bytes -> reaction Sv) E fuel h o w w1 p rest words data more n,
  (length (rx w1) < fuel)%nat ->
  answered react E fuel (ReadAt h o) w w1 p rest -> smb_parts p words data more -> unchained words ->
  u16_at words 10 = Some n -> len data <> n -> len data <> n + 1 ->
  run react (exec E fuel (ReadAt h o)) w = Done (Bad (ESmb InvalidData)) (leaving w1 rest).
Proof. exact read_misfit. Qed.
Print Assumptions C54_misfit.

(** without padding, with padding, too much of it *)
Example C54_example : exists w1 w2 w3,
  run script (exec (env0 true) 1000 (ReadAt handle0 0)) (world0 [session_message (message 0x2e 0 3 (read_words 2) [x61; x62])])
  = Done (Good [x61; x62]) w1
  /\ run script (exec (env0 true) 1000 (ReadAt handle0 0)) (world0 [session_message (message 0x2e 0 3 (read_words 2) [x00; x61; x62])])
  = Done (Good [x61; x62]) w2
  /\ run script (exec (env0 true) 1000 (ReadAt handle0 0)) (world0 [session_message (message 0x2e 0 3 (read_words 2) [x00; x00; x61; x62])])
  = Done (Bad (ESmb InvalidData)) w3.
Proof. do 3 eexists. split; [runs|]. split; [runs|]. runs. Qed.

(** C55: openfile and opendir return the handle described by the reply. *)
Theorem C55_file : forall Sv (react : Sv -> bytes -> reaction Sv) E fuel s path w h w',
  run react (exec E fuel (OpenFile s path)) w = Done (Good h) w' ->
  exists w1 p, answered react E fuel (OpenFile s path) w w1 p (rx w') /\ w' = leaving w1 (rx w') /\ handle_of p h.
Proof. intros Sv react E fuel s path w h w'. exact (@answer_good _ react E fuel _ (OpenFile s path) w h w' I). Qed.
Print Assumptions C55_file.

Theorem C55_dir : forall Sv (react : Sv -> bytes -> reaction Sv) E fuel s path w h w',
  run react (exec E fuel (OpenDir s path)) w = Done (Good h) w' ->
  exists w1 p, answered react E fuel (OpenDir s path) w w1 p (rx w') /\ w' = leaving w1 (rx w') /\ handle_of p h.
Proof. intros Sv react E fuel s path w h w'. exact (@answer_good _ react E fuel _ (OpenDir s path) w h w' I). Qed.
Print Assumptions C55_dir.

Theorem C55_complete : forall Sv (react : Sv -> bytes -> reaction Sv) E fuel s path w w1 p rest h,
  (length (rx w1) < fuel)%nat -> answered react E fuel (OpenFile s path) w w1 p rest -> handle_of p h ->
  run react (exec E fuel (OpenFile s path)) w = Done (Good h) (leaving w1 rest).
Proof. intros Sv react E fuel s path w w1 p rest h. exact (@answer_complete _ react E fuel _ (OpenFile s path) w w1 p rest h I). Qed.
Print Assumptions C55_complete.
Theorem C55_dir_complete : forall Sv (react : Sv -> bytes -> reaction Sv) E fuel s path w w1 p rest h,
  (length (rx w1) < fuel)%nat -> answered react E fuel (OpenDir s path) w w1 p rest -> handle_of p h ->
  run react (exec E fuel (OpenDir s path)) w = Done (Good h) (leaving w1 rest).
Proof. intros Sv react E fuel s path w w1 p rest h. exact (@answer_complete _ react E fuel _ (OpenDir s path) w w1 p rest h I). Qed.
Print Assumptions C55_dir_complete.

Example C55_example : exists w', run script (exec (env0 true) 1000 (OpenFile share0 [97]))
  (world0 [session_message (message 0xa2 0 3
    ([xff; x00; x00; x00] ++ [x02] ++ le 2 0x1234 ++ le 4 1 ++ le 8 10 ++ le 8 20 ++ le 8 30 ++ le 8 40 ++ le 4 0x20 ++ le 8 4096 ++ le 8 1000
     ++ le 2 1 ++ le 2 0 ++ [x01]) [])])
  = Done (Good (mk_handle 5 0x1234 2 1 10 20 30 40 0x20 4096 1000 1 true)) w'.
Proof. eexists. runs. Qed.

(** C56: mount returns the share described by the reply. *)
Theorem C56_sound : forall Sv (react : Sv -> bytes -> reaction Sv) E fuel path w s w',
  run react (exec E fuel (Mount path)) w = Done (Good s) w' ->
  exists w1 p, answered react E fuel (Mount path) w w1 p (rx w') /\ w' = leaving w1 (rx w') /\ share_of p s.
Proof. intros Sv react E fuel path w s w'. exact (@answer_good _ react E fuel _ (Mount path) w s w' I). Qed.
Print Assumptions C56_sound.

Theorem C56_complete : forall Sv (react : Sv -> bytes -> reaction Sv) E fuel path w w1 p rest s,
  (length (rx w1) < fuel)%nat -> answered react E fuel (Mount path) w w1 p rest -> share_of p s ->
  run react (exec E fuel (Mount path)) w = Done (Good s) (leaving w1 rest).
Proof. intros Sv react E fuel path w w1 p rest s. exact (@answer_complete _ react E fuel _ (Mount path) w w1 p rest s I). Qed.
Print Assumptions C56_complete.
(** with a share password the same *)
Theorem C56_password : forall Sv (react : Sv -> bytes -> reaction Sv) E fuel password path w s w',
  run react (exec E fuel (MountPassword password path)) w = Done (Good s) w' ->
  exists w1 p, answered react E fuel (MountPassword password path) w w1 p (rx w') /\ w' = leaving w1 (rx w') /\ share_of p s.
Proof. intros Sv react E fuel password path w s w'. exact (@answer_good _ react E fuel _ (MountPassword password path) w s w' I). Qed.
Print Assumptions C56_password.
Theorem C56_password_complete : forall Sv (react : Sv -> bytes -> reaction Sv) E fuel password path w w1 p rest s,
  (length (rx w1) < fuel)%nat -> answered react E fuel (MountPassword password path) w w1 p rest -> share_of p s ->
  run react (exec E fuel (MountPassword password path)) w = Done (Good s) (leaving w1 rest).
Proof.
  intros Sv react E fuel password path w w1 p rest s.
  exact (@answer_complete _ react E fuel _ (MountPassword password path) w w1 p rest s I).
Qed.
Print Assumptions C56_password_complete.

(** Unicode, with and without rights; the other encoding *)
Example C56_example : exists w1 w2 w3,
  run script (exec (env0 true) 1000 (Mount [92; 97]))
    (world0 [session_message (message 0x75 0 3 ([xff; x00; x00; x00] ++ le 2 0 ++ le 4 0x120089 ++ le 4 1) ([x41; x3a; x00] ++ [x4e; x00; x00; x00]))])
  = Done (Good (mk_share (Some 0x120089) (Some 1) [65; 58] [78] 5)) w1
  /\ run script (exec (env0 true) 1000 (Mount [92; 97]))
    (world0 [session_message (message 0x75 0 3 ([xff; x00; x00; x00] ++ le 2 0) ([x49; x50; x43; x00; x00] ++ [x4e; x00; x00; x00]))])
  = Done (Good (mk_share None None [73; 80; 67] [78] 5)) w2
  /\ run script (exec (env0 true) 1000 (Mount [92; 97]))
    (world0 [session_message (header 0x75 0 0x4801 5 7 3 ++ body ([xff; x00; x00; x00] ++ le 2 0) ([x41; x3a; x00] ++ [x4e; x54; x00]))])
  = Done (Good (mk_share None None [65; 58] [78; 84] 5)) w3.
Proof. do 3 eexists. split; [runs|]. split; [runs|]. runs. Qed.

(** C58: the negotiation result is what the reply says; a dialect that was not offered
    is an error. *)
Theorem C58_sound : forall Sv (react : Sv -> bytes -> reaction Sv) E fuel w s w',
  run react (exec E fuel Negotiate) w = Done (Good s) w' ->
  exists w1 p, answered react E fuel Negotiate w w1 p (rx w') /\ w' = leaving w1 (rx w') /\ server_of p s.
Proof. intros Sv react E fuel w s w'. exact (@answer_good _ react E fuel _ Negotiate w s w' I). Qed.
Print Assumptions C58_sound.

Theorem C58_complete : forall Sv (react : Sv -> bytes -> reaction Sv) E fuel w w1 p rest s,
  (length (rx w1) < fuel)%nat -> answered react E fuel Negotiate w w1 p rest -> server_of p s ->
  run react (exec E fuel Negotiate) w = Done (Good s) (leaving w1 rest).
Proof. intros Sv react E fuel w w1 p rest s. exact (@answer_complete _ react E fuel _ Negotiate w w1 p rest s I). Qed.
Print Assumptions C58_complete.

Theorem C58_dialect : forall Sv (react : Sv -> bytes -> reaction Sv) E fuel w w1 p rest words data more d,
  (length (rx w1) < fuel)%nat ->
  answered react E fuel Negotiate w w1 p rest -> smb_parts p words data more -> 17 <= len words ->
  u16_at words 0 = Some d -> d <> 0 ->
  run react (exec E fuel Negotiate) w = Done (Bad (ESmb (if d =? 0xffff then NoDialect else InvalidHeader))) (leaving w1 rest).
Proof. exact dialect_refused. Qed.
Print Assumptions C58_dialect.

(** The one dialect offered is "NT LM 0.12", the first of the list. *)
Example C58_example : exists w1 w2,
  run script (exec (env0 true) 1000 Negotiate)
    (world0 [session_message (message 0x72 0 3 (le 2 0 ++ [x03] ++ le 2 50 ++ le 2 1 ++ le 4 16644 ++ le 4 65536 ++ le 4 0 ++ le 4 0x8000e3fd ++ le 8 1000 ++ le 2 0 ++ [x08])
       [x01; x02; x03; x04; x05; x06; x07; x08; x41; x00])])
  = Done (Good (mk_server 0 3 50 1 16644 65536 0 0x8000e3fd 100 0 [x01; x02; x03; x04; x05; x06; x07; x08])) w1
  /\ run script (exec (env0 true) 1000 Negotiate)
    (world0 [session_message (message 0x72 0 3 (le 2 1 ++ [x03] ++ le 2 50 ++ le 2 1 ++ le 4 16644 ++ le 4 65536 ++ le 4 0 ++ le 4 0x8000e3fd ++ le 8 1000 ++ le 2 0 ++ [x08])
       [x01; x02; x03; x04; x05; x06; x07; x08])])
  = Done (Bad (ESmb InvalidHeader)) w2.
Proof. do 2 eexists. split; [runs|]. runs. Qed.
