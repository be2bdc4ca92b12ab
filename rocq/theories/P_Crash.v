(** * Which servers crash the client: C32, C33 *)
From Verif Require Import Base Text Win Errors Info Common Reply Ntlm Prog Client Spec SpecReply SpecCrash
  Api SpecCall Flow Sample ReplyFacts ClientFacts MsgFacts CallFacts FindFacts AnswerFacts LoopFacts DownloadFacts TransFacts BaseFacts Witness.
Open Scope N_scope.

(** C32: a call crashes only while it builds its request (C08, C12), or because of a
    reply of one of the kinds in SpecCrash: no other bytes from a server do. *)
Theorem C32_single_partial : forall Sv (react : Sv -> bytes -> reaction Sv) E fuel R (c : call R) w w',
  single_reply c -> run react (exec E fuel c) w = Crashed w' ->
  (request (exec E fuel c) (cl w) = None /\ (mid_panics E (cl w) = true \/ smb_out (cl w) (msg_of c) = Panic))
  \/ exists f w1 p st, request (exec E fuel c) (cl w) = Some f /\ asked react w f w1
   /\ reply_arrives (mid (cl w)) (rx w1) p (rx w') /\ smb_reply p (opcode c) st (mid (cl w)) /\ op_status c st
   /\ crashes c p /\ w' = leaving w1 (rx w').
Proof. exact single_crash. Qed.
Print Assumptions C32_single_partial.

Theorem C32_search_partial : forall Sv (react : Sv -> bytes -> reaction Sv) E fuel R (c : call R) w w',
  ~ single_reply c -> run react (exec E fuel c) w = Crashed w' ->
  (request (exec E fuel c) (cl w) = None /\ (mid_panics E (cl w) = true \/ smb_out (cl w) (msg_of c) = Panic))
  \/ exists f w1, request (exec E fuel c) (cl w) = Some f /\ asked react w f w1 /\ w' = leaving w1 (rx w')
     /\ ((exists fs tp td b p, fragments_arrive (mid (cl w)) (rx w1) fs b /\ collecting fs tp td
            /\ reply_arrives (mid (cl w)) b p (rx w') /\ smb_reply p 0x32 0 (mid (cl w)) /\ crash_fragment p)
         \/ (exists fs x y, fragments_arrive (mid (cl w)) (rx w1) fs (rx w') /\ split_of fs x y
            /\ last_completes fs (len x) (len y) /\ find_crashes c x y)).
Proof. exact find_crash. Qed.
Print Assumptions C32_search_partial.

(** list and download crash only in one of their calls. *)
Theorem C32_list_partial : forall Sv (react : Sv -> bytes -> reaction Sv) E fuel s pattern w w',
  run react (list_dir E fuel s pattern) w = Crashed w' ->
  exists v, run react (exec E fuel (FindFirst s pattern)) v = Crashed w'
   \/ exists sid name, run react (exec E fuel (FindNext s sid name)) v = Crashed w'.
Proof. exact list_crash. Qed.
Print Assumptions C32_list_partial.

Theorem C32_download_partial : forall Sv (react : Sv -> bytes -> reaction Sv) E fuel s path w w',
  run react (download E fuel s path) w = Crashed w' ->
  exists R (c : call R) v, run react (exec E fuel c) v = Crashed w' /\ (R = handle \/ R = bytes \/ R = unit).
Proof. exact download_crash. Qed.
Print Assumptions C32_download_partial.

(** The full statement fails, for every call: there is a server whose answer crashes it. *)
Definition crash_reply {R} (c : call R) : bytes := session_message (header (opcode c) 0 0xc801 5 7 3).
Theorem C32_refuted : forall R (c : call R), request (exec (env0 false) 1000 c) client0 <> None ->
  exists w', run script (exec (env0 false) 1000 c) (world0 [crash_reply c]) = Crashed w'.
Proof. exact header_only_crashes. Qed.
Print Assumptions C32_refuted.

(** for instance: *)
Example C32_example : exists w1 w2 w3,
  run script (exec (env0 true) 1000 (Close handle0)) (world0 [crash_reply (Close handle0)]) = Crashed w1
  /\ run script (exec (env0 true) 1000 (ReadAt handle0 0)) (world0 [session_message (message 0x2e 0 3 [xff; x00; x00; x00] [])]) = Crashed w2
  /\ run script (exec (env0 true) 1000 (FindFirst share0 [42])) (world0 [crash_reply (FindFirst share0 [42])]) = Crashed w3.
Proof. do 3 eexists. split; [runs|]. split; [runs|]. runs. Qed.

(** C33: a call answered by a reply with an accepted status crashes exactly if the reply
    is in the set of SpecCrash for its kind; every other reply gives Ok or Err. *)
Theorem C33_single : forall Sv (react : Sv -> bytes -> reaction Sv) E fuel R (c : call R) w w1 p rest,
  single_reply c -> (length (rx w1) < fuel)%nat ->
  answered react E fuel c w w1 p rest ->
  ((exists w', run react (exec E fuel c) w = Crashed w') <-> crashes c p)
  /\ (~ crashes c p -> exists a, run react (exec E fuel c) w = Done a (leaving w1 rest)).
Proof. exact single_crash_iff. Qed.
Print Assumptions C33_single.

(** Searches: while fragments are collected, such a fragment crashes the call ... *)
Theorem C33_fragment : forall Sv (react : Sv -> bytes -> reaction Sv) E fuel R (c : call R) w f w1 fs tp td b p rest,
  ~ single_reply c -> (length (rx w1) < fuel)%nat ->
  request (exec E fuel c) (cl w) = Some f -> asked react w f w1 ->
  fragments_arrive (mid (cl w)) (rx w1) fs b -> collecting fs tp td ->
  reply_arrives (mid (cl w)) b p rest -> smb_reply p 0x32 0 (mid (cl w)) -> crash_fragment p ->
  run react (exec E fuel c) w = Crashed (leaving w1 rest).
Proof. exact find_crashes_fragment. Qed.
Print Assumptions C33_fragment.

(** ... and when they are complete, exactly such blocks do. *)
Theorem C33_search : forall Sv (react : Sv -> bytes -> reaction Sv) E fuel R (c : call R) w f w1 fs a b rest,
  ~ single_reply c -> (length (rx w1) < fuel)%nat ->
  request (exec E fuel c) (cl w) = Some f -> asked react w f w1 ->
  fragments_arrive (mid (cl w)) (rx w1) fs rest -> split_of fs a b -> last_completes fs (len a) (len b) ->
  (run react (exec E fuel c) w = Crashed (leaving w1 rest) <-> find_crashes c a b)
  /\ (~ find_crashes c a b -> exists x, run react (exec E fuel c) w = Done x (leaving w1 rest)).
Proof. exact find_crash_iff. Qed.
Print Assumptions C33_search.

(** The decoders by themselves, for every message of at least a header. *)
Theorem C33_handle : forall i p, 32 <= len p -> (reply_parse r_handle i (drop 32 p) = Panic <-> crash_handle p).
Proof. exact handle_panic. Qed.
Print Assumptions C33_handle.
Theorem C33_read : forall i p, 32 <= len p -> (reply_parse r_read i (drop 32 p) = Panic <-> crash_read p).
Proof. exact read_panic. Qed.
Print Assumptions C33_read.
Theorem C33_session : forall i p, 32 <= len p -> (reply_parse r_session_setup i (drop 32 p) = Panic <-> crash_session p).
Proof. exact session_panic. Qed.
Print Assumptions C33_session.
Theorem C33_server : forall i p, 32 <= len p -> (reply_parse r_server_setup i (drop 32 p) = Panic <-> crash_server p).
Proof. exact server_panic. Qed.
Print Assumptions C33_server.
Theorem C33_notification : forall i p, 32 <= len p -> (reply_parse r_notification i (drop 32 p) = Panic <-> crash_notification p).
Proof. exact notification_panic. Qed.
Print Assumptions C33_notification.
Theorem C33_fragments : forall i p, 32 <= len p -> (reply_parse r_trans2 i (drop 32 p) = Panic <-> crash_fragment p).
Proof. exact fragment_panic. Qed.
Print Assumptions C33_fragments.
Theorem C33_dir : forall e, dir_info_parse e = Panic <-> crash_dir e.
Proof. exact dir_panic. Qed.
Print Assumptions C33_dir.

(** a reply in the set and one that is not: the directory flag of an open reply cut off *)
Example C33_example :
  crash_handle (message 0xa2 0 3 (take 66 (open_words 5)) []) /\ ~ crash_handle (message 0xa2 0 3 (open_words 5) []).
Proof.
  split.
  - right. exists (take 66 (open_words 5)), [], []. split; [apply message_parts; reflexivity|].
    split; [split; [vm_compute; discriminate|reflexivity]|reflexivity].
  - rewrite <- (@handle_panic (mk_info CCreate (status_of_code 0) 0 0 0 5 7 3)); [vm_compute; discriminate|vm_compute; discriminate].
Qed.
(** the hypotheses of the theorems on calls: a reply that is only a header; a second fragment
    that is only a header; blocks with an entry whose name has an odd number of bytes *)
Lemma only_header cmd : cut_short (header cmd 0 0xc801 5 7 3).
Proof.
  split; [rewrite len_header; lia|]. intros (w & d & r & h & n & H1 & _ & _ & _ & H). apply (f_equal len) in H.
  rewrite len_header, !len_app, H1 in H. change (len [n2b n]) with 1 in H. lia.
Qed.
Example C33_single_example : exists w', run script (exec (env0 true) 1000 (Close handle0)) (world0 [crash_reply (Close handle0)]) = Crashed w'.
Proof.
  refine (proj2 (proj1 (C33_single _ _ _ _ _ (Close handle0) (world0 _) (mk_world (next_client client0) [] (crash_reply (Close handle0)) Open [_]) (header 0x04 0 0xc801 5 7 3) [] _ _ _)) _).
  1: hyp. 1: hyp.
  1: split; [eexists; split; [vm_compute; reflexivity|apply asked0]|]; split; [cbn [rx]; unfold crash_reply; hyp|]; exists 0; split; [hyp|hyp].
  left. apply only_header.
Qed.
Example C33_fragment_example : exists f, let b := fragment 3 10 132 0 0 (first_block 2 1) (take 66 two) ++ crash_reply (FindFirst share0 [42]) in
  run script (exec (env0 true) 1000 (FindFirst share0 [42])) (world0 [b]) = Crashed (leaving (mk_world (next_client client0) [] b Open [f]) []).
Proof.
  eexists. cbv zeta. refine (C33_fragment _ _ _ _ _ (FindFirst share0 [42]) (world0 _) _ (mk_world (next_client client0) [] _ Open [_])
    [mk_trans2 (first_block 2 1) 10 0 (take 66 two) 132 0] 10 132 (crash_reply (FindFirst share0 [42])) (header 0x32 0 0xc801 5 7 3) [] _ _ _ _ _ _ _ _ _).
  1: hyp. 1: hyp. 1: hyp. 1: hyp. 1: cbn [rx]; hyp. 1: apply collecting_one; vm_compute; auto. 1: unfold crash_reply; hyp. 1: hyp.
  left. left. apply only_header.
Qed.
Example C33_search_example : exists f, let b := fragment 3 10 65 0 0 (first_block 1 1) (le 4 0 ++ entry [x61]) in
  run script (exec (env0 true) 1000 (FindFirst share0 [42])) (world0 [b]) = Crashed (leaving (mk_world (next_client client0) [] b Open [f]) []).
Proof.
  eexists. cbv zeta. refine (proj2 (proj1 (C33_search _ _ _ _ _ (FindFirst share0 [42]) (world0 _) _ (mk_world (next_client client0) [] _ Open [_])
    [mk_trans2 (first_block 1 1) 10 0 (le 4 0 ++ entry [x61]) 65 0] (first_block 1 1) (le 4 0 ++ entry [x61]) [] _ _ _ _ _ _ _)) _).
  1: hyp. 1: hyp. 1: hyp. 1: hyp. 1: cbn [rx]; hyp. 1: hyp. 1: hyp.
  split; [vm_compute; discriminate|].
  apply crash_last; [reflexivity|runs|]. exists 1, [x61]. split; [runs|]. split; [runs|]. exists [], [], [], x61. split; [constructor|]. split; [now left|reflexivity].
Qed.
