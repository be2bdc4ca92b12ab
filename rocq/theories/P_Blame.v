(** * The error says what is wrong with a reply: C84 *)
From Coq Require Import Permutation.
From Verif Require Import Base Text Win Errors Info Common Reply Ntlm Prog Client Spec SpecReply SpecCrash SpecMsg ReqFacts
  Api SpecCall Flow Sample InfoFacts ReplyFacts CollectFacts CallFacts FindFacts AnswerFacts LoopFacts DownloadFacts TransFacts Witness
  SpecBlame BlameFacts.
Open Scope N_scope.

(** C84: if a call is answered by one successful reply that neither contains a value
    (SpecReply) nor crashes the client (SpecCrash), its error is the one that the
    specification gives, and this one only. *)
Theorem C84_single : forall Sv (react : Sv -> bytes -> reaction Sv) E fuel R (c : call R) w w1 p rest,
  single_reply c -> (length (rx w1) < fuel)%nat ->
  answered react E fuel c w w1 p rest -> ~ crashes c p -> (forall v, ~ decodes c p v) ->
  exists e, blames c p e /\ run react (exec E fuel c) w = Done (Bad (ESmb e)) (leaving w1 rest).
Proof. exact single_blame. Qed.
Print Assumptions C84_single.
Theorem C84_one : forall R (c : call R) p e e', blames c p e -> blames c p e' -> e = e'.
Proof. exact blames_fun. Qed.
Print Assumptions C84_one.

(** Searches: a fragment that contradicts the ones before it: a total that changed, or a
    second piece at the same displacement.  The numbers in the error are those of the messages. *)
Theorem C84_fragment : forall Sv (react : Sv -> bytes -> reaction Sv) E fuel R (c : call R) w f w1 fs tp td b p g rest e,
  ~ single_reply c -> (length (rx w1) < fuel)%nat ->
  request (exec E fuel c) (cl w) = Some f -> asked react w f w1 ->
  fragments_arrive (mid (cl w)) (rx w1) fs b -> fs <> [] -> collecting fs tp td ->
  reply_arrives (mid (cl w)) b p rest -> smb_reply p 0x32 0 (mid (cl w)) -> fragment_of p g ->
  fragment_wrong fs tp td g e ->
  run react (exec E fuel c) w = Done (Bad (ESmb (Reassemble e))) (leaving w1 rest).
Proof. exact fragment_blame. Qed.
Print Assumptions C84_fragment.
(** every fragment either fits the ones before it or is wrong *)
Theorem C84_fragment_cases : forall fs tp td g, (exists e, fragment_wrong fs tp td g e)
  \/ (piece_right (parameter_pieces fs) tp (f_parameter_offset g) (f_parameter g) (f_parameter_total g)
      /\ piece_right (data_pieces fs) td (f_data_offset g) (f_data g) (f_data_total g)).
Proof. exact fragment_cases. Qed.
Print Assumptions C84_fragment_cases.

(** Fragments that agree, with enough bytes, that do not fit together: more than announced,
    or a gap or an overlap; the error names the first piece that is not where the ones before it end. *)
Theorem C84_blocks : forall Sv (react : Sv -> bytes -> reaction Sv) E fuel R (c : call R) w f w1 fs g tp td rest e,
  ~ single_reply c -> (length (rx w1) < fuel)%nat ->
  request (exec E fuel c) (cl w) = Some f -> asked react w f w1 ->
  fragments_arrive (mid (cl w)) (rx w1) (fs ++ [g]) rest -> collecting fs tp td ->
  f_parameter_total g = tp -> f_data_total g = td -> distinct (parameter_pieces (fs ++ [g])) -> distinct (data_pieces (fs ++ [g])) ->
  enough (fs ++ [g]) tp td -> blocks_wrong (fs ++ [g]) tp td e ->
  run react (exec E fuel c) w = Done (Bad (ESmb (Reassemble e))) (leaving w1 rest).
Proof. exact blocks_blame. Qed.
Print Assumptions C84_blocks.
Theorem C84_blocks_cases : forall fs tp td, fs <> [] -> totals fs tp td ->
  distinct (parameter_pieces fs) -> distinct (data_pieces fs) ->
  (exists e, blocks_wrong fs tp td e) \/ exists a b, split_of fs a b /\ len a = tp /\ len b = td.
Proof. exact blocks_cases. Qed.
Print Assumptions C84_blocks_cases.

(** A message that is no fragment, and blocks that are no batch of entries: invalid data. *)
Theorem C84_nofragment : forall Sv (react : Sv -> bytes -> reaction Sv) E fuel R (c : call R) w f w1 fs tp td b p rest,
  ~ single_reply c -> (length (rx w1) < fuel)%nat ->
  request (exec E fuel c) (cl w) = Some f -> asked react w f w1 ->
  fragments_arrive (mid (cl w)) (rx w1) fs b -> collecting fs tp td ->
  reply_arrives (mid (cl w)) b p rest -> smb_reply p 0x32 0 (mid (cl w)) ->
  ~ crash_fragment p -> (forall g, ~ fragment_of p g) ->
  run react (exec E fuel c) w = Done (Bad (ESmb InvalidData)) (leaving w1 rest).
Proof. exact nofragment_blame. Qed.
Print Assumptions C84_nofragment.
Theorem C84_batch : forall Sv (react : Sv -> bytes -> reaction Sv) E fuel R (c : call R) w f w1 fs a b rest,
  ~ single_reply c -> (length (rx w1) < fuel)%nat ->
  request (exec E fuel c) (cl w) = Some f -> asked react w f w1 ->
  fragments_arrive (mid (cl w)) (rx w1) fs rest -> split_of fs a b -> last_completes fs (len a) (len b) ->
  ~ find_crashes c a b -> (forall v, ~ found_in c a b v) ->
  run react (exec E fuel c) w = Done (Bad (ESmb InvalidData)) (leaving w1 rest).
Proof. exact batch_blame. Qed.
Print Assumptions C84_batch.

(** A mount answered with a service name without terminator: the hypotheses of C84_single
    hold, and the error can only be InvalidData. *)
Definition endless : bytes := message 0x75 0 3 ([xff; x00; x00; x00] ++ le 2 0) [x41; x3a].
Example C84_single_example : exists f,
  run script (exec (env0 true) 1000 (Mount [92; 97])) (world0 [session_message endless])
  = Done (Bad (ESmb InvalidData)) (leaving (mk_world (next_client client0) [] (session_message endless) Open [f]) []).
Proof.
  assert (G : exists f e, blames (Mount [92; 97]) endless e /\
    run script (exec (env0 true) 1000 (Mount [92; 97])) (world0 [session_message endless])
    = Done (Bad (ESmb e)) (leaving (mk_world (next_client client0) [] (session_message endless) Open [f]) [])).
  { eexists. refine (C84_single _ _ _ _ _ (Mount [92; 97]) (world0 _) (mk_world (next_client client0) [] (session_message endless) Open [_]) endless [] _ _ _ _ _).
    1: hyp. 1: hyp.
    1: split; [eexists; split; [vm_compute; reflexivity|apply asked0]|]; split; [cbn [rx]; hyp|]; exists 0; split; [hyp|hyp].
    - intros H. apply (@share_panic (mk_info CTreeConnect (status_of_code 0) 152 0xc801 65279 5 7 3)) in H; [vm_compute in H; discriminate H|].
      eapply info_head. vm_compute. reflexivity.
    - intros v H. apply (@share_ok (mk_info CTreeConnect (status_of_code 0) 152 0xc801 65279 5 7 3)) in H; [vm_compute in H; discriminate H|].
      eapply info_head. vm_compute. reflexivity. }
  destruct G as (f & e & Hb & ->). exists f.
  assert (e = InvalidData) as ->; [|reflexivity].
  refine (C84_one _ _ _ _ _ Hb _). eapply (@blame_data _ (Mount [92; 97]) endless).
  - apply message_parts; reflexivity.
  - intros _. reflexivity.
  - intros H. discriminate H.
  - intros H. discriminate H.
Qed.

(** the errors by example: overlapping pieces; a changed total; a repeated piece; a block that
    is too long; half a notification; another reply in the same message *)
Example C84_example : exists w1 w2 w3 w4 w5 w6,
  run script (exec (env0 true) 1000 (FindFirst share0 [42]))
    (world0 [fragment 3 10 132 0 0 (first_block 2 1) (take 70 two) ++ fragment 3 10 132 10 60 [] (drop 70 two)])
  = Done (Bad (ESmb (Reassemble (OffsetMismatch 60 70)))) w1
  /\ run script (exec (env0 true) 1000 (FindFirst share0 [42]))
    (world0 [fragment 3 10 132 0 0 (first_block 2 1) (take 70 two) ++ fragment 3 10 131 10 70 [] (drop 70 two)])
  = Done (Bad (ESmb (Reassemble (TotalChanged 132 131)))) w2
  /\ run script (exec (env0 true) 1000 (FindFirst share0 [42]))
    (world0 [fragment 3 10 132 0 0 (first_block 2 1) (take 70 two) ++ fragment 3 10 132 10 0 [] (take 70 two)])
  = Done (Bad (ESmb (Reassemble (FragmentTwice 0)))) w3
  /\ run script (exec (env0 true) 1000 (FindFirst share0 [42]))
    (world0 [fragment 3 10 132 0 0 (first_block 2 1) (two ++ [x00])])
  = Done (Bad (ESmb (Reassemble (LengthMismatch 132 133)))) w4
  /\ run script (exec (env0 true) 1000 (Notify handle0))
    (world0 [session_message (message 0xa0 0 3 (zeros 3 ++ le 4 8 ++ le 4 0 ++ le 4 4 ++ zeros 21) [])])
  = Done (Bad (ESmb (Unsupported SplitTransaction))) w5
  /\ run script (exec (env0 true) 1000 (ReadAt handle0 0))
    (world0 [session_message (message 0x2e 0 3 (x04 :: zeros 23) [])])
  = Done (Bad (ESmb (Unsupported AndXChaining))) w6.
Proof. do 6 eexists. split; [runs|]. split; [runs|]. split; [runs|]. split; [runs|]. split; [runs|]. runs. Qed.

(** the hypotheses of the theorems on fragments: a repeated displacement *)
Example C84_fragment_example : exists f, let b := fragment 3 10 132 0 0 (first_block 2 1) (take 70 two) ++ fragment 3 10 132 10 0 [] (take 70 two) in
  run script (exec (env0 true) 1000 (FindFirst share0 [42])) (world0 [b])
  = Done (Bad (ESmb (Reassemble (FragmentTwice 0)))) (leaving (mk_world (next_client client0) [] b Open [f]) []).
Proof.
  eexists. cbv zeta. refine (C84_fragment _ _ _ _ _ (FindFirst share0 [42]) (world0 _) _ (mk_world (next_client client0) [] _ Open [_])
    [mk_trans2 (first_block 2 1) 10 0 (take 70 two) 132 0] 10 132
    (fragment 3 10 132 10 0 [] (take 70 two)) (fragment_message 3 10 132 10 0 [] (take 70 two)) (mk_trans2 [] 10 10 (take 70 two) 132 0)
    [] _ _ _ _ _ _ _ _ _ _ _ _).
  1: hyp. 1: hyp. 1: hyp. 1: hyp. 1: hyp. 1: discriminate. 1: apply collecting_one; vm_compute; auto. 1: hyp. 1: hyp.
  1: apply fragment_meant; vm_compute; reflexivity.
  apply data_wrong; [split; [reflexivity|left; reflexivity]|].
  apply wrong_twice; [reflexivity|vm_compute; discriminate|]. exists (take 70 two). split; [left; reflexivity|vm_compute; discriminate].
Qed.
Example C84_blocks_example : exists f, let b := fragment 3 10 132 0 0 (first_block 2 1) (two ++ [x00]) in
  run script (exec (env0 true) 1000 (FindFirst share0 [42])) (world0 [b])
  = Done (Bad (ESmb (Reassemble (LengthMismatch 132 133)))) (leaving (mk_world (next_client client0) [] b Open [f]) []).
Proof.
  eexists. cbv zeta. refine (C84_blocks _ _ _ _ _ (FindFirst share0 [42]) (world0 _) _ (mk_world (next_client client0) [] _ Open [_])
    [] (mk_trans2 (first_block 2 1) 10 0 (two ++ [x00]) 132 0) 10 132 [] _ _ _ _ _ _ _ _ _ _ _ _ _).
  1: hyp. 1: hyp. 1: hyp. 1: hyp. 1: cbn [app]; hyp.
  1: split; [constructor|]; split; [constructor|]; split; [constructor|]; intros [|x l] fs2 H Hn; [contradiction|discriminate H].
  1: reflexivity. 1: reflexivity. 1: constructor; [intros []|constructor]. 1: constructor; [intros []|constructor].
  1: split; vm_compute; discriminate.
  eapply datas_wrong with (a := first_block 2 1).
  - exists [(0, first_block 2 1)]. split; [apply Permutation_refl|]. rewrite <- (app_nil_r (first_block 2 1)) at 2. apply tiles_cons, tiles_nil.
  - reflexivity.
  - apply (@wrong_length [(0, two ++ [x00])] 132). vm_compute. discriminate.
Qed.
(** a batch that announces three entries and has two *)
Example C84_batch_example : exists f, let b := fragment 3 10 132 0 0 (first_block 3 1) two in
  run script (exec (env0 true) 1000 (FindFirst share0 [42])) (world0 [b])
  = Done (Bad (ESmb InvalidData)) (leaving (mk_world (next_client client0) [] b Open [f]) []).
Proof.
  eexists. cbv zeta. refine (C84_batch _ _ _ _ _ (FindFirst share0 [42]) (world0 _) _ (mk_world (next_client client0) [] _ Open [_])
    [mk_trans2 (first_block 3 1) 10 0 two 132 0] (first_block 3 1) two [] _ _ _ _ _ _ _ _ _).
  1: hyp. 1: hyp. 1: hyp. 1: hyp. 1: cbn [rx]; hyp. 1: hyp. 1: hyp.
  - intros H. apply find_first_panic in H. vm_compute in H. discriminate H.
  - intros v H. apply find_first_ok in H. vm_compute in H. discriminate H.
Qed.
(** a fragment whose parameters would lie in the header *)
Definition misplaced : bytes := message 0x32 0 3 (le 2 10 ++ le 2 132 ++ le 2 0 ++ le 2 10 ++ le 2 4 ++ zeros 10) [].
Example C84_nofragment_example : exists f, let b := fragment 3 10 132 0 0 (first_block 2 1) (take 70 two) ++ session_message misplaced in
  run script (exec (env0 true) 1000 (FindFirst share0 [42])) (world0 [b])
  = Done (Bad (ESmb InvalidData)) (leaving (mk_world (next_client client0) [] b Open [f]) []).
Proof.
  eexists. cbv zeta. refine (C84_nofragment _ _ _ _ _ (FindFirst share0 [42]) (world0 _) _ (mk_world (next_client client0) [] _ Open [_])
    [mk_trans2 (first_block 2 1) 10 0 (take 70 two) 132 0] 10 132 (session_message misplaced) misplaced [] _ _ _ _ _ _ _ _ _ _).
  1: hyp. 1: hyp. 1: hyp. 1: hyp. 1: cbn [rx]; hyp. 1: apply collecting_one; vm_compute; auto. 1: hyp. 1: hyp.
  - intros H. apply (@fragment_panic (mk_info CTransact2 (status_of_code 0) 152 0xc801 65279 5 7 3)) in H; [vm_compute in H; discriminate H|vm_compute; discriminate].
  - intros v H. apply (@fragment_ok (mk_info CTransact2 (status_of_code 0) 152 0xc801 65279 5 7 3)) in H; [vm_compute in H; discriminate H|vm_compute; discriminate].
Qed.
