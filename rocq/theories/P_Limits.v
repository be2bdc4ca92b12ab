(** * What a server can do to the client within the protocol: endless listings (C65), memory
    (C66), a login degraded to guest (C67) *)
From Verif Require Import Base Text Win Errors Info Common Reply Ntlm Prog Client Spec SpecReply SpecCrash SpecNtlm SpecMsg
  Api SpecCall Flow Sample RunFacts ReplyFacts CollectFacts CallFacts FindFacts AnswerFacts LoopFacts EndFacts DownloadFacts SpecLogin OpenFacts
  ListFacts MemFacts P_Ntlm P_Open P_Trans Witness.
Open Scope N_scope.

(** C65: a listing ends if and only if the server sends only a bounded number of batches
    without the end mark.  [ends]: with enough fuel the run no longer depends on it.
    (Missing for the full statement: that it ends with every server.) *)
Theorem C65_partial : forall Sv (react : Sv -> bytes -> reaction Sv) E s pattern w,
  ends react (fun f => list_dir E f s pattern) w <-> exists n, pages_bounded react E s pattern w n.
Proof. exact list_ends_iff. Qed.
Print Assumptions C65_partial.
(** There is a server with which it never does: all of its answers are accepted, one request
    after the other is sent. *)
Theorem C65_refuted : exists Sv (react : Sv -> bytes -> reaction Sv) w s pattern, forall fuel, (300 <= fuel)%nat ->
  exists w', run react (list_dir (env0 false) fuel s pattern) w = Starved w' /\ length (tx w') = (fuel + 1)%nat.
Proof. exact list_diverges. Qed.
Print Assumptions C65_refuted.
(** a listing that ends: the first batch is not the last, the second is *)
Definition two_batches : list bytes :=
  [fragment 3 10 132 0 0 (first_block 2 0) two; fragment 4 8 132 0 0 (next_block 2 1) two_long].
Example C65_example : exists n, pages_bounded script (env0 true) share0 [42] (world0 two_batches) n.
Proof.
  assert (exists w1, run script (exec (env0 true) 1000 (FindFirst share0 [42])) (world0 two_batches)
      = Done (Good (mk_found 77 false [info [97]; info [98]])) w1
    /\ exists w2, run script (exec (env0 true) 1000 (FindNext share0 77 [98])) w1 = Done (Good (mk_found_next true [info [97]; info [98]])) w2)
    as (w1 & H1 & w2 & H2).
  { eexists. split; [runs|]. eexists. runs. }
  exists 0%nat. intros sid l v1 ls v2 Hr Hp. destruct (returns_unique Hr (call_returns H1)) as [He ->]. injection He as -> ->.
  remember [info [97]; info [98]] as all eqn:Hall.
  destruct Hp as [|sofar name w l w3 ls v2 (l0 & d & Hn & ->) Hr' Hp]; [exact (le_n 0)|]. exfalso. subst sofar.
  change [info [97]; info [98]] with ([info [97]] ++ [info [98]]) in Hn. apply app_inj_tail in Hn. destruct Hn as [_ <-].
  destruct (returns_unique Hr' (call_returns H2)) as [He _]. discriminate He.
Qed.

(** C66: as long as fragments do not complete the reply, all of their bytes are kept ... *)
Theorem C66_held_partial : forall Sv (react : Sv -> bytes -> reaction Sv) E fuel R (c : call R) w f w1 fs tp td rest,
  ~ single_reply c -> (length (rx w1) < fuel)%nat ->
  request (exec E fuel c) (cl w) = Some f -> asked react w f w1 ->
  fragments_arrive (mid (cl w)) (rx w1) fs rest -> collecting fs tp td ->
  exists k, holding react E fuel c w k (leaving w1 rest) /\ kept k = sent_bytes fs.
Proof. exact find_holding. Qed.
Print Assumptions C66_held_partial.
(** ... for a proper reply no more than the totals ... *)
Theorem C66_proper_partial : forall fs gs a b, split_of (fs ++ gs) a b -> sent_bytes fs <= len a + len b.
Proof. exact proper_bound. Qed.
Print Assumptions C66_proper_partial.
(** ... and for any other no more than 8 GiB.  (Missing for the full statement: no more than the
    announced totals for every reply.) *)
Theorem C66_bound_partial : forall id b fs rest tp td,
  fragments_arrive id b fs rest -> collecting fs tp td -> sent_bytes fs <= 2 * (65535 * 65536).
Proof. exact collecting_bound. Qed.
Print Assumptions C66_bound_partial.
(** Up to 65536 fragments of any size are kept though each of them announces one byte of
    parameters and one of data. *)
Theorem C66_refuted : forall d n, len d <> 0 -> len d < 65536 -> N.of_nat n <= 65536 ->
  exists w w1 f fuel0, request (exec (env0 true) 0 (FindFirst share0 [42])) (cl w) = Some f /\ asked script w f w1
  /\ fragments_arrive (mid (cl w)) (rx w1) (flood_pieces d n) [] /\ collecting (flood_pieces d n) 1 1
  /\ forall fuel, (fuel0 <= fuel)%nat -> exists k w', holding script (env0 true) fuel (FindFirst share0 [42]) w k w'
       /\ kept k = N.of_nat n * len d.
Proof. intros d n H1 H2 H3. apply (flooded H1 H2 H3). vm_compute. discriminate. Qed.
Print Assumptions C66_refuted.
Example C66_example : exists d : bytes, len d <> 0 /\ len d < 65536 /\ 65536 * len d = 65536 * 65535.
Proof. exists (zeros 65535). unfold zeros, len. rewrite repeat_length. split; [lia|]. lia. Qed.

(** the hypotheses: the first of two pieces has arrived *)
Example C66_hyp_example : exists f k, let b := fragment 3 10 132 0 0 (first_block 2 1) (take 66 two) in
  holding script (env0 true) 1000 (FindFirst share0 [42]) (world0 [b]) k (leaving (mk_world (next_client client0) [] b Open [f]) []) /\ kept k = 76.
Proof.
  eexists. cbv zeta. refine (C66_held_partial _ _ _ _ _ (FindFirst share0 [42]) (world0 _) _ (mk_world (next_client client0) [] _ Open [_])
    [mk_trans2 (first_block 2 1) 10 0 (take 66 two) 132 0] 10 132 [] _ _ _ _ _ _).
  1: hyp. 1: hyp. 1: hyp. 1: hyp. 1: cbn [rx]; hyp. apply collecting_one. vm_compute. auto.
Qed.
Example C66_proper_example : let fs := [mk_trans2 (take 4 (first_block 2 1)) 10 0 (take 5 two) 132 0] in let gs := [mk_trans2 (drop 4 (first_block 2 1)) 10 4 (drop 5 two) 132 5] in
  split_of (fs ++ gs) (take 4 (first_block 2 1) ++ drop 4 (first_block 2 1)) (take 5 two ++ drop 5 two) /\ sent_bytes fs = 9.
Proof.
  split; [|reflexivity]. refine (@split_two (take 4 (first_block 2 1)) (drop 4 (first_block 2 1)) (take 5 two) (drop 5 two) 10 132 _ _ _ _ _ _);
    [discriminate|discriminate|discriminate|discriminate|reflexivity|reflexivity].
Qed.

(** C67: the session setup calls report the guest bit of the reply ... *)
Theorem C67_call_partial : forall Sv (react : Sv -> bytes -> reaction Sv) E fuel blob w s w',
  run react (exec E fuel (SetupBlob blob)) w = Done (Good s) w' ->
  exists w1 p words data rest action,
  answered react E fuel (SetupBlob blob) w w1 p (rx w') /\ smb_parts p words data rest
  /\ u16_at words 4 = Some action /\ ss_guest_mode s = N.testbit action 0.
Proof.
  intros Sv react E fuel blob w s w' H.
  destruct (answer_good (c := SetupBlob blob) I H) as (w1 & p & Ha & _ & words & data & rest & action & n & more & Hp & _ & _ & H1 & H2 & _).
  exists w1, p, words, data, rest, action. auto.
Qed.
Print Assumptions C67_call_partial.
Theorem C67_call_v1_partial : forall Sv (react : Sv -> bytes -> reaction Sv) E fuel user domain nt w s w',
  run react (exec E fuel (SetupAuth user domain nt)) w = Done (Good s) w' ->
  exists w1 p words data rest action,
  answered react E fuel (SetupAuth user domain nt) w w1 p (rx w') /\ smb_parts p words data rest
  /\ u16_at words 4 = Some action /\ ss_guest_mode s = N.testbit action 0.
Proof.
  intros Sv react E fuel user domain nt w s w' H.
  destruct (answer_good (c := SetupAuth user domain nt) I H) as (w1 & p & Ha & _ & words & data & rest & action & n & more & Hp & _ & _ & H1 & H2 & _).
  exists w1, p, words, data, rest, action. auto.
Qed.
Print Assumptions C67_call_v1_partial.
(** ... but open does not: the login of alice, once as alice and once as a guest (bit 0 of the
    action), with the same result, the same connection. *)
Definition set_up_as (action mid : N) : bytes := message 0x73 0 mid ([xff; x00; x00; x00] ++ le 2 action ++ le 2 0) [].
Definition login_as (action : N) : list bytes :=
  [negotiated 0x80000004; set_up 0xc0000016 1 challenge0; session_message (set_up_as action 2)].
Definition login_as_v1 (action : N) : list bytes := [negotiated 0; session_message (set_up_as action 1)].
Example C67_example : exists w1 w2,
  run script (exec (env0 true) 400 (SetupBlob [x01])) (world0 [session_message (set_up_as 1 3)]) = Done (Good (mk_session true 7 [])) w1
  /\ run script (exec (env0 true) 400 (SetupAuth [97] [68] (repeat x33 24))) (world0 [session_message (set_up_as 0 3)]) = Done (Good (mk_session false 7 [])) w2.
Proof. do 2 eexists. split; [runs|]. runs. Qed.
Lemma set_up_is action mid : action < 2 -> mid < 3 -> session_of (set_up_as action mid) (mk_session (action =? 1) 7 []).
Proof.
  intros Ha Hm. exists ([xff; x00; x00; x00] ++ le 2 action ++ le 2 0), [], [], action, 0, [].
  assert (Ha' : action = 0 \/ action = 1) by lia. assert (Hm' : mid = 0 \/ mid = 1 \/ mid = 2) by lia.
  split; [unfold set_up_as; apply message_parts; destruct Ha' as [-> | ->]; vm_compute; reflexivity|].
  destruct Ha' as [-> | ->]; destruct Hm' as [-> | [-> | ->]]; (split; [split; vm_compute; [discriminate|reflexivity]|]); vm_compute; repeat split.
Qed.
Theorem C67_refuted : exists w' v',
  open (env0 true) _ (at_port 445 (login_as 0)) script 400 None (Some alice) = ([445], OnStream (Done (Good tt) w'))
  /\ open (env0 true) _ (at_port 445 (login_as 1)) script 400 None (Some alice) = ([445], OnStream (Done (Good tt) w'))
  /\ open (env0 true) _ (at_port 445 (login_as_v1 0)) script 400 None (Some alice) = ([445], OnStream (Done (Good tt) v'))
  /\ open (env0 true) _ (at_port 445 (login_as_v1 1)) script 400 None (Some alice) = ([445], OnStream (Done (Good tt) v'))
  /\ session_of (set_up_as 0 2) (mk_session false 7 []) /\ session_of (set_up_as 1 2) (mk_session true 7 [])
  /\ session_of (set_up_as 0 1) (mk_session false 7 []) /\ session_of (set_up_as 1 1) (mk_session true 7 []).
Proof.
  do 2 eexists. split; [runs|]. split; [runs|]. split; [runs|]. split; [runs|].
  split; [apply (@set_up_is 0 2); lia|]. split; [apply (@set_up_is 1 2); lia|]. split; [apply (@set_up_is 0 1); lia|apply (@set_up_is 1 1); lia].
Qed.
Print Assumptions C67_refuted.
