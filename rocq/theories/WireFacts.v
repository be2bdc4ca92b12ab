(** * WireFacts: requests and what they ask for determine each other (C73) *)
From Verif Require Import Base Text Win Errors Common Msg Reply Ntlm Prog Client Spec SpecReply SpecMsg Api SpecCall BaseFacts
  ClientFacts MsgFacts ReqFacts Flow SpecRemote RefServer RefFacts.
Open Scope N_scope.
Set Implicit Arguments.

Lemma session_inj p q : session_message p = session_message q -> p = q.
Proof. intros H. apply (f_equal (drop 4)) in H. exact H. Qed.
Lemma request_op E fuel R (c : call R) st E' fuel' R' (c' : call R') st' f :
  typed_client st -> typed_client st' -> typed c -> typed c' -> unambiguous c -> unambiguous c' ->
  request (exec E fuel c) st = Some f -> request (exec E' fuel' c') st' = Some f ->
  existT op R (op_of c) = existT op R' (op_of c') /\ uid st = uid st' /\ mid st = mid st' /\ use_unicode st = use_unicode st'.
Proof.
  intros S1 S2 T1 T2 U1 U2 H1 H2.
  destruct (request_asks S1 T1 H1) as (p & w & d & -> & _ & P1 & Q1 & A1).
  destruct (request_asks S2 T2 H2) as (p' & w' & d' & Hp & _ & P2 & Q2 & A2). apply session_inj in Hp. subst p'.
  pose proof (understood T1 U1 P1 Q1 A1) as K1. pose proof (understood T2 U2 P2 Q2 A2) as K2. rewrite K1 in K2. apply some_inj in K2.
  split.
  - apply (f_equal (fun s => match s with @Some_op R o => existT op R o end)) in K2. exact K2.
  - destruct Q1 as [_ _ _ _ _ F1 _ _ _ _ I1 M1], Q2 as [_ _ _ _ _ F2 _ _ _ _ I2 M2].
    rewrite I1 in I2. rewrite M1 in M2. rewrite F1 in F2. apply some_inj in I2, M2, F2. split; [exact I2|]. split; [exact M2|].
    destruct (use_unicode st), (use_unicode st'); try reflexivity; discriminate F2.
Qed.

(** the request for an operation *)
Definition msg_for {R} (o : op R) : msg :=
  match o with
  | OMount path password => msg_tree_connect path password
  | OUmount tid => msg_tree_disconnect tid
  | OOpenFile tid path => msg_open tid (open_file_ro path)
  | OOpenDir tid path => msg_open tid (open_dir path)
  | OClose tid fid => msg_close tid fid
  | ORead tid fid offset => msg_read tid fid offset
  | ODelete tid path => msg_delete tid path
  | ORmdir tid path => msg_rmdir tid path
  | ONotify tid fid mode => msg_transact tid (notify_setup fid mode false)
  | OFindFirst tid pattern => msg_transact2 tid (find_first2 pattern (lor_all [ATTR_HIDDEN; ATTR_SYSTEM; ATTR_DIRECTORY]))
  | OFindNext tid sid name => msg_transact2 tid (find_next2 sid name)
  | ONegotiate => msg_negotiate
  | OSetupAuth user domain secret => msg_session_setup (Classic user domain secret)
  | OSetupBlob blob => msg_session_setup (Extended blob)
  end.
Lemma password_sent path password i : tree_connect_body path (sent_password password) i = tree_connect_body path password i.
Proof. destruct password as [|[|c] [|]]; reflexivity. Qed.
Lemma frame_for E st R (c : call R) : out_frame E st (msg_of c) = out_frame E st (msg_for (op_of c)).
Proof.
  destruct c; try reflexivity. unfold out_frame, smb_out, msg_write. cbn [msg_of msg_for op_of msg_tree_connect m_body].
  change (sanitize_path path) with (backslashes path). rewrite password_sent. reflexivity.
Qed.
Lemma frame_state E E' st st' m : overflow_checks E = overflow_checks E' -> uid st = uid st' -> mid st = mid st' -> use_unicode st = use_unicode st' ->
  out_frame E st m = out_frame E' st' m.
Proof. intros H1 H2 H3 H4. unfold out_frame, mid_panics, smb_out, out_info. rewrite H1, H2, H3, H4. reflexivity. Qed.
Lemma op_request E fuel R (c : call R) st E' fuel' R' (c' : call R') st' : existT op R (op_of c) = existT op R' (op_of c') ->
  overflow_checks E = overflow_checks E' -> uid st = uid st' -> mid st = mid st' -> use_unicode st = use_unicode st' ->
  request (exec E fuel c) st = request (exec E' fuel' c') st'.
Proof.
  intros H H1 H2 H3 H4. rewrite !request_exec, !frame_for. rewrite (frame_state E E' st st' _ H1 H2 H3 H4).
  apply (f_equal (fun s => out_frame E' st' (msg_for (projT2 s)))) in H. exact H.
Qed.
