(** * Properties of searches and their fragmented replies: C22-C27, C60 *)
From Coq Require Import Permutation.
From Verif Require Import Base Text Win Errors Info Common Reply Ntlm Prog Client Spec SpecReply SpecCrash SpecMsg ReqFacts
  Api SpecCall Flow Sample ReplyFacts CollectFacts CallFacts FindFacts AnswerFacts LoopFacts DownloadFacts TransFacts Witness.
Open Scope N_scope.

(** C22: if the fragments [fs] are a partition of the two blocks (some pieces may be
    empty), then in whatever order [gs] they arrive, the search gives what the blocks
    encode.  It reads up to the first fragment that completes both blocks; only empty
    fragments are left. *)
Theorem C22_any_order : forall Sv (react : Sv -> bytes -> reaction Sv) E fuel R (c : call R) w f w1 fs gs a b rest v,
  ~ single_reply c -> (length (rx w1) < fuel)%nat ->
  request (exec E fuel c) (cl w) = Some f -> asked react w f w1 ->
  split_of fs a b -> Permutation fs gs -> fragments_arrive (mid (cl w)) (rx w1) gs rest ->
  found_in c a b v ->
  exists gs1 gs2 rest1, gs = gs1 ++ gs2 /\ last_completes gs1 (len a) (len b) /\ Forall is_empty gs2
   /\ fragments_arrive (mid (cl w)) rest1 gs2 rest
   /\ run react (exec E fuel c) w = Done (Good v) (leaving w1 rest1).
Proof. exact find_any_order. Qed.
Print Assumptions C22_any_order.

(** the same directory in one fragment, and in four in a strange order *)
Example C22_example : exists w1 w2,
  run script (exec (env0 true) 1000 (FindFirst share0 [42])) (world0 [fragment 3 10 132 0 0 (first_block 2 1) two])
  = Done (Good (mk_found 77 true [info [97]; info [98]])) w1
  /\ run script (exec (env0 true) 1000 (FindFirst share0 [42]))
      (world0 [fragment 3 10 132 4 70 (drop 4 (first_block 2 1)) (drop 70 two)
        ++ fragment 3 10 132 0 0 [] []
        ++ fragment 3 10 132 10 5 [] (take 65 (drop 5 two))
        ++ fragment 3 10 132 0 0 (take 4 (first_block 2 1)) (take 5 two)])
  = Done (Good (mk_found 77 true [info [97]; info [98]])) w2
  /\ rx w1 = [] /\ rx w2 = [].
Proof. do 2 eexists. split; [runs|]. split; [runs|]. split; runs. Qed.

(** the hypotheses: the second of two pieces arrives first *)
Example C22_hyp_example : exists f gs1 gs2 rest1,
  let gs := [mk_trans2 (drop 4 (first_block 2 1)) 10 4 (drop 5 two) 132 5; mk_trans2 (take 4 (first_block 2 1)) 10 0 (take 5 two) 132 0] in
  let b := fragment 3 10 132 4 5 (drop 4 (first_block 2 1)) (drop 5 two) ++ fragment 3 10 132 0 0 (take 4 (first_block 2 1)) (take 5 two) in
  gs = gs1 ++ gs2 /\ last_completes gs1 10 132 /\ Forall is_empty gs2
  /\ fragments_arrive 3 rest1 gs2 [] /\ run script (exec (env0 true) 1000 (FindFirst share0 [42])) (world0 [b])
    = Done (Good (mk_found 77 true [info [97]; info [98]])) (leaving (mk_world (next_client client0) [] b Open [f]) rest1).
Proof.
  eexists. cbv zeta. refine (C22_any_order _ _ _ _ _ (FindFirst share0 [42]) (world0 _) _ (mk_world (next_client client0) [] _ Open [_])
    _ _ (take 4 (first_block 2 1) ++ drop 4 (first_block 2 1)) (take 5 two ++ drop 5 two) [] _ _ _ _ _ _ _ _ _).
  1: hyp. 1: hyp. 1: hyp. 1: hyp.
  1: refine (@split_two (take 4 (first_block 2 1)) (drop 4 (first_block 2 1)) (take 5 two) (drop 5 two) 10 132 _ _ _ _ _ _); [discriminate|discriminate|discriminate|discriminate|reflexivity|reflexivity].
  1: apply perm_swap. 1: cbn [rx]. 1: hyp. hyp.
Qed.

(** C23: whenever a search succeeds, against any server, the blocks it was decoded from
    have the announced lengths, contain every received piece at its displacement, and
    each of their bytes is in exactly one piece. *)
Theorem C23_sound : forall Sv (react : Sv -> bytes -> reaction Sv) E fuel R (c : call R) w v w',
  ~ single_reply c -> run react (exec E fuel c) w = Done (Good v) w' ->
  exists f w1 fs a b, request (exec E fuel c) (cl w) = Some f /\ asked react w f w1
   /\ fragments_arrive (mid (cl w)) (rx w1) fs (rx w') /\ found_in c a b v
   /\ totals fs (len a) (len b)
   /\ (forall g, In g fs -> f_parameter g <> [] -> bytes_at a (f_parameter_offset g) (len (f_parameter g)) = Some (f_parameter g))
   /\ (forall g, In g fs -> f_data g <> [] -> bytes_at b (f_data_offset g) (len (f_data g)) = Some (f_data g))
   /\ (forall k, k < len a -> exists l1 e l2, Permutation (nonempty (parameter_pieces fs)) (l1 ++ e :: l2) /\ covers k e
         /\ (forall e', In e' (l1 ++ l2) -> ~ covers k e') /\ bytes_at a (fst e) (len (snd e)) = Some (snd e))
   /\ (forall k, k < len b -> exists l1 e l2, Permutation (nonempty (data_pieces fs)) (l1 ++ e :: l2) /\ covers k e
         /\ (forall e', In e' (l1 ++ l2) -> ~ covers k e') /\ bytes_at b (fst e) (len (snd e)) = Some (snd e)).
Proof. exact find_sound. Qed.
Print Assumptions C23_sound.

(** A fragment that changes a total, or repeats a displacement, is an error. *)
Theorem C23_inconsistent : forall Sv (react : Sv -> bytes -> reaction Sv) E fuel R (c : call R) w f w1 fs tp td b p g rest,
  ~ single_reply c -> (length (rx w1) < fuel)%nat ->
  request (exec E fuel c) (cl w) = Some f -> asked react w f w1 ->
  fragments_arrive (mid (cl w)) (rx w1) fs b -> fs <> [] -> collecting fs tp td ->
  reply_arrives (mid (cl w)) b p rest -> smb_reply p 0x32 0 (mid (cl w)) -> fragment_of p g ->
  ~ (f_parameter_total g = tp /\ f_data_total g = td /\ distinct (parameter_pieces (fs ++ [g])) /\ distinct (data_pieces (fs ++ [g]))) ->
  exists e, run react (exec E fuel c) w = Done (Bad (ESmb (Reassemble e))) (leaving w1 rest).
Proof. exact find_inconsistent. Qed.
Print Assumptions C23_inconsistent.

(** Enough bytes, but the pieces do not tile the blocks (overlaps, gaps, excess): an error. *)
Theorem C23_misfit : forall Sv (react : Sv -> bytes -> reaction Sv) E fuel R (c : call R) w f w1 fs g tp td rest,
  ~ single_reply c -> (length (rx w1) < fuel)%nat ->
  request (exec E fuel c) (cl w) = Some f -> asked react w f w1 ->
  fragments_arrive (mid (cl w)) (rx w1) (fs ++ [g]) rest -> collecting fs tp td ->
  f_parameter_total g = tp -> f_data_total g = td -> distinct (parameter_pieces (fs ++ [g])) -> distinct (data_pieces (fs ++ [g])) ->
  enough (fs ++ [g]) tp td -> (forall a b, ~ (split_of (fs ++ [g]) a b /\ len a = tp /\ len b = td)) ->
  exists e, run react (exec E fuel c) w = Done (Bad (ESmb (Reassemble e))) (leaving w1 rest).
Proof. exact find_misfit. Qed.
Print Assumptions C23_misfit.

(** overlapping pieces; a changed total; a repeated piece; a block that is too long *)
Example C23_example : exists w1 w2 w3 w4 e1 e2 e3 e4,
  run script (exec (env0 true) 1000 (FindFirst share0 [42]))
    (world0 [fragment 3 10 132 0 0 (first_block 2 1) (take 70 two) ++ fragment 3 10 132 10 60 [] (drop 60 two)])
  = Done (Bad (ESmb (Reassemble e1))) w1
  /\ run script (exec (env0 true) 1000 (FindFirst share0 [42]))
    (world0 [fragment 3 10 132 0 0 (first_block 2 1) (take 70 two) ++ fragment 3 10 131 10 70 [] (drop 70 two)])
  = Done (Bad (ESmb (Reassemble e2))) w2
  /\ run script (exec (env0 true) 1000 (FindFirst share0 [42]))
    (world0 [fragment 3 10 132 0 0 (first_block 2 1) (take 70 two) ++ fragment 3 10 132 10 0 [] (take 70 two)])
  = Done (Bad (ESmb (Reassemble e3))) w3
  /\ run script (exec (env0 true) 1000 (FindFirst share0 [42]))
    (world0 [fragment 3 10 132 0 0 (first_block 2 1) (two ++ [x00])])
  = Done (Bad (ESmb (Reassemble e4))) w4.
Proof. do 8 eexists. split; [runs|]. split; [runs|]. split; [runs|]. runs. Qed.

(** the hypotheses of the last two theorems: a repeated displacement; a block that is too long *)
Example C23_inconsistent_example : exists f e, let b := fragment 3 10 132 0 0 (first_block 2 1) (take 70 two) ++ fragment 3 10 132 10 0 [] (take 70 two) in
  run script (exec (env0 true) 1000 (FindFirst share0 [42])) (world0 [b])
  = Done (Bad (ESmb (Reassemble e))) (leaving (mk_world (next_client client0) [] b Open [f]) []).
Proof.
  eexists. cbv zeta. refine (C23_inconsistent _ _ _ _ _ (FindFirst share0 [42]) (world0 _) _ (mk_world (next_client client0) [] _ Open [_])
    [mk_trans2 (first_block 2 1) 10 0 (take 70 two) 132 0] 10 132
    (fragment 3 10 132 10 0 [] (take 70 two)) (fragment_message 3 10 132 10 0 [] (take 70 two)) (mk_trans2 [] 10 10 (take 70 two) 132 0)
    [] _ _ _ _ _ _ _ _ _ _ _).
  1: hyp. 1: hyp. 1: hyp. 1: hyp. 1: hyp. 1: discriminate. 1: apply collecting_one; vm_compute; auto. 1: hyp. 1: hyp.
  1: apply fragment_meant; vm_compute; reflexivity.
  intros (_ & _ & _ & H). inversion H as [|x l Hn Hd]. apply Hn. left. reflexivity.
Qed.
Example C23_misfit_example : exists f e, let b := fragment 3 10 132 0 0 (first_block 2 1) (two ++ [x00]) in
  run script (exec (env0 true) 1000 (FindFirst share0 [42])) (world0 [b])
  = Done (Bad (ESmb (Reassemble e))) (leaving (mk_world (next_client client0) [] b Open [f]) []).
Proof.
  eexists. cbv zeta. refine (C23_misfit _ _ _ _ _ (FindFirst share0 [42]) (world0 _) _ (mk_world (next_client client0) [] _ Open [_])
    [] (mk_trans2 (first_block 2 1) 10 0 (two ++ [x00]) 132 0) 10 132 [] _ _ _ _ _ _ _ _ _ _ _ _).
  1: hyp. 1: hyp. 1: hyp. 1: hyp. 1: cbn [app]; hyp.
  1: split; [constructor|]; split; [constructor|]; split; [constructor|]; intros [|x l] fs2 H Hn; [contradiction|discriminate H].
  1: reflexivity. 1: reflexivity. 1: constructor; [intros []|constructor]. 1: constructor; [intros []|constructor].
  1: split; vm_compute; discriminate.
  intros a b ((_ & _ & _ & l & Hp & Ht) & _ & Hb). apply Permutation_sym, Permutation_length_1_inv in Hp. subst l.
  inversion Ht as [|o d l b' Ht' E1 E2 E3]. subst. inversion Ht'. subst. vm_compute in Hb. discriminate Hb.
Qed.

(** C24: a successful search result has as many entries as announced, and at least one
    unless the search is over. *)
Theorem C24_first : forall Sv (react : Sv -> bytes -> reaction Sv) E fuel s pattern w r w',
  run react (exec E fuel (FindFirst s pattern)) w = Done (Good r) w' ->
  (exists f w1 fs a b, request (exec E fuel (FindFirst s pattern)) (cl w) = Some f /\ asked react w f w1
    /\ fragments_arrive (mid (cl w)) (rx w1) fs (rx w') /\ split_of fs a b
    /\ u16_at a 2 = Some (len (ff_info r)) /\ u16_at a 0 = Some (ff_sid r))
  /\ (ff_info r = [] -> ff_end r = true).
Proof. exact first_counts. Qed.
Print Assumptions C24_first.

Theorem C24_next : forall Sv (react : Sv -> bytes -> reaction Sv) E fuel s sid name w r w',
  run react (exec E fuel (FindNext s sid name)) w = Done (Good r) w' ->
  (exists f w1 fs a b, request (exec E fuel (FindNext s sid name)) (cl w) = Some f /\ asked react w f w1
    /\ fragments_arrive (mid (cl w)) (rx w1) fs (rx w') /\ split_of fs a b
    /\ u16_at a 0 = Some (len (fn_info r)))
  /\ (fn_info r = [] -> fn_end r = true).
Proof. exact next_counts. Qed.
Print Assumptions C24_next.

(** If list crashes, one of its searches crashed; taking the last name never does. *)
Theorem C24_list : forall Sv (react : Sv -> bytes -> reaction Sv) E fuel s pattern w w',
  run react (list_dir E fuel s pattern) w = Crashed w' ->
  exists v, run react (exec E fuel (FindFirst s pattern)) v = Crashed w'
   \/ exists sid name, run react (exec E fuel (FindNext s sid name)) v = Crashed w'.
Proof. exact list_crash. Qed.
Print Assumptions C24_list.

(** an announced count that is wrong; no entries although the search is not over *)
Example C24_example : exists w1 w2 e1 e2,
  run script (list_dir (env0 true) 1000 share0 [42]) (world0 [fragment 3 10 132 0 0 (first_block 3 1) two]) = Done (Bad (ESmb e1)) w1
  /\ run script (list_dir (env0 true) 1000 share0 [42]) (world0 [fragment 3 10 0 0 0 (first_block 0 0) []]) = Done (Bad (ESmb e2)) w2.
Proof. do 4 eexists. split; [runs|]. runs. Qed.

(** a listing that crashes: an entry whose name has an odd number of bytes *)
Example C24_list_example : exists w', run script (list_dir (env0 true) 1000 share0 [42])
    (world0 [fragment 3 10 65 0 0 (first_block 1 1) (le 4 0 ++ entry [x61])]) = Crashed w'.
Proof. eexists. runs. Qed.

(** C25: a directory delivered in any number of batches, each asked for with the first
    reply's id and the last name so far, is returned completely and in order. *)
Theorem C25_whole : forall Sv (react : Sv -> bytes -> reaction Sv) E fuel s pattern sid w l w1 ls w',
  (length ls <= fuel)%nat ->
  searched react E fuel (FindFirst s pattern) w (mk_found sid false l) w1 -> batches react E fuel s sid l w1 ls w' ->
  run react (list_dir E fuel s pattern) w = Done (Good (l ++ concat ls)) w'.
Proof. exact list_whole. Qed.
Print Assumptions C25_whole.

Theorem C25_single : forall Sv (react : Sv -> bytes -> reaction Sv) E fuel s pattern sid w l w1,
  searched react E fuel (FindFirst s pattern) w (mk_found sid true l) w1 ->
  run react (list_dir E fuel s pattern) w = Done (Good l) w1.
Proof. exact list_single. Qed.
Print Assumptions C25_single.

(** Conversely every success is of this form. *)
Theorem C25_converse : forall Sv (react : Sv -> bytes -> reaction Sv) E fuel s pattern w v w',
  run react (list_dir E fuel s pattern) w = Done (Good v) w' ->
  exists sid l w1,
   (run react (exec E fuel (FindFirst s pattern)) w = Done (Good (mk_found sid true l)) w' /\ v = l)
   \/ (run react (exec E fuel (FindFirst s pattern)) w = Done (Good (mk_found sid false l)) w1
       /\ exists ls, batched react E fuel s sid l w1 ls w' /\ v = l ++ concat ls).
Proof. exact list_parts. Qed.
Print Assumptions C25_converse.

(** three batches; the second request names b, the third again b (an empty batch would end it) *)
Example C25_example : match run script (list_dir (env0 true) 1000 share0 [42])
    (world0 [fragment 3 10 132 0 0 (first_block 2 0) two;
             fragment 4 8 132 0 0 (next_block 2 0) two_long;
             fragment 5 8 66 0 0 (next_block 1 1) (le 4 66 ++ entry [x63; x00])]) with
  | Done (Good l) w => l = [info [97]; info [98]; info [97]; info [98]; info [99]]
      /\ tl w = Open /\ rx w = []
      /\ map Some (tx w) = [request (exec (env0 true) 5 (FindFirst share0 [42])) client0;
                  request (exec (env0 true) 5 (FindNext share0 77 [98])) (next_client client0);
                  request (exec (env0 true) 5 (FindNext share0 77 [98])) (next_client (next_client client0))]
  | _ => False
  end.
Proof. vm_compute. auto. Qed.

(** the hypotheses: a listing of two batches; one of a single batch *)
Example C25_hyp_example : exists w1 w', run script (list_dir (env0 true) 1000 share0 [42])
    (world0 [fragment 3 10 132 0 0 (first_block 2 0) two; fragment 4 8 132 0 0 (next_block 2 1) two_long]) = Done (Good [info [97]; info [98]; info [97]; info [98]]) w1
  /\ run script (list_dir (env0 true) 1000 share0 [42]) (world0 [fragment 3 10 132 0 0 (first_block 2 1) two]) = Done (Good [info [97]; info [98]]) w'.
Proof.
  do 2 eexists. split.
  - refine (C25_whole _ _ _ _ _ _ 77 _ [info [97]; info [98]] _ [[info [97]; info [98]]] _ _ _ _).
    1: hyp.
    1: do 2 eexists; exists [mk_trans2 (first_block 2 0) 10 0 two 132 0], (first_block 2 0), two, []; split; [|split; [|split; [|split; [|split; [|split; [|split; [|reflexivity]]]]]]];
       [vm_compute; reflexivity|apply asked0|hyp|cbn [rx]; hyp|apply split_one; discriminate|apply completes_one|hyp].
    apply b_last with (name := [98]); [exists [info [97]], (info [98]); split; reflexivity|].
    do 2 eexists.
    exists [mk_trans2 (next_block 2 1) 8 0 two_long 132 0], (next_block 2 1), two_long, []. split; [|split; [|split; [|split; [|split; [|split; [|split; [|reflexivity]]]]]]];
      [vm_compute; reflexivity|refine (asked_next _ _ _ _ _ _)|hyp|cbn [rx app]; hyp|apply split_one; discriminate|apply completes_one|hyp].
  - refine (C25_single _ _ _ _ _ _ 77 _ [info [97]; info [98]] _ _).
    do 2 eexists; exists [mk_trans2 (first_block 2 1) 10 0 two 132 0], (first_block 2 1), two, []; split; [|split; [|split; [|split; [|split; [|split; [|split; [|reflexivity]]]]]]];
       [vm_compute; reflexivity|apply asked0|hyp|cbn [rx]; hyp|apply split_one; discriminate|apply completes_one|hyp].
Qed.

(** C26: find_first accepts every batch encoded as the protocol says (offset to the next
    entry, zero in the last one), whatever its fragmentation ... *)
Theorem C26_first : forall Sv (react : Sv -> bytes -> reaction Sv) E fuel s pattern w f w1 fs a b rest sid over l e,
  (length (rx w1) < fuel)%nat ->
  request (exec E fuel (FindFirst s pattern)) (cl w) = Some f -> asked react w f w1 ->
  fragments_arrive (mid (cl w)) (rx w1) fs rest -> split_of fs a b -> last_completes fs (len a) (len b) ->
  protocol_batch b l -> 10 <= len a -> u16_at a 0 = Some sid -> u16_at a 2 = Some (len l) -> u16_at a 4 = Some e ->
  over = negb (e =? 0) ->
  run react (exec E fuel (FindFirst s pattern)) w = Done (Good (mk_found sid over l)) (leaving w1 rest).
Proof. exact first_batch. Qed.
Print Assumptions C26_first.

(** ... but find_next accepts none of them. *)
Theorem C26_next_refuted_always : forall Sv (react : Sv -> bytes -> reaction Sv) E fuel s sid name w f w1 fs a b rest l,
  (length (rx w1) < fuel)%nat ->
  request (exec E fuel (FindNext s sid name)) (cl w) = Some f -> asked react w f w1 ->
  fragments_arrive (mid (cl w)) (rx w1) fs rest -> split_of fs a b -> last_completes fs (len a) (len b) ->
  protocol_batch b l ->
  run react (exec E fuel (FindNext s sid name)) w = Done (Bad (ESmb InvalidData)) (leaving w1 rest).
Proof. exact next_batch. Qed.
Print Assumptions C26_next_refuted_always.

(** So no listing of a directory that takes more than one batch succeeds with a server that
    encodes as the protocol says. *)
Theorem C26_list_refuted_always : forall Sv (react : Sv -> bytes -> reaction Sv) E fuel s pattern w sid l name w1 f w2 fs a b rest l',
  (length (rx w2) < fuel)%nat ->
  run react (exec E fuel (FindFirst s pattern)) w = Done (Good (mk_found sid false l)) w1 -> last_name l name ->
  request (exec E fuel (FindNext s sid name)) (cl w1) = Some f -> asked react w1 f w2 ->
  fragments_arrive (mid (cl w1)) (rx w2) fs rest -> split_of fs a b -> last_completes fs (len a) (len b) ->
  protocol_batch b l' ->
  run react (list_dir E fuel s pattern) w = Done (Bad (ESmb InvalidData)) (leaving w2 rest).
Proof. exact list_batch. Qed.
Print Assumptions C26_list_refuted_always.
(** the hypotheses of the three theorems *)
Example C26_first_example : exists f, let b := fragment 3 10 132 0 0 (first_block 2 0) two in
  run script (exec (env0 true) 1000 (FindFirst share0 [42])) (world0 [b])
  = Done (Good (mk_found 77 false [info [97]; info [98]])) (leaving (mk_world (next_client client0) [] b Open [f]) []).
Proof.
  eexists. cbv zeta. refine (C26_first _ _ _ _ _ _ (world0 _) _ (mk_world (next_client client0) [] _ Open [_])
    [mk_trans2 (first_block 2 0) 10 0 two 132 0] (first_block 2 0) two [] 77 false _ 0
    _ _ _ _ _ _ _ _ _ _ _ _).
  1: hyp. 1: hyp. 1: hyp. 1: cbn [rx]; hyp. 1: hyp. 1: hyp. 1: exact batch_two. 1: vm_compute; discriminate. all: vm_compute; reflexivity.
Qed.
Example C26_next_example : exists f, let b := fragment 3 8 132 0 0 (next_block 2 1) two in
  run script (exec (env0 true) 1000 (FindNext share0 77 [98])) (world0 [b])
  = Done (Bad (ESmb InvalidData)) (leaving (mk_world (next_client client0) [] b Open [f]) []).
Proof.
  eexists. cbv zeta. refine (C26_next_refuted_always _ _ _ _ _ _ _ (world0 _) _ (mk_world (next_client client0) [] _ Open [_])
    [mk_trans2 (next_block 2 1) 8 0 two 132 0] (next_block 2 1) two [] _
    _ _ _ _ _ _ batch_two).
  1: hyp. 1: hyp. 1: hyp. 1: cbn [rx]; hyp. 1: hyp. hyp.
Qed.
Example C26_list_example : exists f g, let b := fragment 4 8 132 0 0 (next_block 2 1) two in
  run script (list_dir (env0 true) 1000 share0 [42]) (world0 [fragment 3 10 132 0 0 (first_block 2 0) two; b])
  = Done (Bad (ESmb InvalidData)) (leaving (mk_world (next_client (next_client client0)) [] b Open [f; g]) []).
Proof.
  do 2 eexists. cbv zeta. refine (C26_list_refuted_always _ _ _ _ _ _ (world0 _) 77 [info [97]; info [98]] [98] (mk_world (next_client client0) [_] [] Open [_]) _
    (mk_world (next_client (next_client client0)) [] _ Open [_; _])
    [mk_trans2 (next_block 2 1) 8 0 two 132 0] (next_block 2 1) two [] _ _ _ _ _ _ _ _ _ batch_two).
  1: hyp. 1: runs. 1: exists [info [97]], (info [98]); split; reflexivity. 1: vm_compute; reflexivity.
  1: do 3 eexists; repeat split. 1: cbn [rx]; hyp. 1: hyp. hyp.
Qed.

Definition next_world : world cifs (list bytes) := world0 [fragment 3 8 132 0 0 (next_block 2 1) two].
Theorem C26_next_refuted : exists b l, protocol_batch b l
  /\ b = two /\ l = [info [97]; info [98]]
  /\ exists w', run script (exec (env0 true) 1000 (FindNext share0 77 [98])) next_world = Done (Bad (ESmb InvalidData)) w'.
Proof.
  exists two, [info [97]; info [98]].
  split; [exact batch_two|]. split; [reflexivity|]. split; [reflexivity|]. eexists. runs.
Qed.
Print Assumptions C26_next_refuted.

(** C71: a search request asks the server to close the search at its end ... *)
Theorem C71_flag_partial : forall E fuel st R (c : call R) f, typed_client st -> typed c -> opcode c = 0x32 ->
  request (exec E fuel c) st = Some f ->
  exists p words data sub parameter, f = session_message p /\ smb_parts p words data [] /\ asks_trans2 sub p words parameter
    /\ ((sub = 1 /\ u16_at parameter 4 = Some 2) \/ (sub = 2 /\ u16_at parameter 10 = Some 2)).
Proof.
  intros E fuel st R c f Hst Hc Ho Hr. destruct (request_asks Hst Hc Hr) as (p & words & data & Hf & _ & Hp & _ & Ha).
  exists p, words, data. destruct c; try discriminate Ho; destruct Ha as (parameter & o & n & Ha);
    [exists 1, parameter; do 3 (split; [easy|]); left|exists 2, parameter; do 3 (split; [easy|]); right]; (split; [reflexivity|apply Ha]).
Qed.
Print Assumptions C71_flag_partial.
(** ... and list succeeds only when the last answer says that the end is reached.  (Missing for
    the full statement: listings that fail.) *)
Definition search_over {R} (c : call R) : R -> Prop :=
  match c with
  | FindFirst _ _ => fun r => ff_end r = true
  | FindNext _ _ _ => fun r => fn_end r = true
  | _ => fun _ => False
  end.
Theorem C71_success_partial : forall Sv (react : Sv -> bytes -> reaction Sv) E fuel s pattern w v w',
  run react (list_dir E fuel s pattern) w = Done (Good v) w' ->
  exists R (c : call R) r v0, run react (exec E fuel c) v0 = Done (Good r) w' /\ search_over c r.
Proof.
  intros Sv react E fuel s pattern w v w' H. apply list_parts in H. destruct H as (sid & l & w1 & [[H _]|(_ & ls & H & _)]).
  - exists found, (FindFirst s pattern). do 2 eexists. split; [exact H|reflexivity].
  - induction H as [sofar name w0 l0 w' _ H|sofar name w0 l0 w2 ls w' _ _ _ IH]; [|exact IH].
    exists found_next, (FindNext s sid name). do 2 eexists. split; [exact H|reflexivity].
Qed.
Print Assumptions C71_success_partial.
(** After a failure the search stays open: the server said that it is not over, the stream is in
    order, and there is no call that could close it (0x34 is FIND_CLOSE2). *)
Theorem C71_refuted : exists w sid l w1 w',
  run script (exec (env0 true) 1000 (FindFirst share0 [42])) w = Done (Good (mk_found sid false l)) w1
  /\ run script (list_dir (env0 true) 1000 share0 [42]) w = Done (Bad (ESmb InvalidData)) w' /\ rx w' = [] /\ tl w' = Open
  /\ Forall (fun f => u8_at f 8 = Some 0x32) (tx w')
  /\ forall E fuel st R (c : call R), typed_client st -> typed c -> opcode c <> 0x34 /\ forall f,
     request (exec E fuel c) st = Some f -> exists p, f = session_message p /\ u8_at p 4 = Some (opcode c).
Proof.
  exists (world0 [fragment 3 10 132 0 0 (first_block 2 0) two; fragment 4 8 132 0 0 (next_block 2 1) two]).
  do 4 eexists. split; [runs|]. split; [runs|]. split; [reflexivity|]. split; [reflexivity|].
  split; [repeat constructor|]. intros E fuel st R c Hst Hc. split; [destruct c; discriminate|]. intros f Hr.
  destruct (request_asks Hst Hc Hr) as (p & words & data & Hf & _ & _ & Hh & _). exists p. split; [exact Hf|apply Hh].
Qed.
Print Assumptions C71_refuted.
Example C71_example : typed (FindFirst share0 [42]) /\ typed_client client0
  /\ exists w', run script (list_dir (env0 true) 1000 share0 [42])
    (world0 [fragment 3 10 132 0 0 (first_block 2 1) two]) = Done (Good [info [97]; info [98]]) w'.
Proof. split; [split; vm_compute; reflexivity|]. split; [split; vm_compute; reflexivity|]. eexists. runs. Qed.

(** C27: the entries a search returns are what the bytes of the entries say: times in
    microseconds, size, attributes, name. *)
Theorem C27_entries : forall Sv (react : Sv -> bytes -> reaction Sv) E fuel R (c : call R) w v w',
  ~ single_reply c -> run react (exec E fuel c) w = Done (Good v) w' ->
  exists f w1 fs a b, request (exec E fuel c) (cl w) = Some f /\ asked react w f w1
   /\ fragments_arrive (mid (cl w)) (rx w1) fs (rx w') /\ split_of fs a b
   /\ (exists z, entries z b (entries_in c v))
   /\ forall d, In d (entries_in c v) -> exists o n e, bytes_at b o n = Some e /\ dir_of e d.
Proof. exact find_entries. Qed.
Print Assumptions C27_entries.

(** One entry by itself: decoded exactly if it is an entry, to what it says. *)
Theorem C27_entry : forall e d, dir_info_parse e = Ok d <-> dir_of e d.
Proof. exact dir_ok. Qed.
Print Assumptions C27_entry.

(** An entry that leads behind the end of the block, is too short, or whose name does
    not fit makes the search an error. *)
Theorem C27_misfit : forall Sv (react : Sv -> bytes -> reaction Sv) E fuel R (c : call R) w f w1 fs a b rest,
  (length (rx w1) < fuel)%nat ->
  request (exec E fuel c) (cl w) = Some f -> asked react w f w1 ->
  fragments_arrive (mid (cl w)) (rx w1) fs rest -> split_of fs a b -> last_completes fs (len a) (len b) ->
  bad_batch c b -> run react (exec E fuel c) w = Done (Bad (ESmb InvalidData)) (leaving w1 rest).
Proof. exact find_bad. Qed.
Print Assumptions C27_misfit.

(** times, size, an unknown attribute bit (0x40) next to a known one (0x20); a name
    longer than the entry *)
Example C27_example :
  dir_of (zeros 4 ++ le 8 100 ++ le 8 209 ++ le 8 300 ++ le 8 400 ++ le 8 5000000000 ++ zeros 8 ++ le 4 0x60 ++ le 4 4 ++ [x61; x00; x3d; x20])
    (mk_dir 10 20 30 40 [97; 0x203d] 5000000000 0x20)
  /\ bad_batch (FindFirst share0 [42]) (le 4 66 ++ entry [x61; x00] ++ le 4 0 ++ zeros 56 ++ le 4 3 ++ [x61; x00]).
Proof.
  split; [apply dir_ok; runs|]. cbn [bad_batch].
  apply (bad_later (n := 66) (e := entry [x61; x00]) (d := info [97])); [runs|reflexivity|runs|apply dir_ok; runs|].
  apply bad_last; [reflexivity|runs|runs|]. right. exists 3. split; runs.
Qed.

Example C27_misfit_example : exists f, let d := le 4 0 ++ zeros 56 ++ le 4 3 ++ [x61; x00] in let b := fragment 3 10 66 0 0 (first_block 1 1) d in
  run script (exec (env0 true) 1000 (FindFirst share0 [42])) (world0 [b])
  = Done (Bad (ESmb InvalidData)) (leaving (mk_world (next_client client0) [] b Open [f]) []).
Proof.
  eexists. cbv zeta. refine (C27_misfit _ _ _ _ _ (FindFirst share0 [42]) (world0 _) _ (mk_world (next_client client0) [] _ Open [_])
    [mk_trans2 (first_block 1 1) 10 0 (le 4 0 ++ zeros 56 ++ le 4 3 ++ [x61; x00]) 66 0] (first_block 1 1)
    (le 4 0 ++ zeros 56 ++ le 4 3 ++ [x61; x00]) [] _ _ _ _ _ _ _).
  1: hyp. 1: hyp. 1: hyp. 1: cbn [rx]; hyp. 1: hyp. 1: hyp.
  apply bad_last; [reflexivity|runs|runs|]. right. exists 3. split; runs.
Qed.

(** C60: an NT transact (notify) reply without parameters and data is accepted whatever
    the offsets say. *)
Theorem C60_notify_partial : forall Sv (react : Sv -> bytes -> reaction Sv) E fuel h w w1 p rest words data more setup op od ns,
  (length (rx w1) < fuel)%nat ->
  answered react E fuel (Notify h) w w1 p rest -> smb_parts p words data more ->
  u32_at words 3 = Some 0 -> u32_at words 7 = Some 0 -> u32_at words 11 = Some 0 -> u32_at words 15 = Some op ->
  u32_at words 23 = Some 0 -> u32_at words 27 = Some od -> u8_at words 35 = Some ns -> bytes_at words 36 (2 * ns) = Some setup ->
  run react (exec E fuel (Notify h)) w = Done (Good []) (leaving w1 rest).
Proof. exact notify_empty_call. Qed.
Print Assumptions C60_notify_partial.

(** A transaction 2 fragment is accepted only if the offset of an empty block lies in
    the data block, too. *)
Theorem C60_search_partial : forall p f, fragment_of p f -> exists words data rest op od,
  smb_parts p words data rest /\ u16_at words 8 = Some op /\ u16_at words 14 = Some od
  /\ 35 + len words <= op <= 35 + len words + len data /\ 35 + len words <= od <= 35 + len words + len data.
Proof. exact fragment_offsets. Qed.
Print Assumptions C60_search_partial.

(** the hypotheses: offsets far outside; an empty data block behind the parameters *)
Example C60_example : (exists f, let p := message 0xa0 0 3 (zeros 15 ++ le 4 9999 ++ zeros 8 ++ le 4 7777 ++ zeros 5) [] in
    run script (exec (env0 true) 1000 (Notify handle0)) (world0 [session_message p])
    = Done (Good []) (leaving (mk_world (next_client client0) [] (session_message p) Open [f]) []))
  /\ fragment_of (fragment_message 3 10 0 0 0 (first_block 0 1) []) (mk_trans2 (first_block 0 1) 10 0 [] 0 0).
Proof.
  split; [|apply fragment_meant; vm_compute; reflexivity]. eexists. cbv zeta.
  refine (C60_notify_partial _ _ _ _ _ (world0 _) (mk_world (next_client client0) [] _ Open [_]) (message 0xa0 0 3 (zeros 15 ++ le 4 9999 ++ zeros 8 ++ le 4 7777 ++ zeros 5) []) []
    (zeros 15 ++ le 4 9999 ++ zeros 8 ++ le 4 7777 ++ zeros 5) [] [] [] 9999 7777 0 _ _ _ _ _ _ _ _ _ _ _).
  1: hyp.
  1: split; [eexists; split; [vm_compute; reflexivity|apply asked0]|]; split; [cbn [rx]; hyp|]; exists 0; split; [hyp|hyp].
  1: apply message_parts; reflexivity. all: vm_compute; reflexivity.
Qed.

(** So the full statement fails: an empty search result (no data) with data offset 0 is
    refused, with offset 65 it is accepted. *)
Definition empty_found (od : N) : bytes :=
  session_message (message 0x32 0 3 (le 2 10 ++ le 2 0 ++ zeros 2 ++ le 2 10 ++ le 2 55 ++ le 2 0 ++ le 2 0 ++ le 2 od ++ le 2 0 ++ zeros 2)
    (first_block 0 1)).
Theorem C60_refuted : exists w1 w2,
  run script (exec (env0 true) 1000 (FindFirst share0 [42])) (world0 [empty_found 65]) = Done (Good (mk_found 77 true [])) w1
  /\ run script (exec (env0 true) 1000 (FindFirst share0 [42])) (world0 [empty_found 0]) = Done (Bad (ESmb InvalidData)) w2.
Proof. do 2 eexists. split; [runs|]. runs. Qed.
Print Assumptions C60_refuted.
