(** * Properties C75, C76: listings that are lost *)
From Verif Require Import Base Text Win Errors Info Common Reply Ntlm Prog Client Spec SpecReply SpecCrash SpecMsg ReqFacts BaseFacts TextFacts
  MsgFacts SizeFacts Api SpecCall Flow Sample ReplyFacts CallFacts FindFacts TransFacts SpecRemote RemoteFacts RefServer RefFacts FileService
  SpecListing ListingFacts Witness P_Remote.
Open Scope N_scope.

(** C75: a search whose first batch does not say that it is the last one, and whose next request
    is answered by the status "no more files", is over; what was found should be returned.  On
    every conforming server list returns that status as an error instead; the batch is lost. *)
Theorem C75_lost_partial : forall Sv St (react : Sv -> bytes -> reaction Sv) (B : service St) abs E w s pattern l d sid st1 st2,
  conforming react B abs -> typed_client (cl w) -> idle w ->
  B _ (uid (cl w)) (OFindFirst (sh_tid s) (backslashes pattern)) (abs (srv w)) = (inl (mk_found sid false (l ++ [d])), st1) ->
  B _ (uid (cl w)) (OFindNext (sh_tid s) sid (d_filename d)) st1 = (inr SEARCH_OVER, st2) ->
  u16 (sh_tid s) -> u16 sid -> is_str pattern -> is_str (d_filename d) ->
  fits_request (use_unicode (cl w)) (FindFirst s pattern) -> fits_request (use_unicode (cl w)) (FindNext s sid (d_filename d)) ->
  room E (cl w) 2 ->
  exists k w', (forall fuel, (k <= fuel)%nat -> run react (list_dir E fuel s pattern) w = Done (Bad (ServerError (Known NO_MORE_FILES))) w')
    /\ idle w' /\ abs (srv w') = st2.
Proof. intros Sv St react B abs E w s pattern l d sid st1 st2 H. exact (@remote_ended _ B _ react abs H E w s pattern l d sid st1 SEARCH_OVER st2). Qed.
Print Assumptions C75_lost_partial.

(** such a service: a directory with two files, in one batch *)
Definition pair0 : list dir_info := [mk_dir 0 0 0 0 [97] 5 0x80; mk_dir 0 0 0 0 [98] 70 0x80].
Definition batches0 : service unit := fun R who o st =>
  match o in op R return (R + N) * unit with
  | OFindFirst _ _ => (inl (mk_found 77 false pair0), st)
  | OFindNext _ _ _ => (inr SEARCH_OVER, st)
  | _ => (inr ST_NOT_SUPPORTED, st)
  end.
Definition searched0 : world cifs unit := mk_world client0 tt [] Open [].
Theorem batches0_proper : proper batches0.
Proof.
  intros R who o st. destruct o; cbn [batches0 fst]; try (split; [reflexivity|split; discriminate]).
  split; [reflexivity|]. split; [|split; [discriminate|reflexivity]]. repeat constructor.
Qed.
Theorem C75_refuted : exists St (B : service St) w s pattern sid l st1 st2, proper B
  /\ B _ (uid (cl w)) (OFindFirst (sh_tid s) (backslashes pattern)) (srv w) = (inl (mk_found sid false l), st1)
  /\ (forall name, B _ (uid (cl w)) (OFindNext (sh_tid s) sid name) st1 = (inr SEARCH_OVER, st2))
  /\ l <> [] /\ exists k w', forall fuel, (k <= fuel)%nat ->
     run (ref_server B) (list_dir (env0 true) fuel s pattern) w = Done (Bad (ServerError (Known NO_MORE_FILES))) w'.
Proof.
  exists unit, batches0, searched0, share0, [42], 77, pair0, tt, tt. split; [exact batches0_proper|]. split; [reflexivity|].
  split; [reflexivity|]. split; [discriminate|].
  destruct (@C75_lost_partial _ _ (ref_server batches0) batches0 (fun s => s) (env0 true) searched0 share0 [42]
    [mk_dir 0 0 0 0 [97] 5 0x80] (mk_dir 0 0 0 0 [98] 70 0x80) 77 tt tt) as (k & w' & H & _).
  - apply ref_conforming, batches0_proper.
  - vm_compute. auto.
  - split; reflexivity.
  - reflexivity.
  - reflexivity.
  - reflexivity.
  - reflexivity.
  - reflexivity.
  - reflexivity.
  - vm_compute. discriminate.
  - vm_compute. discriminate.
  - intros _. vm_compute. discriminate.
  - exists k, w'. exact H.
Qed.
Print Assumptions C75_refuted.
Example C75_run : exists w', run (ref_server batches0) (list_dir (env0 true) 1000 share0 [42]) searched0
  = Done (Bad (ServerError (Known NO_MORE_FILES))) w' /\ length (tx w') = 2%nat.
Proof. eexists. split; [runs|]. runs. Qed.

(** C76: names that are not text (half of a surrogate pair) should cost at most their own entry.
    A batch with such a name never gives a result, whatever else is in it. *)
Theorem C76_search_partial : forall Sv (react : Sv -> bytes -> reaction Sv) E fuel R (c : call R) w f w1 fs a b rest,
  (length (rx w1) < fuel)%nat -> request (exec E fuel c) (cl w) = Some f -> asked react w f w1 ->
  fragments_arrive (mid (cl w)) (rx w1) fs rest -> split_of fs a b -> last_completes fs (len a) (len b) ->
  unreadable_batch c b -> forall v w', run react (exec E fuel c) w <> Done (Good v) w'.
Proof. exact find_unreadable. Qed.
Print Assumptions C76_search_partial.
Theorem C76_list_partial : forall Sv (react : Sv -> bytes -> reaction Sv) E fuel s pattern w f w1 fs a b rest,
  (length (rx w1) < fuel)%nat -> request (exec E fuel (FindFirst s pattern)) (cl w) = Some f -> asked react w f w1 ->
  fragments_arrive (mid (cl w)) (rx w1) fs rest -> split_of fs a b -> last_completes fs (len a) (len b) ->
  unreadable true b -> forall v w', run react (list_dir E fuel s pattern) w <> Done (Good v) w'.
Proof. exact list_unreadable. Qed.
Print Assumptions C76_list_partial.
(** Two replies that differ in the two bytes of one name: the first gives two entries, the
    second none. *)
Definition half : bytes := le 4 66 ++ entry [x61; x00] ++ le 4 0 ++ entry [x00; xd8].
Theorem C76_refuted : exists b b' w1 w2, unreadable true b' /\ len b = len b'
  /\ run script (list_dir (env0 true) 1000 share0 [42]) (world0 [fragment 3 10 132 0 0 (first_block 2 1) b]) = Done (Good [info [97]; info [98]]) w1
  /\ take 64 b = take 64 b'
  /\ run script (list_dir (env0 true) 1000 share0 [42]) (world0 [fragment 3 10 132 0 0 (first_block 2 1) b']) = Done (Bad (ESmb InvalidData)) w2.
Proof.
  exists two, half. eexists _, _. split.
  { eapply un_later with (n := 66) (d := info [97]); [reflexivity|reflexivity|reflexivity| |].
    - apply dir_ok. vm_compute. reflexivity.
    - apply un_last; [reflexivity|reflexivity|]. exists 2, [x00; xd8]. split; [reflexivity|]. split; [reflexivity|].
      intros s H. apply decode_utf16le_ok in H. discriminate H. }
  split; [reflexivity|]. split; [runs|]. split; [reflexivity|]. runs.
Qed.
Print Assumptions C76_refuted.
(** the hypotheses of the general theorems, in the same case *)
Example C76_ex : forall v w', run script (list_dir (env0 true) 1000 share0 [42]) (world0 [fragment 3 10 132 0 0 (first_block 2 1) half])
  <> Done (Good v) w'.
Proof.
  intros v w'. refine (C76_list_partial _ _ _ _ _ _ (world0 _) _ (mk_world (next_client client0) [] (fragment 3 10 132 0 0 (first_block 2 1) half) Open [_])
    [mk_trans2 (first_block 2 1) 10 0 half 132 0] (first_block 2 1) half [] _ _ _ _ _ _ _ _ _).
  1: hyp. 1: hyp. 1: hyp. 1: hyp. 1: hyp. 1: hyp.
  eapply un_later with (n := 66) (d := info [97]); [reflexivity|reflexivity|reflexivity| |].
  - apply dir_ok. vm_compute. reflexivity.
  - apply un_last; [reflexivity|reflexivity|]. exists 2, [x00; xd8]. split; [reflexivity|]. split; [reflexivity|].
    intros s H. apply decode_utf16le_ok in H. discriminate H.
Qed.
