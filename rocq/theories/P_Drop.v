(** * Futures dropped at any await point: C70 *)
From Verif Require Import Base Text Win Errors Common Reply Ntlm Prog Client Spec SpecReply SpecMsg Api SpecCall Flow Sample BaseFacts RunFacts ReplyFacts
  CallFacts FlowFacts SpecDrop DropFacts P_Calls Witness.
Open Scope N_scope.

(** C70: whatever a dropped call leaves behind is one of three things: its multiplex id is used
    up and nothing written; a proper part of its request is written; its request is written and
    complete frames and at most a part of one more are consumed. *)
Theorem C70_left_partial : forall Sv (react : Sv -> bytes -> reaction Sv) E fuel R (c : call R) w v,
  dropped react (exec E fuel c) w v ->
  exists f, request (exec E fuel c) (cl w) = Some f /\ (left_unsent w v \/ left_cut react f w v \/ left_waiting react f w v).
Proof. exact call_dropped. Qed.
Print Assumptions C70_left_partial.

(** As long as no future is dropped inside a write and the stream does not fail, everything
    written on a connection is whole requests of the calls made on it.  (Missing for the full
    statement: futures dropped inside a write.) *)
Theorem C70_whole_partial : forall Sv (react : Sv -> bytes -> reaction Sv) E fuel w l v,
  conn react E fuel true w l v -> exists fs, tx v = tx w ++ fs
  /\ forall f, In f fs -> exists R (c : call R) st, In (existT call R c) l /\ is_request E st c f.
Proof. exact conn_whole. Qed.
Print Assumptions C70_whole_partial.

(** a change notification is awaited and dropped, and the handle closed *)
Example C70_example : exists u, conn script (env0 true) 200 true (world0 [[]; session_message (close_ok 4)])
  [existT call _ (Notify handle0); existT call _ (Close handle0)] u /\ length (tx u) = 2%nat.
Proof.
  destruct (request (exec (env0 true) 200 (Notify handle0)) client0) as [f|] eqn:Hf; [|vm_compute in Hf; discriminate].
  assert (Hl : exists n, len f = n /\ 0 < n) by (vm_compute in Hf; injection Hf as <-; eexists; split; reflexivity).
  destruct Hl as (n & Hn & Hp).
  exists (mk_world (next_client (next_client client0)) [] [] Open
    [f; match request (exec (env0 true) 200 (Close handle0)) (next_client client0) with Some f => f | None => [] end]). split.
  - apply cn_call with (l := [existT call _ (Notify handle0)]) (v := mk_world (next_client client0) [session_message (close_ok 4)] [] Open [f]) (a := Good tt).
    + apply cn_drop with (l := []) (v := world0 [[]; session_message (close_ok 4)]); [constructor| |].
      * assert (Ht : take (len f) f = f) by (apply take_all, N.le_refl).
        rewrite <- Ht.
        refine (proj2 (@dropped_write _ script _ _ _ _ (world0 [[]; session_message (close_ok 4)]) _ Hf) (len f) _ [] Open [] Open _ eq_refl eq_refl). lia.
      * intros _ g Hg (m & s & inc & t & H1 & _ & H3). change (cl (world0 [[]; session_message (close_ok 4)])) with client0 in Hg.
        rewrite Hf in Hg. injection Hg as <-. destruct (deliver _ _ inc t) as [buf t']. injection H3 as _ _ _ H3.
        apply (f_equal len) in H3. rewrite len_take in H3. lia.
    + clear. vm_compute. reflexivity.
    + discriminate.
  - reflexivity.
Qed.

(** Dropped inside a write, a call makes the server see a request that nobody made.  Here the
    file foobar is to be deleted, and the future is dropped after 48 of the 56 bytes; then a
    handle is closed.  What is on the wire is a request to delete the file foo. *)
Theorem C70_refuted : exists u p rest words name junk,
  conn script (env0 true) 200 false (world0 []) [existT call _ (Delete share0 [102; 111; 111; 98; 97; 114]); existT call _ (Close handle0)] u
  /\ concat (tx u) = session_message p ++ rest
  /\ request_header p 0x06 0xc843 5 7 3 /\ smb_parts p words ([x04] ++ name ++ [x00; x00] ++ junk) []
  /\ utf16le_of [102; 111; 111] name.
Proof.
  set (c := Delete share0 [102; 111; 111; 98; 97; 114]).
  assert (Hf : exists f, request (exec (env0 true) 200 c) client0 = Some f) by (eexists; vm_compute; reflexivity). destruct Hf as (f & Hf).
  assert (Hg : exists g, request (exec (env0 true) 200 (Close handle0)) (next_client client0) = Some g) by (eexists; vm_compute; reflexivity).
  destruct Hg as (g & Hg).
  assert (Hlf : len f = 56) by (revert Hf; vm_compute; intros [= <-]; reflexivity).
  assert (Hlg : len g = 45) by (revert Hg; vm_compute; intros [= <-]; reflexivity).
  exists (mk_world (next_client (next_client client0)) [] [] Open ([take 48 f] ++ [take (len g) g])).
  exists (take 52 (drop 4 (take 48 f ++ g))), (drop 8 g), (take 2 (drop 37 f)), (take 6 (drop 42 f)), (take 6 (drop 2 g)).
  split; [|].
  - apply cn_drop with (l := [existT call _ c]) (v := mk_world (next_client client0) [] [] Open [take 48 f]); [| |discriminate].
    + apply cn_drop with (l := []) (v := world0 []); [constructor| |discriminate].
      refine (proj2 (@dropped_write _ script _ _ _ _ (world0 []) _ Hf) 48 _ [] Open [] Open _ eq_refl eq_refl). lia.
    + refine (proj2 (@dropped_write _ script _ _ _ _ (mk_world (next_client client0) [] [] Open [take 48 f]) _ Hg) (len g) _ [] Open [] Open _ eq_refl eq_refl). lia.
  - revert Hf Hg. clear. vm_compute request. intros [= <-] [= <-]. split; [vm_compute; reflexivity|]. split; [split; vm_compute; try reflexivity; discriminate|].
    split.
    + match goal with |- smb_parts ?p _ _ _ => exists (take 32 p), 1 end. repeat (split; [vm_compute; reflexivity|]). vm_compute. reflexivity.
    + exists [102; 111; 111]. split; [|vm_compute; reflexivity]. repeat (apply utf16_bmp; [left; reflexivity|]). constructor.
Qed.
Print Assumptions C70_refuted.
