(** * Witness: concrete messages and tools to show that the hypotheses of the theorems can be
    met.  Nothing here is part of the model or the specification. *)
From Coq Require Import Permutation.
From Verif Require Import Base Text Win Errors Info Common Reply Ntlm Prog Client Spec SpecReply SpecCrash
  Api SpecCall Sample BaseFacts SpecFacts ReplyFacts CallFacts FindFacts DownloadFacts TransFacts.
Open Scope N_scope.

(** ** replies *)
Definition close_ok (mid : N) : bytes := message 0x04 0 mid [] [].
Definition stale : bytes := session_message (message 0x2e 0xc0000001 77 [] []) ++ keepalive.
(** a fragment carrying [a] at displacement [da] of [tp] parameter bytes and [b] at [db] of [td]
    data bytes; a directory entry *)
Definition fragment_words (tp td da db : N) (a b : bytes) : bytes :=
  le 2 tp ++ le 2 td ++ zeros 2 ++ le 2 (len a) ++ le 2 55 ++ le 2 da ++ le 2 (len b) ++ le 2 (55 + len a) ++ le 2 db ++ zeros 2.
Definition fragment_message (mid tp td da db : N) (a b : bytes) : bytes :=
  message 0x32 0 mid (fragment_words tp td da db a b) (a ++ b).
Definition fragment (mid tp td da db : N) (a b : bytes) : bytes := session_message (fragment_message mid tp td da db a b).
Definition entry (name : bytes) : bytes := zeros 56 ++ le 4 (len name) ++ name.
Definition info (name : text) : dir_info := mk_dir 0 0 0 0 name 0 0.
(** parameters of find first (search 77, two entries) and two entries, a and b *)
Definition first_block (count over : N) : bytes := le 2 77 ++ le 2 count ++ le 2 over ++ zeros 4.
Definition next_block (count over : N) : bytes := le 2 count ++ le 2 over ++ zeros 4.
Definition two : bytes := le 4 66 ++ entry [x61; x00] ++ le 4 0 ++ entry [x62; x00].
Definition two_long : bytes := le 4 66 ++ entry [x61; x00] ++ le 4 66 ++ entry [x62; x00].

(** ** hypotheses *)
Lemma asked0 r l f : asked script (world0 (r :: l)) f (mk_world (next_client client0) l r Open [f]).
Proof. exists l, r, Open. repeat split. Qed.
Lemma asked_next st r l b t f : asked script (mk_world st (r :: l) b Open t) f (mk_world (next_client st) l (b ++ r) Open (t ++ [f])).
Proof. exists l, r, Open. repeat split. Qed.
Lemma arrives0 id p rest : len p <= NB_MAX -> reply_arrives id (session_message p ++ rest) p rest.
Proof. intros H. exists []. split; [constructor|]. split; [exact H|reflexivity]. Qed.
Lemma arrives_last id p : len p <= NB_MAX -> reply_arrives id (session_message p) p [].
Proof. intros H. rewrite <- (app_nil_r (session_message p)). now apply arrives0. Qed.
Lemma skipped_stale id : id <> 77 -> skipped id stale.
Proof.
  intros Hi.
  unfold stale. eapply skip_reply with (code := 0x2e) (status := 0xc0000001) (m := 77); [|lia|vm_compute; discriminate|].
  - apply message_reply; try reflexivity. vm_compute. tauto.
  - rewrite <- (app_nil_r keepalive). constructor. constructor.
Qed.
Lemma arrives_stale id p rest : id <> 77 -> len p <= NB_MAX -> reply_arrives id (stale ++ session_message p ++ rest) p rest.
Proof. intros Hi H. exists stale. split; [now apply skipped_stale|]. split; [exact H|reflexivity]. Qed.
Lemma fragment_meant mid tp td da db a b : tp < 65536 -> td < 65536 -> da < 65536 -> db < 65536 -> 55 + len a + len b < 65536 ->
  fragment_of (fragment_message mid tp td da db a b) (mk_trans2 a tp da b td db).
Proof.
  intros H1 H2 H3 H4 H5. exists (fragment_words tp td da db a b), (a ++ b), [], (len a), 55, (len b), (55 + len a).
  assert (Hw : len (fragment_words tp td da db a b) = 20) by reflexivity.
  split; [unfold fragment_message; apply message_parts; rewrite ?Hw, ?len_app; try reflexivity; lia|].
  cbn [f_parameter_total f_data_total f_parameter_offset f_data_offset f_parameter f_data]. unfold fragment_words. change (zeros 2) with (le 2 0).
  do 8 (split; [now fields|]). change (le 2 0) with (zeros 2). fold (fragment_words tp td da db a b).
  split; (split; [lia|]; split; [rewrite len_app; lia|]); unfold fragment_message, message, body;
    (rewrite bytes_at_app2 by (rewrite len_header; lia)); rewrite len_header;
    (rewrite bytes_at_app2 by (rewrite len_le; lia)); rewrite len_le; change (N.of_nat 1) with 1;
    (rewrite bytes_at_app2 by (rewrite Hw; lia)); rewrite Hw;
    (rewrite bytes_at_app2 by (rewrite len_le; lia)); rewrite len_le; change (N.of_nat 2) with 2.
  - replace (55 - 32 - 1 - 20 - 2) with 0 by lia. apply bytes_at_exact; reflexivity.
  - rewrite bytes_at_app2 by lia. apply bytes_at_self; [lia|reflexivity].
Qed.
Lemma frag_arrive mid tp td da db a b more fs rest : mid < 65536 -> tp < 65536 -> td < 65536 -> da < 65536 -> db < 65536 ->
  55 + len a + len b < 65536 -> fragments_arrive mid more fs rest ->
  fragments_arrive mid (fragment mid tp td da db a b ++ more) (mk_trans2 a tp da b td db :: fs) rest.
Proof.
  intros H0 H1 H2 H3 H4 H5 H. eapply next_fragment; [apply arrives0| | |exact H].
  - unfold fragment_message. rewrite len_message, len_app. change (len (fragment_words tp td da db a b)) with 20. unfold NB_MAX. lia.
  - unfold fragment_message. apply message_reply; try assumption; try reflexivity. vm_compute. tauto.
  - now apply fragment_meant.
Qed.
Lemma frag_last mid tp td da db a b : mid < 65536 -> tp < 65536 -> td < 65536 -> da < 65536 -> db < 65536 ->
  55 + len a + len b < 65536 -> fragments_arrive mid (fragment mid tp td da db a b) [mk_trans2 a tp da b td db] [].
Proof.
  intros. rewrite <- (app_nil_r (fragment mid tp td da db a b)). apply frag_arrive; try assumption. constructor.
Qed.
Lemma fragment_reply mid tp td da db a b : mid < 65536 -> smb_reply (fragment_message mid tp td da db a b) 0x32 0 mid.
Proof. intros H. unfold fragment_message. apply message_reply; try assumption; try reflexivity. vm_compute. tauto. Qed.
(** one piece *)
Lemma split_one a b : a <> [] -> b <> [] -> split_of [mk_trans2 a (len a) 0 b (len b) 0] a b.
Proof.
  intros Ha Hb. assert (Hn : forall d : bytes, d <> [] -> reassembles [(0, d)] d).
  { intros d Hd. exists [(0, d)]. split.
    - destruct d; [contradiction|]. reflexivity.
    - rewrite <- (app_nil_r d) at 2. constructor. constructor. }
  split; [discriminate|]. split; [constructor; [split; reflexivity|constructor]|]. split; apply Hn; assumption.
Qed.
Lemma completes_one f tp td : last_completes [f] tp td.
Proof. intros [|x [|y l]] fs2 H H1 H2; try contradiction; [|discriminate]. injection H as _ <-. contradiction. Qed.

Lemma collecting_one a b tp td : len a < tp \/ len b < td -> collecting [mk_trans2 a tp 0 b td 0] tp td.
Proof.
  intros H. split; [constructor; [split; reflexivity|constructor]|].
  assert (Hn : forall d : bytes, distinct [(0, d)]).
  { intros d. unfold distinct, nonempty. cbn [filter]. destruct (negb _); repeat constructor. intros []. }
  split; [apply Hn|]. split; [apply Hn|]. intros [|x [|y l]] fs2 E E1; [contradiction| |discriminate].
  injection E as <- _. intros [E2 E3]. cbn in E2, E3. lia.
Qed.

(** two pieces, one after the other *)
Lemma split_two a1 a2 b1 b2 tp td : a1 <> [] -> a2 <> [] -> b1 <> [] -> b2 <> [] -> tp = len (a1 ++ a2) -> td = len (b1 ++ b2) ->
  split_of [mk_trans2 a1 tp 0 b1 td 0; mk_trans2 a2 tp (len a1) b2 td (len b1)] (a1 ++ a2) (b1 ++ b2).
Proof.
  intros Ha1 Ha2 Hb1 Hb2 -> ->. assert (Hn : forall d e : bytes, d <> [] -> e <> [] -> reassembles [(0, d); (len d, e)] (d ++ e)).
  { intros d e Hd He. exists [(0, d); (len d, e)]. split.
    - destruct d; [contradiction|]. destruct e; [contradiction|]. reflexivity.
    - rewrite <- (app_nil_r e) at 2. constructor. rewrite N.add_0_l. constructor. constructor. }
  split; [discriminate|]. split; [constructor; [split; reflexivity|constructor; [split; reflexivity|constructor]]|]. split; apply Hn; assumption.
Qed.
Lemma batch_two : protocol_batch two [info [97]; info [98]].
Proof.
  assert (Da : dir_of (entry [x61; x00]) (info [97])) by (apply dir_ok; vm_compute; reflexivity).
  assert (Db : dir_of (entry [x62; x00]) (info [98])) by (apply dir_ok; vm_compute; reflexivity).
  change two with (le 4 (4 + len (entry [x61; x00])) ++ entry [x61; x00] ++ (le 4 0 ++ entry [x62; x00])).
  apply pb_more; [exact Da|reflexivity|]. now apply pb_last.
Qed.

(** for hypotheses about concrete messages *)
Ltac reply_hyp := unfold smb_reply; split; [vm_compute; discriminate|split; [vm_compute; reflexivity|split; [vm_compute; reflexivity|split; [vm_compute; tauto|
  split; [vm_compute; reflexivity|split; [eexists; split; vm_compute; reflexivity|vm_compute; reflexivity]]]]]].
Ltac hyp := lazymatch goal with
  | |- single_reply _ => exact I
  | |- ~ single_reply _ => let HH := fresh in intros HH; exact HH
  | |- (_ < _)%nat => apply Nat.ltb_lt; vm_compute; reflexivity
  | |- request _ _ = Some _ => vm_compute; reflexivity
  | |- asked script _ _ _ => apply asked0
  | |- reply_arrives _ (rx _) _ _ => cbn [rx]; hyp
  | |- reply_arrives _ (stale ++ _) _ _ => apply arrives_stale; [discriminate|vm_compute; discriminate]
  | |- reply_arrives _ (session_message _ ++ _) _ _ => apply arrives0; vm_compute; discriminate
  | |- reply_arrives _ (session_message _) _ _ => apply arrives_last; vm_compute; discriminate
  | |- reply_arrives _ _ _ _ => unfold fragment; first [apply arrives0; vm_compute; discriminate | apply arrives_last; vm_compute; discriminate]
  | |- smb_reply _ _ _ _ => reply_hyp
  | |- op_status _ _ => left; reflexivity
  | |- ~ op_status _ _ => let HH := fresh in intros [HH|[HH _]]; vm_compute in HH; discriminate HH
  | |- fragments_arrive _ (fragment _ _ _ _ _ _ _ ++ _) (_ :: _) _ => apply frag_arrive; [reflexivity|reflexivity|reflexivity|reflexivity|reflexivity|vm_compute; reflexivity|hyp]
  | |- fragments_arrive _ (fragment _ _ _ _ _ _ _) (_ :: _) _ => apply frag_last; [reflexivity|reflexivity|reflexivity|reflexivity|reflexivity|vm_compute; reflexivity]
  | |- fragments_arrive _ _ [] _ => apply no_fragment
  | |- (_ <= _)%nat => apply Nat.leb_le; vm_compute; reflexivity
  | |- found_in (FindFirst ?s ?p) _ _ _ => refine (proj1 (@find_ok _ (FindFirst s p) find_first_parse _ _ _ eq_refl) _); vm_compute; reflexivity
  | |- found_in (FindNext ?s ?i ?n) _ _ _ => refine (proj1 (@find_ok _ (FindNext s i n) find_next_parse _ _ _ eq_refl) _); vm_compute; reflexivity
  | |- fragments_arrive _ (rx _) _ _ => cbn [rx]; hyp
  | |- last_completes _ _ _ => apply completes_one
  | |- split_of _ _ _ => apply split_one; discriminate
  end.
