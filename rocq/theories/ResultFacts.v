(** * ResultFacts: fields of results; change notifications (C44, C52) *)
From Verif Require Import Base Text Utils Win Errors Info Common Msg Reply Ntlm Prog Client Spec SpecReply SpecCrash
  Api SpecCall BaseFacts TextFacts RunFacts SpecFacts InfoFacts ClientFacts MsgFacts ReplyFacts CallFacts ReqFacts AnswerFacts.
Open Scope N_scope.
Set Implicit Arguments.
Unset Strict Implicit.

Lemma notification_unique p v1 v2 : notification_of p v1 -> notification_of p v2 -> v1 = v2.
Proof.
  intros H1 H2. assert (Hl : 32 <= len p).
  { destruct H1 as (? & ? & ? & (words & dat & rest & ? & ? & ? & ? & ? & ? & ? & Hp & _) & _).
    apply smb_parts_len in Hp. lia. }
  apply (notification_ok (mk_info CCreate (status_of_code 0) 0 0 0 0 0 0) _ Hl) in H1.
  apply (notification_ok (mk_info CCreate (status_of_code 0) 0 0 0 0 0 0) _ Hl) in H2. rewrite H1 in H2. exact (ok_inj H2).
Qed.

(** an entry, as the server sends it *)
Definition change_bytes (next : N) (c : text * notify_action) : bytes :=
  le 4 next ++ le 4 (action_number (snd c)) ++ le 4 (len (encode_utf16le (fst c))) ++ encode_utf16le (fst c).
Lemma change_entry pre next c b : str (fst c) -> len (encode_utf16le (fst c)) < 4294967296 -> next < 4294967296 ->
  u32_at (pre ++ change_bytes next c ++ b) (len pre) = Some next /\ notify_entry (pre ++ change_bytes next c ++ b) (len pre) c.
Proof.
  intros Hs Hl Hn. unfold change_bytes, notify_entry. rewrite !app_assoc_reverse. split.
  - rewrite u32_at_app2 by lia. apply u32_at_le; lia.
  - exists (len (encode_utf16le (fst c))), (encode_utf16le (fst c)). repeat split.
    + rewrite u32_at_app2 by lia. rewrite u32_at_app2 by (rewrite len_le; lia). apply u32_at_le; rewrite ?len_le; [lia|].
      destruct (snd c); cbn; lia.
    + rewrite u32_at_app2 by lia. do 2 (rewrite u32_at_app2 by (rewrite !len_le; lia)). apply u32_at_le; rewrite ?len_le; lia.
    + rewrite bytes_at_app2 by lia. do 3 (rewrite bytes_at_app2 by (rewrite !len_le; lia)). apply bytes_at_exact; rewrite ?len_le; lia.
    + now apply utf16le_encode.
Qed.
Definition reportable (c : text * notify_action) : Prop := str (fst c) /\ len (encode_utf16le (fst c)) < 4294967284.
Lemma notification_exists (l : list (text * notify_action)) : Forall reportable l -> exists b, notify_chain b 0 l.
Proof.
  intros H. assert (G : exists b, forall pre, notify_chain (pre ++ b) (len pre) l).
  { induction H as [|c l (Hs & Hl) Hf (b & IH)].
    - exists []. intros pre. rewrite app_nil_r. constructor.
    - destruct l as [|c2 l].
      + exists (change_bytes 0 c). intros pre. destruct (change_entry pre (next := 0) (c := c) [] Hs ltac:(lia) ltac:(lia)) as (H1 & H2).
        rewrite app_nil_r in H1, H2. now apply chain_last.
      + set (n := 12 + len (encode_utf16le (fst c))). exists (change_bytes n c ++ b). intros pre.
        destruct (change_entry pre (next := n) (c := c) b Hs ltac:(lia) ltac:(lia)) as (H1 & H2).
        eapply chain_more; [exact H1|lia|exact H2|].
        replace (len pre + n) with (len (pre ++ change_bytes n c))
          by (unfold change_bytes; rewrite !len_app, !len_le; unfold n; lia).
        rewrite app_assoc. apply IH. }
  destruct G as (b & G). exists b. exact (G []).
Qed.

Section Server.
Variable Sv : Type.
Variable react : Sv -> bytes -> reaction Sv.
Notation world := (world cifs Sv).
Notation run := (run react).
Variable E : env.
Variable fuel : nat.

Lemma handle_flags s path (w : world) h (w' : world) : run (exec E fuel (OpenFile s path)) w = Done (Good h) w' ->
  exists w1 p words data rest oplock disposition attributes file_type,
  answered react E fuel (OpenFile s path) w w1 p (rx w') /\ smb_parts p words data rest
  /\ u8_at words 4 = Some oplock /\ flags_of OPLOCK_BITS oplock (h_oplock h)
  /\ u32_at words 7 = Some disposition /\ flags_of DISPOSITION_BITS disposition (h_disposition h)
  /\ u32_at words 43 = Some attributes /\ flags_of FILE_ATTR_BITS attributes (h_attributes h)
  /\ u16_at words 63 = Some file_type /\ flags_of RESOURCE_BITS file_type (h_file_type h).
Proof.
  intros H. destruct (answer_good (c := OpenFile s path) I H) as (w1 & p & Ha & _ & words & data & rest & o & d & a & f & Hd).
  exists w1, p, words, data, rest, o, d, a, f. intuition.
Qed.
Lemma share_flags path (w : world) s (w' : world) : run (exec E fuel (Mount path)) w = Done (Good s) w' ->
  exists w1 p words data rest,
  answered react E fuel (Mount path) w w1 p (rx w') /\ smb_parts p words data rest
  /\ rights_of words 6 (sh_access_rights s) /\ rights_of words 10 (sh_guest_rights s).
Proof.
  intros H. destruct (answer_good (c := Mount path) I H) as (w1 & p & Ha & _ & words & data & rest & o & d & a & f & Hd).
  exists w1, p, words, data, rest. intuition.
Qed.
Lemma dir_flags s path (w : world) h (w' : world) : run (exec E fuel (OpenDir s path)) w = Done (Good h) w' ->
  exists w1 p words data rest oplock disposition attributes file_type,
  answered react E fuel (OpenDir s path) w w1 p (rx w') /\ smb_parts p words data rest
  /\ u8_at words 4 = Some oplock /\ flags_of OPLOCK_BITS oplock (h_oplock h)
  /\ u32_at words 7 = Some disposition /\ flags_of DISPOSITION_BITS disposition (h_disposition h)
  /\ u32_at words 43 = Some attributes /\ flags_of FILE_ATTR_BITS attributes (h_attributes h)
  /\ u16_at words 63 = Some file_type /\ flags_of RESOURCE_BITS file_type (h_file_type h).
Proof.
  intros H. destruct (answer_good (c := OpenDir s path) I H) as (w1 & p & Ha & _ & words & data & rest & o & d & a & f & Hd).
  exists w1, p, words, data, rest, o, d, a, f. intuition.
Qed.
Lemma share_password_flags password path (w : world) s (w' : world) : run (exec E fuel (MountPassword password path)) w = Done (Good s) w' ->
  exists w1 p words data rest,
  answered react E fuel (MountPassword password path) w w1 p (rx w') /\ smb_parts p words data rest
  /\ rights_of words 6 (sh_access_rights s) /\ rights_of words 10 (sh_guest_rights s).
Proof.
  intros H. destruct (answer_good (c := MountPassword password path) I H) as (w1 & p & Ha & _ & words & data & rest & o & d & a & f & Hd).
  exists w1, p, words, data, rest. intuition.
Qed.
Lemma server_flags (w : world) s (w' : world) : run (exec E fuel Negotiate) w = Done (Good s) w' ->
  exists w1 p words data rest caps,
  answered react E fuel Negotiate w w1 p (rx w') /\ smb_parts p words data rest
  /\ u32_at words 19 = Some caps /\ flags_of CAPABILITY_BITS caps (s_capabilities s).
Proof.
  intros H. destruct (answer_good (c := Negotiate) I H) as (w1 & p & Ha & _ & words & data & rest & caps & d & a & f & Hd).
  exists w1, p, words, data, rest, caps. intuition.
Qed.
End Server.

Lemma entry_flags e d : dir_info_parse e = Ok d ->
  exists attr, u32_at e 52 = Some attr /\ flags_of FILE_ATTR_BITS attr (d_attributes d).
Proof.
  intros H. apply dir_ok in H. unfold dir_of in H.
  repeat match goal with H : exists _, _ |- _ => destruct H as (? & H) | H : _ /\ _ |- _ => destruct H as (? & H) end. eauto.
Qed.
