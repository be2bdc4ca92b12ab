(** * ClearFacts: passwords of shares *)
From Verif Require Import Base BaseFacts Text TextFacts Win Errors Common Reply Ntlm Prog Client Msg Spec SpecFacts SpecReply
  SpecMsg Api ReplyFacts MsgFacts ReqFacts SpecClear.
Open Scope N_scope.
Set Implicit Arguments.

Lemma shows_one f a b : shows_password f a -> shows_password f b -> a = b.
Proof.
  intros (_ & n & x & H1 & H2 & H3) (_ & m & y & G1 & G2 & G3). rewrite H1 in G1. apply some_inj in G1. subst m.
  rewrite H2 in G2. apply some_inj in G2. subst y. apply utf8_decode_iff in H3, G3. congruence.
Qed.
(** positions in a frame *)
Lemma head4 (a b c d : byte) : len [a; b; c; d] = 4.
Proof. reflexivity. Qed.
Lemma frame_u8 p o : u8_at (session_message p) (4 + o) = u8_at p o.
Proof. unfold session_message, nb_frame. rewrite u8_at_app2 by (rewrite head4; lia). f_equal. rewrite head4. lia. Qed.
Lemma frame_u16 p o : u16_at (session_message p) (4 + o) = u16_at p o.
Proof. unfold session_message, nb_frame. rewrite u16_at_app2 by (rewrite head4; lia). f_equal. rewrite head4. lia. Qed.
Lemma frame_bytes p o n : bytes_at (session_message p) (4 + o) n = bytes_at p o n.
Proof. unfold session_message, nb_frame. rewrite bytes_at_app2 by (rewrite head4; lia). f_equal. rewrite head4. lia. Qed.
Lemma parts_word p w d o : smb_parts p w d [] -> o + 2 <= len w -> u16_at p (33 + o) = u16_at w o.
Proof.
  intros (h & n & Hh & _ & _ & _ & ->) Ho. rewrite app_assoc, u16_at_app2 by (rewrite len_app, Hh; change (len [n2b n]) with 1; lia).
  replace (33 + o - len (h ++ [n2b n])) with o by (rewrite len_app, Hh; change (len [n2b n]) with 1; lia).
  now apply u16_at_app1.
Qed.

Lemma mount_shows E fuel st path password f : typed_client st -> typed (MountPassword path password) -> password <> [] ->
  request (exec E fuel (MountPassword path password)) st = Some f -> shows_password f password.
Proof.
  intros Hs Hc Hn Hr. apply (request_asks Hs Hc) in Hr. destruct Hr as (p & w & d & -> & _ & Hp & Hh & Ha).
  cbn [asks] in Ha. destruct Ha as (Hw & _ & _ & pw & Hpw & Hl & Hb & _).
  assert (Hlt : 0 < len password) by (destruct password; [now destruct Hn|unfold len; cbn [length]; lia]).
  apply N.ltb_lt in Hlt. rewrite Hlt in Hpw. split.
  - apply rh_code in Hh. change 8 with (4 + 4). rewrite frame_u8. exact Hh.
  - exists (len pw), pw. split; [|split; [|exact Hpw]].
    + change 43 with (4 + (33 + 6)). rewrite frame_u16, (@parts_word p w d 6 Hp); [exact Hl|]. rewrite Hw. vm_compute. discriminate.
    + change 47 with (4 + 43). now rewrite frame_bytes.
Qed.
Lemma mount_empty E fuel path : exec E fuel (MountPassword path []) = exec E fuel (Mount path).
Proof. reflexivity. Qed.
