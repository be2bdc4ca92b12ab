(** * OemFacts: what a server without Unicode reads in the client's requests, and the client in
    its replies *)
From Verif Require Import Base BaseFacts Text TextFacts Win Errors Common Reply Ntlm Prog Client Msg Spec SpecFacts SpecReply SpecCrash
  SpecMsg Api ReplyFacts MsgFacts ReqFacts SpecOem.
Open Scope N_scope.
Set Implicit Arguments.

Lemma oem_fun p o b b' : oem_at p o b -> oem_at p o b' -> b' = b.
Proof.
  intros (r & H & Hb) (r' & H' & Hb'). rewrite H in H'. clear H p o. revert b' Hb' H'.
  induction b as [|x b IH]; intros [|y b'] Hb' H'; cbn [app] in H'.
  - reflexivity.
  - injection H' as E _. destruct Hb'. left. now symmetry.
  - injection H' as E _. destruct Hb. now left.
  - injection H' as -> H'. f_equal. apply IH; [intros ?; apply Hb; now right|intros ?; apply Hb'; now right|exact H'].
Qed.
Lemma oem_only p o b : oem_at p o b -> forall b', oem_at p o b' <-> b' = b.
Proof. intros H b'. split; [now apply oem_fun|now intros ->]. Qed.

(** characters below 128 *)
Lemma plain_byte c : 0 < c < 128 -> n2b c <> x00 /\ n2b (c / 256) = x00 /\ c mod 256 = c.
Proof.
  intros H. assert (Hm : c mod 256 = c) by (apply N.mod_small; lia). split; [|split; [|exact Hm]].
  - intros E. assert (b2n (n2b c) = 0) by now rewrite E. rewrite b2n_n2b in H0. lia.
  - replace (c / 256) with 0 by (symmetry; apply N.div_small; lia). reflexivity.
Qed.
Lemma plain_clean s : plain s -> ~ In x00 (plain_bytes s).
Proof.
  intros H. induction H as [|c s Hc _ IH]; [intros []|]. cbn [plain_bytes map]. intros [E|E]; [|now apply IH].
  now apply (proj1 (plain_byte Hc)).
Qed.
Lemma plain_str s : plain s -> str s.
Proof. unfold str. intros H. eapply Forall_impl; [|exact H]. intros c Hc. cbn in Hc |- *. unfold char. lia. Qed.
Lemma plain_utf16 s u : plain s -> utf16_of s u -> u = s.
Proof.
  intros Hp H. induction H as [|c s u Hc _ IH|c h l s u H1 H2 H3 _ _]; [reflexivity| |].
  - inversion_clear Hp as [|? ? ? Hs]. f_equal. now apply IH.
  - exfalso. inversion_clear Hp as [|? ? H' ?]. lia.
Qed.
Lemma plain_wide s b : plain s -> utf16le_of s b -> b = units_le s.
Proof. intros Hp (u & H & ->). now rewrite (plain_utf16 Hp H). Qed.
Lemma plain_utf8 s b : plain s -> utf8_of s b -> b = plain_bytes s.
Proof.
  intros Hp H. apply utf8_of_inv in H. destruct H as [_ ->]. induction Hp as [|c s Hc _ IH]; [reflexivity|].
  unfold utf8 in *. cbn [flat_map plain_bytes map]. rewrite IH. unfold utf8_char, plain_bytes. destruct (N.ltb_spec c 0x80); [reflexivity|lia].
Qed.
Lemma plain_windows s q : plain s -> windows_path s q -> plain q.
Proof.
  intros Hs H. induction H as [|a b s q Hab _ IH]; [constructor|]. inversion_clear Hs. constructor; [lia|now apply IH].
Qed.

(** a UTF-16 string, read byte by byte *)
Lemma wide_oem p o n s : plain s -> wide_at p o n s -> oem_at p o (plain_bytes (firstn 1 s)).
Proof.
  intros Hs (_ & b & Hb & H). apply (plain_wide Hs) in Hb. subst b. apply bytes_at_some in H. destruct H as [Hl H].
  assert (Hd : drop o p = (units_le s ++ [x00; x00]) ++ drop n (drop o p)).
  { rewrite H. unfold take, drop. symmetry. apply firstn_skipn. }
  destruct Hs as [|c s Hc Hs].
  - eexists. split; [rewrite Hd; reflexivity|intros []].
  - destruct (plain_byte Hc) as (H1 & H2 & _). cbn [units_le] in Hd. rewrite H2 in Hd.
    eexists. split; [rewrite Hd; reflexivity|]. cbn. intros [E|[]]. now apply H1.
Qed.
Lemma path_oem p o n path q : plain path -> windows_path path q -> path_at p o n path -> oem_at p o (plain_bytes (firstn 1 q)).
Proof.
  intros Hs Hq (q' & Hq' & H). assert (q' = q) as -> by (apply windows_path_fun in Hq, Hq'; congruence).
  eapply wide_oem; [eapply plain_windows; eassumption|exact H].
Qed.

(** the byte behind the words *)
Lemma parts_data p w d : smb_parts p w d [] -> drop (35 + len w) p = d.
Proof.
  intros (h & n & Hh & Hw & _ & _ & ->). rewrite !app_assoc, app_nil_r. apply drop_exact'.
  rewrite !len_app, Hh. change (len [n2b n]) with 1. change (len [n2b (len d); n2b (len d / 256)]) with 2. lia.
Qed.
Lemma zero_oem p o r : drop o p = x00 :: r -> oem_at p o [].
Proof. intros H. exists r. split; [exact H|intros []]. Qed.
Lemma plain_windows_inv s q : plain q -> windows_path s q -> plain s.
Proof.
  intros Hs H. induction H as [|a b s q Hab _ IH]; [constructor|]. inversion_clear Hs. constructor; [lia|now apply IH].
Qed.

(** ** the requests *)
Section Request.
Context (E : env) (fuel : nat) (st : cifs) (Hst : typed_client st).

(** the padding of open and of the login *)
Lemma session_inj p q : session_message p = session_message q -> p = q.
Proof. intros H. exact (f_equal (skipn 4) H). Qed.
Lemma pad_open R (c : call R) p : opcode c = 0xa2 -> request (exec E fuel c) st = Some (session_message p) ->
  exists r, drop 83 p = x00 :: r.
Proof.
  intros Ho H. apply request_inv in H. destruct H as (p' & pw & d & Hf & _ & _ & Hb & Hp & Hw & _). apply session_inj in Hf. subst p'.
  destruct c; try discriminate Ho; apply parts_data in Hp; rewrite Hw in Hp;
    match type of Hb with m_body (msg_of ?c) _ = _ => change (2 * wc c) with 48 in Hp end;
    change (35 + 48) with 83 in Hp; rewrite Hp; cbn [msg_of m_body msg_open] in Hb; apply open_body_ok in Hb;
    destruct Hb as (_ & _ & ->); eexists; reflexivity.
Qed.
Lemma pad_setup user domain secret p : request (exec E fuel (SetupAuth user domain secret)) st = Some (session_message p) ->
  exists r, drop (61 + len secret + len secret) p = x00 :: r.
Proof.
  intros H. apply request_inv in H. destruct H as (p' & pw & d & Hf & _ & _ & Hb & Hp & Hw & _). apply session_inj in Hf. subst p'.
  apply parts_data in Hp. rewrite Hw in Hp. change (2 * wc (SetupAuth user domain secret)) with 26 in Hp. change (35 + 26) with 61 in Hp.
  cbn [msg_of m_body msg_session_setup] in Hb. unfold session_setup_body, session_setup_with in Hb.
  apply rbind_ok in Hb. destruct Hb as (p2 & _ & Hb). apply ok_pair in Hb. destruct Hb as [_ Hb].
  assert (Hl : len (secret ++ secret) mod 2 = 0) by (rewrite len_app; replace (len secret + len secret) with (len secret * 2) by lia; now apply N.mod_mul).
  rewrite Hl in Hb. cbn [N.eqb] in Hb.
  replace (drop (61 + len secret + len secret) p) with (drop (len (secret ++ secret)) (drop 61 p)).
  - rewrite Hp, <- Hb, <- !app_assoc, (app_assoc secret secret), drop_exact. eexists. reflexivity.
  - rewrite drop_drop. f_equal. rewrite len_app. lia.
Qed.

Lemma request_found R (c : call R) s f : typed c -> use_unicode st = false -> names c s -> plain s ->
  request (exec E fuel c) st = Some f ->
  exists p words data, f = session_message p /\ smb_parts p words data [] /\ u16_at p 10 = Some 0x4843
  /\ forall b, finds c p words b <-> b = plain_bytes (found_name c s).
Proof.
  intros Hc Hu Hn Hs Hr. pose proof Hr as Hr'. apply (request_asks Hst Hc) in Hr. destruct Hr as (p & w & d & Hf & _ & Hp & Hh & Ha).
  exists p, w, d. split; [exact Hf|]. split; [exact Hp|]. rewrite Hu in Hh, Ha. split; [apply rh_flags2 in Hh; exact Hh|].
  subst f.
  assert (K : exists o, name_at c w o /\ (forall o', name_at c w o' -> o' = o) /\ oem_at p o (plain_bytes (found_name c s))).
  { destruct c; cbn [names] in Hn; try contradiction; cbn [asks] in Ha; cbn [name_at found_name];
      try (assert (Hs' : plain path) by (eapply plain_windows_inv; eassumption)).
    - destruct Ha as (_ & _ & _ & pw & _ & Hl & _ & o & n & _ & _ & -> & q & b & Hq & Hb & H).
      exists (43 + len pw). split; [eauto|]. split; [intros o' (n' & Hn' & ->); congruence|].
      assert (q = s) as -> by (apply windows_path_fun in Hq, Hn; congruence). apply (plain_utf8 Hs) in Hb. subst b.
      apply bytes_at_some in H. destruct H as [_ H]. exists (drop n (drop (43 + len pw) p)). split; [|now apply plain_clean].
      rewrite app_assoc, H. unfold take, drop. symmetry. apply firstn_skipn.
    - destruct Ha as (_ & _ & _ & pw & _ & Hl & _ & o & n & _ & _ & -> & q & b & Hq & Hb & H).
      exists (43 + len pw). split; [eauto|]. split; [intros o' (n' & Hn' & ->); congruence|].
      assert (q = s) as -> by (apply windows_path_fun in Hq, Hn; congruence). apply (plain_utf8 Hs) in Hb. subst b.
      apply bytes_at_some in H. destruct H as [_ H]. exists (drop n (drop (43 + len pw) p)). split; [|now apply plain_clean].
      rewrite app_assoc, H. unfold take, drop. symmetry. apply firstn_skipn.
    - exists 83. split; [reflexivity|]. split; [auto|]. apply pad_open in Hr'; [|reflexivity]. destruct Hr' as [r Hr']. exact (zero_oem _ _ Hr').
    - exists 83. split; [reflexivity|]. split; [auto|]. apply pad_open in Hr'; [|reflexivity]. destruct Hr' as [r Hr']. exact (zero_oem _ _ Hr').
    - destruct Ha as (_ & _ & _ & n & H & _). exists 38. split; [reflexivity|]. split; [auto|]. exact (path_oem Hs' Hn H).
    - destruct Ha as (_ & _ & n & H & _). exists 36. split; [reflexivity|]. split; [auto|]. exact (path_oem Hs' Hn H).
    - destruct Ha as (b & o & n & _ & _ & _ & _ & _ & _ & H2 & _ & H).
      exists (o + 12). split; [eauto|]. split; [intros o' (n' & Hn' & ->); congruence|].
      eapply path_oem; [|exact Hn|exact H]. eapply plain_windows_inv; eassumption.
    - destruct Ha as (b & o & n & _ & _ & _ & _ & _ & _ & H2 & _ & H). subst s.
      exists (o + 12). split; [eauto|]. split; [intros o' (n' & Hn' & ->); congruence|].
      eapply wide_oem; [exact Hs|exact H].
    - destruct Ha as (_ & _ & H1 & H2 & _). exists (61 + len secret + len secret). split; [eauto|].
      split; [intros o' (n & m & Hn' & Hm & ->); congruence|]. apply pad_setup in Hr'. destruct Hr' as [r Hr']. exact (zero_oem _ _ Hr'). }
  destruct K as (o & K1 & K2 & K3). intros b. split.
  - intros (o' & Ho & Hb). rewrite (K2 _ Ho) in Hb. exact (oem_fun K3 Hb).
  - intros ->. exists o. auto.
Qed.

Lemma map_n2b_inj s s' : plain s -> plain s' -> plain_bytes s = plain_bytes s' -> s = s'.
Proof.
  intros H. revert s'. induction H as [|c s Hc _ IH]; intros s' H'; destruct H' as [|c' s' Hc' H']; cbn [plain_bytes map]; try discriminate; [reflexivity|].
  intros G. injection G as G1 G2. apply (f_equal b2n) in G1. rewrite !b2n_n2b in G1. destruct (plain_byte Hc) as (_ & _ & E1), (plain_byte Hc') as (_ & _ & E2).
  rewrite E1, E2 in G1. subst c'. f_equal. now apply IH.
Qed.
Lemma found_plain R (c : call R) s : plain s -> plain (found_name c s).
Proof.
  intros H. destruct c; cbn [found_name]; try exact H; try constructor;
    (destruct H as [|x s Hx _]; cbn [firstn]; [constructor|repeat constructor; exact Hx || lia]).
Qed.
Lemma found_arrives R (c : call R) s : names c s -> (found_name c s = s <-> arrives c s).
Proof.
  intros Hn. assert (K : firstn 1 s = s <-> len s <= 1).
  { destruct s as [|x [|y s]]; unfold len; cbn [firstn length]; [easy|easy|]. split; [discriminate|lia]. }
  destruct c; cbn [names] in Hn; try contradiction; cbn [found_name arrives]; first [exact K|tauto|split; now intros ->].
Qed.
Lemma request_arrives R (c : call R) s f : typed c -> use_unicode st = false -> names c s -> plain s ->
  request (exec E fuel c) st = Some f ->
  exists p words data, f = session_message p /\ smb_parts p words data [] /\ u16_at p 10 = Some 0x4843
  /\ (finds c p words (plain_bytes s) <-> arrives c s).
Proof.
  intros Hc Hu Hn Hs Hr. destruct (@request_found R c s f Hc Hu Hn Hs Hr) as (p & w & d & H1 & H2 & H3 & H4).
  exists p, w, d. repeat (split; [assumption|]). rewrite H4, <- (@found_arrives R c s Hn). split.
  - intros G. symmetry. apply map_n2b_inj; [exact Hs|now apply found_plain|exact G].
  - now intros ->.
Qed.
End Request.

(** ** names in replies *)
Fixpoint pairs (s : text) : list N := match s with a :: b :: r => a + 256 * b :: pairs r | _ => [] end.
Lemma plain_units : forall s, plain s -> Nat.even (length s) = true -> plain_bytes s = units_le (pairs s) /\ Forall (fun u => u < 0xD800) (pairs s)
  /\ 2 * len (pairs s) = len s.
Proof.
  fix IH 1. intros [|a [|b s]] H He; [split; [reflexivity|split; [constructor|reflexivity]]|discriminate He|].
  inversion_clear H as [|? ? Ha H']. inversion_clear H' as [|? ? Hb Hs]. destruct (IH s Hs He) as (H1 & H2 & H3).
  cbn [plain_bytes map pairs units_le]. fold (plain_bytes s). rewrite H1. split; [|split].
  - assert (E1 : n2b a = n2b (a + 256 * b)).
    { apply b2n_inj. rewrite !b2n_n2b. replace (a + 256 * b) with (a + b * 256) by lia. now rewrite N.mod_add. }
    assert (E2 : (a + 256 * b) / 256 = b).
    { replace (a + 256 * b) with (a + b * 256) by lia. rewrite N.div_add by lia. rewrite N.div_small by lia. reflexivity. }
    now rewrite E1, E2.
  - constructor; [lia|exact H2].
  - rewrite !len_cons, <- H3. lia.
Qed.
Lemma bmp_text u : Forall (fun u => u < 0xD800) u -> utf16_of u u.
Proof. intros H. induction H; constructor; [now left|assumption]. Qed.

(** an odd number of letters panics, an even one makes half as many other letters *)
Lemma plain_odd s : plain s -> Nat.even (length s) = false -> cut_utf16 (plain_bytes s).
Proof.
  intros Hs Ho. destruct (@exists_last _ s) as (s' & x & ->); [intros ->; discriminate Ho|].
  apply Forall_app in Hs. destruct Hs as [Hs Hx]. rewrite app_length in Ho. cbn [length] in Ho. rewrite Nat.add_1_r, Nat.even_succ, <- Nat.negb_even in Ho.
  apply Bool.negb_false_iff in Ho. destruct (plain_units Hs Ho) as (H1 & H2 & _).
  exists (pairs s'), (pairs s'), [], (n2b x). split; [now apply bmp_text|]. split; [now left|].
  unfold plain_bytes. rewrite map_app, app_nil_r. fold (plain_bytes s'). now rewrite H1.
Qed.
Lemma plain_even s t : plain s -> Nat.even (length s) = true -> utf16le_of t (plain_bytes s) -> t = pairs s.
Proof.
  intros Hs He H. destruct (plain_units Hs He) as (H1 & H2 & _).
  assert (G : utf16le_of (pairs s) (plain_bytes s)) by (exists (pairs s); split; [now apply bmp_text|exact H1]).
  apply decode_utf16le_ok in H, G. congruence.
Qed.
Lemma cut_not_text b t : cut_utf16 b -> ~ utf16le_of t b.
Proof. intros H G. apply decode_utf16le_panic in H. apply decode_utf16le_ok in G. congruence. Qed.
Lemma pairs_other s : plain s -> s <> [] -> pairs s <> s.
Proof.
  intros Hs Hn E. assert (2 * length (pairs s) <= length s)%nat.
  { clear. revert s. fix IH 1. intros [|a [|b s]]; cbn [pairs length]; [lia|lia|]. specialize (IH s). lia. }
  rewrite E in H. destruct s; [now apply Hn|cbn [length] in H; lia].
Qed.

Lemma entry_odd e s : plain s -> oem_entry e s -> Nat.even (length s) = false -> dir_info_parse e = Panic.
Proof.
  intros Hs [H1 H2] Ho. apply dir_panic. exists (len s), (plain_bytes s). split; [exact H1|]. split; [exact H2|]. now apply plain_odd.
Qed.
Lemma entry_even e s d : plain s -> oem_entry e s -> dir_info_parse e = Ok d -> Nat.even (length s) = true /\ d_filename d = pairs s.
Proof.
  intros Hs [H1 H2] H. apply dir_ok in H. destruct H as (tc & ta & tw & th & attr & n & raw & _ & _ & _ & _ & _ & _ & _ & _ & _ & _ & _ & G1 & G2 & G3).
  rewrite H1 in G1. apply some_inj in G1. subst n. rewrite H2 in G2. apply some_inj in G2. subst raw.
  destruct (Nat.even (length s)) eqn:He.
  - split; [reflexivity|]. now apply plain_even.
  - exfalso. eapply cut_not_text; [apply plain_odd; eassumption|exact G3].
Qed.
Lemma entry_wrong e s d : plain s -> s <> [] -> oem_entry e s -> dir_info_parse e = Ok d -> d_filename d <> s.
Proof. intros Hs Hn He H. destruct (entry_even Hs He H) as [_ ->]. now apply pairs_other. Qed.
Lemma change_wrong b o s c : plain s -> s <> [] -> oem_change b o s -> notify_entry b o c -> fst c <> s.
Proof.
  intros Hs Hn [H1 H2] (n & raw & _ & G1 & G2 & G3). rewrite H1 in G1. apply some_inj in G1. subst n. rewrite H2 in G2. apply some_inj in G2. subst raw.
  destruct (Nat.even (length s)) eqn:He.
  - rewrite (plain_even Hs He G3). now apply pairs_other.
  - exfalso. eapply cut_not_text; [apply plain_odd; eassumption|exact G3].
Qed.
