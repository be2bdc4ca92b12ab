(** * NtlmFacts: NTLM messages, responses, DES keys (C34, C35, C37-C39) *)
From Verif Require Import Base Text Utils Win Errors Info Common Msg Reply Ntlm Prog Client Spec SpecReply SpecCrash
  Api SpecCall SpecNtlm BaseFacts TextFacts RunFacts SpecFacts InfoFacts ReplyFacts.
Open Scope N_scope.
Set Implicit Arguments.
Unset Strict Implicit.

(** ** type 2 *)
Lemma slice_bytes E a n b : @slice E a (a + n) b = match bytes_at b a n with Some r => Ok r | None => Panic end.
Proof.
  unfold slice, bytes_at. destruct (N.leb_spec a (a + n)); [|lia]. cbn [andb].
  destruct (a + n <=? len b); [|reflexivity]. do 2 f_equal. lia.
Qed.
Definition challenge_tail (m : bytes) : res ntlm_error challenge_msg :=
  let flags := fld 4 m 20 in
  match bytes_at m (fld 4 m 16) (fld 2 m 12) with
  | None => Panic
  | Some raw =>
    let* target := if N.testbit flags 0 then map_err (fun _ => InvalidPacket) (decode_utf16le raw)
                   else ok_or (utf8_decode raw) InvalidPacket in
    match bytes_at m (fld 4 m 44) (fld 2 m 40) with
    | None => Panic
    | Some i => Ok (mk_challenge target (N.land flags NTLM_BITS) (take 8 (drop 24 m)) i)
    end
  end.
Lemma trunc_ntlm v : truncate_bits NtlmFlags_all v = N.land v NTLM_BITS.
Proof. apply trunc_eq. vm_compute. reflexivity. Qed.
Lemma challenge_parse_eq m : challenge_parse m =
  if len m <? 8 then Panic else
  if negb (if list_eq_dec Byte.byte_eq_dec (take 8 m) SIGNATURE then true else false) then Err InvalidPacket else
  if len m <? 12 then Panic else
  if negb (fld 4 m 8 =? 2) then Err InvalidPacket else
  if len m <? 48 then Panic else challenge_tail m.
Proof.
  unfold challenge_parse. change (len NTLMSSP_MAGIC) with 8. unfold copy_to_bytes at 1.
  destruct (N.ltb_spec (len m) 8) as [H|H]; [reflexivity|]. cbn [rbind].
  change NTLMSSP_MAGIC with SIGNATURE.
  destruct (list_eq_dec Byte.byte_eq_dec (take 8 m) SIGNATURE) as [_|_]; [|reflexivity]. cbn [negb].
  destruct (N.ltb_spec (len m) 12) as [H1|H1]; [rewrite (s32 _ (b := m) (o := 8)) by lia; reflexivity|]. rd1.
  change NTLM_MSG_CHALLENGE with 2. destruct (fld 4 m 8 =? 2); [|reflexivity]. cbn [negb].
  unfold sec_parse.
  destruct (N.ltb_spec (len m) 48) as [H2|H2].
  - repeat first [rd_short1 | progress cbn [rbind]
      | unfold copy_to_bytes; rewrite len_drop;
        match goal with |- context [len m - ?o <? ?n] =>
          destruct (N.ltb_spec (len m - o) n); [reflexivity|]; cbn [rbind]; rewrite (drop_drop n o m);
          let o' := eval vm_compute in (o + n) in change (o + n) with o' end ].
    exfalso; lia.
  - rd. unfold copy_to_bytes. rewrite len_drop. destruct (N.ltb_spec (len m - 24) 8); [lia|]. cbn [rbind].
    rewrite drop_drop. change (24 + 8) with 32. rd. unfold challenge_tail, sec_extract_string, sec_extract.
    cbn [sb_position sb_length]. rewrite !slice_bytes. cbv zeta. rewrite trunc_ntlm.
    change NF_UNICODE with (2 ^ 0). rewrite contains_pow2.
    replace (N.testbit (N.land (fld 4 m 20) NTLM_BITS) 0) with (N.testbit (fld 4 m 20) 0)
      by (rewrite N.land_spec; change (N.testbit NTLM_BITS 0) with true; now rewrite andb_true_r).
    destruct (bytes_at m (fld 4 m 16) (fld 2 m 12)) as [raw|]; [|reflexivity]. cbn [rbind].
    destruct (if N.testbit (fld 4 m 20) 0 then _ else _) as [t|e|]; try reflexivity. cbn [rbind].
    destruct (bytes_at m (fld 4 m 44) (fld 2 m 40)); reflexivity.
Qed.
Lemma target_ok (u : bool) raw t : (if u then map_err (fun _ => InvalidPacket) (decode_utf16le raw)
    else ok_or (utf8_decode raw) InvalidPacket) = Ok t <-> oem_or_wide u t raw.
Proof.
  unfold oem_or_wide. destruct u.
  - rewrite map_err_ok. apply decode_utf16le_ok.
  - rewrite <- utf8_decode_iff. destruct (utf8_decode raw); cbn [ok_or]; split; intros H; try discriminate H;
    [apply ok_inj in H|apply some_inj in H]; now subst.
Qed.
Lemma signature_at m : bytes_at m 0 8 = Some SIGNATURE <-> 8 <= len m /\ take 8 m = SIGNATURE.
Proof.
  unfold bytes_at. rewrite drop_0. destruct (N.leb_spec (0 + 8) (len m)) as [H|H]; split.
  - intros G. apply some_inj in G. split; [lia|exact G].
  - intros [_ ->]. reflexivity.
  - intros G. discriminate.
  - lia.
Qed.
Lemma challenge_ok m c : challenge_parse m = Ok c <-> challenge_of m c.
Proof.
  rewrite challenge_parse_eq. unfold challenge_of. split.
  - destruct (N.ltb_spec (len m) 8); [easy|].
    destruct (list_eq_dec _ _ _) as [Hs|]; [|easy]. cbn [negb]. destruct (N.ltb_spec (len m) 12); [easy|].
    destruct (N.eqb_spec (fld 4 m 8) 2) as [H2|]; [|easy]. cbn [negb]. destruct (N.ltb_spec (len m) 48); [easy|].
    unfold challenge_tail. cbv zeta. intros G.
    destruct (bytes_at m (fld 4 m 16) (fld 2 m 12)) as [raw|] eqn:Hr; [|easy]. apply rbind_ok in G. destruct G as (t & Ht & G).
    apply target_ok in Ht. destruct (bytes_at m (fld 4 m 44) (fld 2 m 40)) as [i|] eqn:Hi; [|easy].
    apply ok_inj in G. subst c. cbn [ch_flags ch_challenge ch_target ch_info].
    exists (fld 4 m 20), (fld 2 m 12), (fld 4 m 16), raw, (fld 2 m 40), (fld 4 m 44).
    rewrite !u16_fld, !u32_fld, flags_of_iff, H2 by lia. rewrite (bytes_fld (b := m) (o := 24)) by lia.
    split; [apply signature_at; split; [lia|exact Hs]|]. auto 12.
  - intros (fl & tl & ta & raw & il & ia & H1 & H2 & H3 & H4 & H5 & H6 & H7 & H8 & H9 & H10 & H11 & H12).
    apply signature_at in H1. destruct H1 as [Hl H1]. pose proof (u32_at_bound _ _ _ H9) as [Hl2 _].
    destruct (N.ltb_spec (len m) 8); [lia|]. destruct (list_eq_dec _ _ _) as [_|C]; [|contradiction]. cbn [negb].
    destruct (N.ltb_spec (len m) 12); [lia|]. destruct (N.ltb_spec (len m) 48); [lia|]. flds. rewrite <- H2. cbn [N.eqb Pos.eqb negb].
    unfold challenge_tail. cbv zeta. rewrite <- H3, <- H4, H10, <- H5. apply target_ok in H11. rewrite H11. cbn [rbind].
    rewrite <- H8, <- H9, H12. apply bytes_at_some in H7. destruct H7 as [_ H7]. rewrite <- H7, <- H6. now destruct c.
Qed.
Lemma target_panic (u : bool) raw : (if u then map_err (fun _ => InvalidPacket) (decode_utf16le raw)
    else ok_or (utf8_decode raw) InvalidPacket) = Panic <-> u = true /\ cut_utf16 raw.
Proof.
  destruct u.
  - rewrite map_err_panic, decode_utf16le_panic. intuition.
  - destruct (utf8_decode raw); cbn [ok_or]; intuition discriminate.
Qed.
Lemma challenge_crash m : challenge_parse m = Panic <-> crash_challenge m.
Proof.
  rewrite challenge_parse_eq. unfold crash_challenge. destruct (N.ltb_spec (len m) 8) as [L|L]; [intuition|].
  rewrite signature_at.
  destruct (list_eq_dec _ _ _) as [Hs|Hs]; cbn [negb]; [|split; [easy|intros [|[[_ C] _]]; [lia|contradiction]]].
  destruct (N.ltb_spec (len m) 12) as [L1|L1]; [split; [|reflexivity]; intros _; right; split; [split; [lia|exact Hs]|now left]|].
  rewrite (u32_fld (b := m) (o := 8)) by lia.
  destruct (N.eqb_spec (fld 4 m 8) 2) as [H2|H2]; cbn [negb];
    [|split; [easy|intros [|[_ [|[C _]]]]; [lia|lia|apply some_inj in C; contradiction]]].
  rewrite H2. destruct (N.ltb_spec (len m) 48) as [H3|H3].
  { split; [|reflexivity]. intros _. right. split; [split; [lia|exact Hs]|]. right. split; [reflexivity|]. now left. }
  split.
  - intros H. right. split; [split; [lia|exact Hs]|]. right. split; [reflexivity|]. right.
    exists (fld 4 m 20), (fld 2 m 12), (fld 4 m 16), (fld 2 m 40), (fld 4 m 44). rewrite !u16_fld, !u32_fld by lia.
    do 5 (split; [reflexivity|]). unfold challenge_tail in H. cbv zeta in H.
    destruct (bytes_at m (fld 4 m 16) (fld 2 m 12)) as [raw|]; [|now left]. right. exists raw. split; [reflexivity|].
    apply rbind_panic in H. destruct H as [H|(t & Ht & H)].
    + left. now apply target_panic.
    + right. apply target_ok in Ht. split; [eauto|]. now destruct (bytes_at m (fld 4 m 44) (fld 2 m 40)).
  - intros [C|[_ [C|[_ [C|(fl & tl & ta & il & ia & H4 & H5 & H6 & H7 & H8 & H)]]]]]; try lia. flds. subst fl tl ta il ia.
    unfold challenge_tail. cbv zeta. destruct H as [->|(raw & -> & [[Hu Hc]|[[s Ho] Hi]])]; [reflexivity| |].
    + assert (G := proj2 (target_panic (N.testbit (fld 4 m 20) 0) raw) (conj Hu Hc)). now rewrite G.
    + apply target_ok in Ho. rewrite Ho. cbn [rbind]. now rewrite Hi.
Qed.
(** wrong signature or type *)
Lemma challenge_wrong m : 12 <= len m -> bytes_at m 0 8 <> Some SIGNATURE \/ u32_at m 8 <> Some 2 ->
  challenge_parse m = Err InvalidPacket.
Proof.
  intros Hl H. rewrite signature_at in H. rewrite challenge_parse_eq. destruct (N.ltb_spec (len m) 8); [lia|].
  destruct (list_eq_dec _ _ _) as [Hs|Hs]; cbn [negb]; [|reflexivity]. destruct (N.ltb_spec (len m) 12); [lia|].
  destruct H as [C|H]; [exfalso; apply C; split; [lia|exact Hs]|]. rewrite (u32_fld (b := m) (o := 8)) in H by lia.
  destruct (N.eqb_spec (fld 4 m 8) 2) as [H2|H2]; [|reflexivity]. rewrite H2 in H. now contradiction H.
Qed.
Lemma challenge_rejected m : (8 <= len m /\ bytes_at m 0 8 <> Some SIGNATURE) \/ (12 <= len m /\ u32_at m 8 <> Some 2) ->
  challenge_parse m = Err InvalidPacket.
Proof.
  intros [[Hl H]|[Hl H]]; [|apply challenge_wrong; auto]. rewrite challenge_parse_eq.
  destruct (N.ltb_spec (len m) 8); [lia|]. destruct (list_eq_dec _ _ _) as [e|e]; [|reflexivity].
  exfalso. apply H. apply signature_at. auto.
Qed.
Lemma challenge_unique m c c' : challenge_of m c -> challenge_of m c' -> c = c'.
Proof. intros H H'. apply challenge_ok in H, H'. rewrite H in H'. exact (ok_inj H'). Qed.

(** ** types 1 and 3 *)
Lemma sec_write_eq s o : sec_write s o =
  if (sb_length s <? 65536) && (sb_capacity s <? 65536) && (o + sb_position s <? 4294967296)
  then Ok (le 2 (sb_length s) ++ le 2 (sb_capacity s) ++ le 4 (o + sb_position s)) else Err InputParameter.
Proof.
  unfold sec_write, try_into, fits. change (2 ^ 16) with 65536. change (2 ^ 32) with 4294967296.
  destruct (sb_length s <? 65536); [|reflexivity]. destruct (sb_capacity s <? 65536); [|reflexivity].
  destruct (o + sb_position s <? 4294967296); reflexivity.
Qed.
Definition sec_bytes (n a : N) : bytes := le 2 n ++ le 2 n ++ le 4 a.
Lemma sec_write_small n q o : n < 65536 -> o + q < 4294967296 -> sec_write (mk_sec n n q) o = Ok (sec_bytes n (o + q)).
Proof.
  intros H1 H2. rewrite sec_write_eq. cbn [sb_length sb_capacity sb_position]. destruct (N.ltb_spec n 65536); [|lia].
  cbn [andb]. destruct (N.ltb_spec (o + q) 4294967296); [reflexivity|lia].
Qed.
Lemma sec_write_big n q o : 65536 <= n -> sec_write (mk_sec n n q) o = Err InputParameter.
Proof. intros H. rewrite sec_write_eq. cbn [sb_length sb_capacity sb_position]. now destruct (N.ltb_spec n 65536); [lia|]. Qed.

Definition init_bytes (d w : bytes) : bytes :=
  SIGNATURE ++ le 4 1 ++ le 4 0x3207 ++ sec_bytes (len d) 40 ++ sec_bytes (len w) (40 + len d)
  ++ [x05; x00; x93; x08; x00; x00; x00; x0f] ++ d ++ w.
Lemma init_msg_eq domain workstation : init_msg domain workstation =
  let d := utf8 domain in let w := utf8 workstation in
  if (len d <? 65536) && (len w <? 65536) then Ok (init_bytes d w) else Err InputParameter.
Proof.
  cbv zeta. unfold init_msg. generalize (utf8 domain) (utf8 workstation). intros d w.
  unfold packet_to_bytes, packet_new, append_buffer, append_binary, append_u32.
  cbn [p_entries p_extra app base_len fold_right entry_len write_entries rbind].
  change (len NTLMSSP_MAGIC + _) with 40.
  destruct (N.ltb_spec (len d) 65536) as [Hd|Hd]; cbn [andb]; [|now rewrite sec_write_big by exact Hd].
  rewrite (sec_write_small (n := len d)) by (change (len (@nil byte)) with 0; lia). cbn [rbind].
  destruct (N.ltb_spec (len w) 65536) as [Hw|Hw]; [|now rewrite sec_write_big by exact Hw].
  rewrite sec_write_small by lia. cbn [rbind]. unfold init_bytes. change (len (@nil byte)) with 0. rewrite N.add_0_r.
  reflexivity.
Qed.
Definition response_bytes (nt d u w : bytes) : bytes :=
  SIGNATURE ++ le 4 3 ++ sec_bytes 24 52 ++ sec_bytes (len nt) 76 ++ sec_bytes (len d) (76 + len nt)
  ++ sec_bytes (len u) (76 + len nt + len d) ++ sec_bytes (len w) (76 + len nt + len d + len u)
  ++ zeros 24 ++ nt ++ d ++ u ++ w.
Definition encoded (unicode : bool) (s : text) : bytes := if unicode then encode_utf16le s else utf8 s.
Definition response_packet (nt d u w : bytes) : res ntlm_error bytes :=
  packet_to_bytes (append_buffer w (append_buffer u (append_buffer d (append_buffer nt (append_buffer (zeros 24)
    (append_u32 NTLM_MSG_RESPONSE (append_binary NTLMSSP_MAGIC packet_new))))))).
Lemma response_packet_eq nt d u w : response_packet nt d u w =
  if (len nt <? 65536) && (len d <? 65536) && (len u <? 65536) && (len w <? 65536)
  then Ok (response_bytes nt d u w) else Err InputParameter.
Proof.
  unfold response_packet, packet_to_bytes, packet_new, append_buffer, append_binary, append_u32.
  cbn [p_entries p_extra app base_len fold_right entry_len write_entries rbind].
  change (len NTLMSSP_MAGIC + _) with 52. change (len (@nil byte)) with 0. change (len (zeros 24)) with 24. rewrite !len_app, len_zeros.
  rewrite (sec_write_small (n := 24)) by lia. cbn [rbind].
  destruct (N.ltb_spec (len nt) 65536) as [Hn|Hn]; cbn [andb]; [|now rewrite sec_write_big by exact Hn].
  rewrite (sec_write_small (n := len nt)) by lia. cbn [rbind].
  destruct (N.ltb_spec (len d) 65536) as [Hd|Hd]; cbn [andb]; [|now rewrite sec_write_big by exact Hd].
  rewrite (sec_write_small (n := len d)) by lia. cbn [rbind].
  destruct (N.ltb_spec (len u) 65536) as [Hu|Hu]; cbn [andb]; [|now rewrite sec_write_big by exact Hu].
  rewrite (sec_write_small (n := len u)) by lia. cbn [rbind].
  destruct (N.ltb_spec (len w) 65536) as [Hw|Hw]; [|now rewrite sec_write_big by exact Hw].
  rewrite sec_write_small by lia. cbn [rbind]. unfold response_bytes. f_equal. rewrite app_nil_r, !app_assoc_reverse.
  replace (52 + 0) with 52 by lia. replace (52 + 24) with 76 by lia.
  replace (52 + (24 + len nt)) with (76 + len nt) by lia.
  replace (52 + (24 + len nt + len d)) with (76 + len nt + len d) by lia.
  replace (52 + (24 + len nt + len d + len u)) with (76 + len nt + len d + len u) by lia. reflexivity.
Qed.
Lemma challenge_response_eq E c a : challenge_response E c a =
  let* nt := ntlmv2_authenticate E a c in
  let u := N.testbit (ch_flags c) 0 in
  response_packet nt (encoded u (a_domain a)) (encoded u (a_user a)) (encoded u (a_workstation a)).
Proof.
  unfold challenge_response. destruct (ntlmv2_authenticate E a c) as [nt|e|]; try reflexivity. cbn [rbind]. cbv zeta.
  change NF_UNICODE with (2 ^ 0). rewrite contains_pow2. unfold encoded, append_string.
  destruct (N.testbit (ch_flags c) 0); reflexivity.
Qed.

(** the fields *)
Lemma len_sec n a : len (sec_bytes n a) = 8. Proof. reflexivity. Qed.
Lemma sec_at pre n a post m o x : m = pre ++ sec_bytes n a ++ post -> o = len pre -> n < 65536 -> a < 4294967296 ->
  x = n -> u16_at m o = Some x /\ u16_at m (o + 2) = Some x /\ u32_at m (o + 4) = Some a.
Proof.
  intros -> -> Hn Ha ->. unfold sec_bytes. rewrite !app_assoc_reverse. repeat split.
  - rewrite u16_at_app2 by lia. apply u16_at_le; lia.
  - rewrite u16_at_app2 by lia. rewrite u16_at_app2 by (rewrite len_le; lia). apply u16_at_le; rewrite ?len_le; lia.
  - rewrite u32_at_app2 by lia. do 2 (rewrite u32_at_app2 by (rewrite !len_le; lia)). apply u32_at_le; rewrite ?len_le; lia.
Qed.
Lemma bytes_there pre b post m o n : m = pre ++ b ++ post -> o = len pre -> n = len b -> bytes_at m o n = Some b.
Proof. intros -> -> ->. rewrite bytes_at_app2 by lia. apply bytes_at_exact; lia. Qed.
Lemma designates_by m o a payload : (exists pre post, m = pre ++ sec_bytes (len payload) a ++ post /\ o = len pre) ->
  (exists pre post, m = pre ++ payload ++ post /\ a = len pre) -> len payload < 65536 -> a < 4294967296 ->
  designates m o a payload.
Proof.
  intros (p1 & q1 & H1 & H2) (p2 & q2 & H3 & H4) Hl Ha. unfold designates.
  destruct (@sec_at p1 (len payload) a q1 m o (len payload) H1 H2 Hl Ha eq_refl) as (G1 & G2 & G3).
  repeat split; [exact G1|exact G2|exact G3|]. exact (bytes_there H3 H4 eq_refl).
Qed.
(** splitting a concatenation at the given piece *)
Lemma there_0 (b r : bytes) : exists pre post, b ++ r = pre ++ b ++ post /\ 0 = len pre.
Proof. exists [], r. auto. Qed.
Lemma there_end (b : bytes) : exists pre post, b = pre ++ b ++ post /\ 0 = len pre.
Proof. exists [], []. rewrite app_nil_r. auto. Qed.
Lemma there_S (x m b : bytes) o : len x <= o -> (exists pre post, m = pre ++ b ++ post /\ o - len x = len pre) ->
  exists pre post, x ++ m = pre ++ b ++ post /\ o = len pre.
Proof. intros Hx (p & q & -> & Ho). exists (x ++ p), q. rewrite app_assoc_reverse, len_app. split; [reflexivity|lia]. Qed.
Lemma there_eq (m b : bytes) o o' : o = o' -> (exists pre post, m = pre ++ b ++ post /\ o' = len pre) ->
  exists pre post, m = pre ++ b ++ post /\ o = len pre.
Proof. intros ->. auto. Qed.
Ltac lens := rewrite ?len_le, ?len_sec, ?len_zeros; repeat change (len SIGNATURE) with 8;
  repeat change (len [x05; x00; x93; x08; x00; x00; x00; x0f]) with 8.
Ltac there := first
  [ refine (there_eq _ (there_0 _ _)); lens; lia
  | refine (there_eq _ (there_end _)); lens; lia
  | apply there_S; [lens; lia|]; there ].
Lemma init_good domain workstation m : is_str domain -> is_str workstation ->
  init_msg domain workstation = Ok m -> negotiate_message domain workstation m.
Proof.
  intros Sd Sw H. rewrite init_msg_eq in H. cbv zeta in H. exists (utf8 domain), (utf8 workstation).
  split; [now apply utf8_of_utf8, is_text_str|]. split; [now apply utf8_of_utf8, is_text_str|].
  generalize dependent (utf8 domain). generalize dependent (utf8 workstation). intros w d H.
  destruct (N.ltb_spec (len d) 65536) as [Hd|Hd]; [|easy]. destruct (N.ltb_spec (len w) 65536) as [Hw|Hw]; [|easy].
  cbn [andb] in H. apply ok_inj in H. subst m. unfold init_bytes.
  split; [apply bytes_at_exact; reflexivity|].
  split; [rewrite u32_at_app2 by easy; apply u32_at_le; [reflexivity|lia]|].
  split; [do 2 rewrite u32_at_app2 by easy; apply u32_at_le; [reflexivity|lia]|].
  split; [apply designates_by; try there; lia|]. split; [apply designates_by; try there; lia|].
  split; [do 5 rewrite bytes_at_app2 by easy; apply bytes_at_exact; reflexivity|].
  rewrite !len_app. lens. lia.
Qed.
Lemma init_fits domain workstation : len (utf8 domain) < 65536 -> len (utf8 workstation) < 65536 ->
  exists m, init_msg domain workstation = Ok m.
Proof.
  intros Hd Hw. rewrite init_msg_eq. cbv zeta. destruct (N.ltb_spec (len (utf8 domain)) 65536); [|lia].
  destruct (N.ltb_spec (len (utf8 workstation)) 65536); [|lia]. cbn [andb]. eauto.
Qed.
Lemma init_too_long domain workstation : 65536 <= len (utf8 domain) \/ 65536 <= len (utf8 workstation) ->
  init_msg domain workstation = Err InputParameter.
Proof.
  intros H. rewrite init_msg_eq. cbv zeta. destruct (N.ltb_spec (len (utf8 domain)) 65536); [|reflexivity].
  destruct (N.ltb_spec (len (utf8 workstation)) 65536); [lia|reflexivity].
Qed.
Lemma encoded_ok u s : is_str s -> oem_or_wide u s (encoded u s).
Proof.
  intros H. apply is_text_str in H. unfold oem_or_wide, encoded. destruct u; [now apply utf16le_encode|now apply utf8_of_utf8].
Qed.
Lemma response_good u domain user workstation nt m : is_str domain -> is_str user -> is_str workstation ->
  response_packet nt (encoded u domain) (encoded u user) (encoded u workstation) = Ok m ->
  authenticate_message u domain user workstation nt m.
Proof.
  intros Sd Su Sw H. rewrite response_packet_eq in H. exists (encoded u domain), (encoded u user), (encoded u workstation).
  split; [now apply encoded_ok|]. split; [now apply encoded_ok|]. split; [now apply encoded_ok|].
  generalize dependent (encoded u domain). generalize dependent (encoded u user). generalize dependent (encoded u workstation).
  clear. intros w us d H.
  destruct (N.ltb_spec (len nt) 65536) as [Hn|]; [|easy]. destruct (N.ltb_spec (len d) 65536) as [Hd|]; [|easy].
  destruct (N.ltb_spec (len us) 65536) as [Hu|]; [|easy]. destruct (N.ltb_spec (len w) 65536) as [Hw|]; [|easy].
  cbn [andb] in H. apply ok_inj in H. subst m. unfold response_bytes.
  split; [apply bytes_at_exact; reflexivity|].
  split; [rewrite u32_at_app2 by easy; apply u32_at_le; [reflexivity|lia]|].
  split; [apply designates_by; rewrite ?len_zeros; try there; lia|]. 
  do 4 (split; [apply designates_by; try there; lia|]).
  rewrite !len_app. lens. lia.
Qed.
(** the clock *)
Lemma clock_ticks E X t : clock E t -> @encode_windows_time X (overflow_checks E) (now E) = Ok t.
Proof.
  intros (H0 & Ht & Hb). unfold encode_windows_time. rewrite Z.quot_div_nonneg by lia.
  set (us := (now E / 1000)%Z) in *. assert (0 <= us)%Z by (apply Z.div_pos; lia).
  destruct (Z.leb_spec (- 2 ^ 63) us); [|lia]. destruct (Z.ltb_spec us (2 ^ 63)); [|lia]. cbn [andb].
  rewrite Z.mod_small by lia. destruct (N.ltb_spec (10 * Z.to_N us) (2 ^ 64)); [now rewrite Ht|lia].
Qed.
Lemma v2_good E a c t nt : is_str (a_password a) -> is_str (a_user a) -> is_str (a_domain a) -> clock E t ->
  (ntlmv2_authenticate E a c = Ok nt <-> v2_response E (a_password a) (a_user a) (a_domain a) t (ch_challenge c) (ch_info c) nt).
Proof.
  intros Sp Su Sd Hc. unfold ntlmv2_authenticate. rewrite (@clock_ticks E _ t Hc). cbn [rbind]. unfold v2_response. split.
  - intros H. apply ok_inj in H. exists (encode_utf16le (a_password a)), (encode_utf16le (upper E (a_user a) ++ a_domain a)). eexists.
    split; [now apply utf16le_encode, is_text_str|]. split; [|split; [reflexivity|now symmetry in H]].
    apply utf16le_encode, is_text_str. rewrite is_text_app. apply andb_true_iff. split; [now apply upper_text|exact Sd].
  - intros (pw & name & tag & H1 & H2 & -> & ->). apply utf16le_of_encode in H1, H2. destruct H1 as [-> _], H2 as [-> _]. reflexivity.
Qed.
Lemma authenticate_good E a c t m : is_str (a_password a) -> is_str (a_user a) -> is_str (a_domain a) -> is_str (a_workstation a) ->
  clock E t -> challenge_response E c a = Ok m ->
  exists nt, v2_response E (a_password a) (a_user a) (a_domain a) t (ch_challenge c) (ch_info c) nt
   /\ authenticate_message (N.testbit (ch_flags c) 0) (a_domain a) (a_user a) (a_workstation a) nt m.
Proof.
  intros Sp Su Sd Sw Hc H. rewrite challenge_response_eq in H. apply rbind_ok in H. destruct H as (nt & Hn & H). exists nt.
  split; [now apply v2_good|now apply response_good].
Qed.
(** without any assumption about the clock *)
Lemma authenticate_form E a c m : is_str (a_user a) -> is_str (a_domain a) -> is_str (a_workstation a) ->
  challenge_response E c a = Ok m ->
  exists nt, authenticate_message (N.testbit (ch_flags c) 0) (a_domain a) (a_user a) (a_workstation a) nt m.
Proof.
  intros Su Sd Sw H. rewrite challenge_response_eq in H. apply rbind_ok in H. destruct H as (nt & Hn & H). exists nt. now apply response_good.
Qed.
Lemma v2_length E a c nt : ntlmv2_authenticate E a c = Ok nt -> len nt = 48 + len (ch_info c).
Proof.
  unfold ntlmv2_authenticate. intros H. apply rbind_ok in H. destruct H as (t & _ & H). apply ok_inj in H. subst nt.
  rewrite !len_app, !len_le. pose proof (hmac_len E (ntlmv2_hash E a)
    (ch_challenge c ++ [x01; x01; x00; x00; x00; x00; x00; x00] ++ le 8 t ++ rnd E ++ le 4 0 ++ ch_info c ++ le 4 0)) as H.
  apply len_eq in H. rewrite H. pose proof (rnd_len E) as G. apply len_eq in G. rewrite G.
  change (len [x01; x01; x00; x00; x00; x00; x00; x00]) with 8. lia.
Qed.
Lemma authenticate_fits E a c t : clock E t -> len (ch_info c) < 65488 ->
  let u := N.testbit (ch_flags c) 0 in
  len (encoded u (a_domain a)) < 65536 -> len (encoded u (a_user a)) < 65536 -> len (encoded u (a_workstation a)) < 65536 ->
  exists m, challenge_response E c a = Ok m.
Proof.
  cbv zeta. intros Hc Hi Hd Hu Hw. rewrite challenge_response_eq.
  destruct (ntlmv2_authenticate E a c) as [nt|e|] eqn:Hn.
  - pose proof (v2_length Hn). cbn [rbind]. cbv zeta. rewrite response_packet_eq. destruct (N.ltb_spec (len nt) 65536); [|lia].
    destruct (N.ltb_spec (len (encoded (N.testbit (ch_flags c) 0) (a_domain a))) 65536); [|lia].
    destruct (N.ltb_spec (len (encoded (N.testbit (ch_flags c) 0) (a_user a))) 65536); [|lia].
    destruct (N.ltb_spec (len (encoded (N.testbit (ch_flags c) 0) (a_workstation a))) 65536); [|lia]. cbn [andb]. eauto.
  - unfold ntlmv2_authenticate in Hn. now rewrite (@clock_ticks E _ t Hc) in Hn.
  - unfold ntlmv2_authenticate in Hn. now rewrite (@clock_ticks E _ t Hc) in Hn.
Qed.
Lemma authenticate_too_long E a c t : clock E t ->
  let u := N.testbit (ch_flags c) 0 in
  65488 <= len (ch_info c) \/ 65536 <= len (encoded u (a_domain a)) \/ 65536 <= len (encoded u (a_user a))
  \/ 65536 <= len (encoded u (a_workstation a)) ->
  challenge_response E c a = Err InputParameter.
Proof.
  cbv zeta. intros Hc H. rewrite challenge_response_eq.
  destruct (ntlmv2_authenticate E a c) as [nt|e|] eqn:Hn; [|unfold ntlmv2_authenticate in Hn; now rewrite (@clock_ticks E _ t Hc) in Hn ..].
  pose proof (v2_length Hn). cbn [rbind]. cbv zeta. rewrite response_packet_eq.
  destruct (N.ltb_spec (len nt) 65536); [|reflexivity].
  destruct (N.ltb_spec (len (encoded (N.testbit (ch_flags c) 0) (a_domain a))) 65536); [|reflexivity].
  destruct (N.ltb_spec (len (encoded (N.testbit (ch_flags c) 0) (a_user a))) 65536); [|reflexivity].
  destruct (N.ltb_spec (len (encoded (N.testbit (ch_flags c) 0) (a_workstation a))) 65536); [lia|reflexivity].
Qed.

(** ** DES keys *)
Lemma expand_value_eq v : expand_des_value v =
  N.lor (N.lor (N.lor (N.lor (N.lor (N.lor (N.lor
    (N.shiftl (N.land v 127) 1)
    (N.shiftl (N.land (N.shiftr v 7) 127) 9))
    (N.shiftl (N.land (N.shiftr v 14) 127) 17))
    (N.shiftl (N.land (N.shiftr v 21) 127) 25))
    (N.shiftl (N.land (N.shiftr v 28) 127) 33))
    (N.shiftl (N.land (N.shiftr v 35) 127) 41))
    (N.shiftl (N.land (N.shiftr v 42) 127) 49))
    (N.shiftl (N.land (N.shiftr v 49) 127) 57).
Proof.
  unfold expand_des_value. cbn [fold_left expand_step snd]. rewrite !N.shiftr_shiftr. reflexivity.
Qed.
Lemma part_bit x s n : N.testbit (N.shiftl (N.land x 127) s) n = (s <=? n) && (n <? s + 7) && N.testbit x (n - s).
Proof.
  destruct (N.leb_spec s n) as [H|H]; cbn [andb].
  - rewrite N.shiftl_spec_high' by exact H. rewrite N.land_spec. change 127 with (N.ones 7).
    destruct (N.ltb_spec n (s + 7)); [rewrite N.ones_spec_low by lia|rewrite N.ones_spec_high by lia]; now destruct (N.testbit x (n - s)).
  - apply N.shiftl_spec_low. exact H.
Qed.
Lemma expand_bit v j b : j < 8 -> b < 8 ->
  N.testbit (expand_des_value v) (8 * j + b) = (0 <? b) && N.testbit v (7 * j + (b - 1)).
Proof.
  intros Hj Hb. rewrite expand_value_eq, !N.lor_spec.
  rewrite !part_bit, !N.shiftr_spec'.
  assert (C : j = 0 \/ j = 1 \/ j = 2 \/ j = 3 \/ j = 4 \/ j = 5 \/ j = 6 \/ j = 7) by lia.
  assert (B : b = 0 \/ b = 1 \/ b = 2 \/ b = 3 \/ b = 4 \/ b = 5 \/ b = 6 \/ b = 7) by lia.
  destruct C as [->|[->|[->|[->|[->|[->|[->| ->]]]]]]];
  destruct B as [->|[->|[->|[->|[->|[->|[->| ->]]]]]]]; cbn -[N.testbit]; rewrite ?orb_false_r; reflexivity.
Qed.
Lemma unle_bit b : forall j k, k < 8 ->
  N.testbit (unle b) (8 * N.of_nat j + k) = match nth_error b j with Some x => N.testbit (b2n x) k | None => false end.
Proof.
  induction b as [|x b IH]; intros j k Hk.
  - destruct j; reflexivity.
  - cbn [unle]. pose proof (b2n_lt x). destruct j as [|j]; cbn [nth_error].
    + replace (8 * N.of_nat 0 + k) with k by lia. rewrite <- (N.mod_pow2_bits_low _ 8) by exact Hk.
      f_equal. change (2 ^ 8) with 256. lia.
    + replace (8 * N.of_nat (S j) + k) with ((8 * N.of_nat j + k) + 8) by lia. rewrite <- N.div_pow2_bits.
      rewrite <- IH by exact Hk. f_equal. change (2 ^ 8) with 256. lia.
Qed.
Lemma nth_error_rev A (l : list A) i : (i < length l)%nat -> nth_error (rev l) i = nth_error l (length l - 1 - i).
Proof.
  intros H. destruct l as [|d l']; [cbn in H; lia|]. set (l := d :: l') in *.
  rewrite (nth_error_nth' (rev l) d) by (rewrite rev_length; exact H). rewrite (nth_error_nth' l d) by lia.
  f_equal. rewrite rev_nth by exact H. f_equal. lia.
Qed.
(** bit [i] of a big endian number *)
Lemma unbe_bit b i : i < 8 * len b -> bit b i = N.testbit (unbe b) (8 * len b - 1 - i).
Proof.
  intros H. unfold bit, unbe. set (j := N.to_nat (i / 8)).
  assert (Hj : (j < length b)%nat) by (unfold j, len in *; lia).
  replace (8 * len b - 1 - i) with (8 * N.of_nat (length b - 1 - j) + (7 - i mod 8)) by (unfold j, len in *; lia).
  rewrite unle_bit by lia. rewrite nth_error_rev by lia.
  replace (length b - 1 - (length b - 1 - j))%nat with j by lia. reflexivity.
Qed.
Lemma expand_bound v : expand_des_value v < 18446744073709551616.
Proof.
  change 18446744073709551616 with (2 ^ 64). rewrite expand_value_eq.
  destruct (N.eq_dec (N.lor (N.lor (N.lor (N.lor (N.lor (N.lor (N.lor
    (N.shiftl (N.land v 127) 1)
    (N.shiftl (N.land (N.shiftr v 7) 127) 9))
    (N.shiftl (N.land (N.shiftr v 14) 127) 17))
    (N.shiftl (N.land (N.shiftr v 21) 127) 25))
    (N.shiftl (N.land (N.shiftr v 28) 127) 33))
    (N.shiftl (N.land (N.shiftr v 35) 127) 41))
    (N.shiftl (N.land (N.shiftr v 42) 127) 49))
    (N.shiftl (N.land (N.shiftr v 49) 127) 57)) 0) as [->|Hn]; [lia|].
  apply N.log2_lt_pow2; [lia|].
  assert (A : forall a b, N.log2 a < 64 -> N.log2 b < 64 -> N.log2 (N.lor a b) < 64) by (intros; rewrite N.log2_lor; lia).
  assert (B : forall x s, s <= 57 -> N.log2 (N.shiftl (N.land x 127) s) < 64).
  { intros x s Hs. destruct (N.eq_dec (N.land x 127) 0) as [->|Hx]; [now rewrite N.shiftl_0_l|].
    rewrite N.log2_shiftl by exact Hx. pose proof (land_le_r x 127). assert (N.log2 (N.land x 127) <= N.log2 127) by now apply N.log2_le_mono.
    change (N.log2 127) with 6 in *. lia. }
  repeat apply A; apply B; lia.
Qed.
Lemma expand_padded X k e : @expand_des_key X k = Ok e -> len k <= 7 /\ des_key (k ++ zeros (7 - len k)) e.
Proof.
  unfold expand_des_key. destruct (N.ltb_spec 7 (len k)) as [H|H]; [easy|]. intros G. apply ok_inj in G. split; [exact H|].
  set (k7 := k ++ zeros (7 - len k)) in *. assert (L7 : len k7 = 7) by (unfold k7; rewrite len_app, len_zeros; lia).
  set (v := unbe (x00 :: k7)) in *. subst e. assert (Le : len (be 8 (expand_des_value v)) = 8) by (now rewrite len_be).
  assert (Lv : len (x00 :: k7) = 8) by (rewrite len_cons; lia).
  assert (Ue : unbe (be 8 (expand_des_value v)) = expand_des_value v) by (apply unbe_be_small; exact (expand_bound v)).
  split; [exact L7|]. split; [exact Le|]. split.
  - intros i Hi. rewrite unbe_bit by (rewrite Le; lia). rewrite Le, Ue.
    replace (8 * 8 - 1 - (i / 7 * 8 + i mod 7)) with (8 * (7 - i / 7) + (7 - i mod 7)) by lia.
    rewrite expand_bit by lia. destruct (N.ltb_spec 0 (7 - i mod 7)); [|lia]. cbn [andb].
    transitivity (bit (x00 :: k7) (8 + i)).
    + rewrite (unbe_bit (b := x00 :: k7)) by (rewrite Lv; lia). rewrite Lv. fold v. f_equal. lia.
    + unfold bit. replace (N.to_nat ((8 + i) / 8)) with (S (N.to_nat (i / 8))) by lia. cbn [nth_error].
      replace ((8 + i) mod 8) with (i mod 8) by lia. reflexivity.
  - intros j Hj. rewrite unbe_bit by (rewrite Le; lia). rewrite Le, Ue.
    replace (8 * 8 - 1 - (8 * j + 7)) with (8 * (7 - j) + 0) by lia. rewrite expand_bit by lia. reflexivity.
Qed.
Lemma expand_total X k : len k <= 7 -> exists e, @expand_des_key X k = Ok e.
Proof. intros H. unfold expand_des_key. destruct (N.ltb_spec 7 (len k)); [lia|eauto]. Qed.
Lemma bits_inj a b : len a = len b -> (forall i, i < 8 * len a -> bit a i = bit b i) -> a = b.
Proof.
  intros Hl H. assert (E : unbe a = unbe b).
  { apply N.bits_inj. intros n. destruct (N.lt_ge_cases n (8 * len a)) as [Hn|Hn].
    - replace n with (8 * len a - 1 - (8 * len a - 1 - n)) at 1 by lia. rewrite <- unbe_bit by lia. rewrite H by lia.
      rewrite unbe_bit by (rewrite <- Hl; lia). f_equal. rewrite <- Hl. lia.
    - assert (P : forall x : bytes, 8 * len x <= n -> N.testbit (unbe x) n = false).
      { intros x Hx. pose proof (unbe_bound x) as B. change 256 with (2 ^ 8) in B. rewrite <- N.pow_mul_r in B.
        destruct (N.eq_dec (unbe x) 0) as [->|Hz]; [apply N.bits_0|]. apply N.bits_above_log2.
        apply N.log2_lt_pow2 in B; lia. }
      rewrite !P by lia. reflexivity. }
  rewrite <- (@be_unbe' (length a) a eq_refl), E. unfold len in Hl. replace (length a) with (length b) by lia. now apply be_unbe'.
Qed.
Lemma des_key_inj k k' e : des_key k e -> des_key k' e -> k = k'.
Proof.
  intros (L & _ & H & _) (L' & _ & H' & _). apply bits_inj; [lia|]. intros i Hi. rewrite <- H, <- H' by lia. reflexivity.
Qed.
Lemma des_key_fun k e e' : des_key k e -> des_key k e' -> e = e'.
Proof.
  intros (_ & L & H & P) (_ & L' & H' & P'). apply bits_inj; [lia|]. intros i Hi. rewrite L in Hi.
  destruct (N.eq_dec (i mod 8) 7) as [E|E].
  - replace i with (8 * (i / 8) + 7) by lia. rewrite P, P' by lia. reflexivity.
  - set (n := i / 8 * 7 + i mod 8). assert (Hn : n / 7 * 8 + n mod 7 = i) by (unfold n; lia).
    rewrite <- Hn, H, H' by (unfold n; lia). reflexivity.
Qed.

(** ** NTLMv1 *)
Lemma hash_len E a : len (ntlm_hash E a) = 16.
Proof. apply (len_eq _ 16), md4_len. Qed.
Lemma v1_good E a challenge nt : is_str (a_password a) -> len challenge = 8 ->
  (ntlmv1_authenticate E (X := ntlm_error) a challenge = Ok nt <-> v1_response E (a_password a) challenge nt).
Proof.
  intros Sp Hc. unfold ntlmv1_authenticate. cbv zeta. pose proof (hash_len E a) as Hl. set (h := ntlm_hash E a) in *.
  assert (Hp : utf16le_of (a_password a) (encode_utf16le (a_password a))) by now apply utf16le_encode, is_text_str.
  unfold des_oneshot. rewrite Hc. cbn [N.eqb Pos.eqb].
  destruct (@expand_total ntlm_error (take 7 h)) as (k1 & E1); [rewrite len_take; lia|].
  destruct (@expand_total ntlm_error (take 7 (drop 7 h))) as (k2 & E2); [rewrite len_take; lia|].
  destruct (@expand_total ntlm_error (take 2 (drop 14 h))) as (k3 & E3); [rewrite len_take; lia|].
  rewrite E1, E2, E3. cbn [rbind]. apply expand_padded in E1, E2, E3.
  rewrite !len_take, ?len_drop, Hl in E1. rewrite !len_take, !len_drop, Hl in E2, E3.
  change (zeros (7 - N.min 7 16)) with (@nil byte) in E1. change (zeros (7 - N.min 7 (16 - 7))) with (@nil byte) in E2.
  change (7 - N.min 2 (16 - 14)) with 5 in E3. rewrite app_nil_r in E1, E2.
  destruct E1 as [_ E1], E2 as [_ E2], E3 as [_ E3].
  assert (Hs : h = take 7 h ++ take 7 (drop 7 h) ++ take 2 (drop 14 h)).
  { rewrite (take_all 2 (drop 14 h)) by (rewrite len_drop; lia). change 14 with (7 + 7). rewrite <- drop_drop.
    now rewrite !take_drop. }
  split.
  - intros H. apply ok_inj in H. exists (encode_utf16le (a_password a)), h, (take 7 h), (take 7 (drop 7 h)), (take 2 (drop 14 h)), k1, k2, k3.
    split; [exact Hp|]. split; [reflexivity|]. split; [exact Hs|]. now rewrite H.
  - intros (pw & h' & a1 & b1 & c1 & x1 & x2 & x3 & H1 & H2 & H3 & H4 & H5 & H6 & ->). apply utf16le_of_encode in H1. destruct H1 as [-> _].
    change (md4 E (encode_utf16le (a_password a))) with h in H2. subst h'.
    assert (La : len a1 = 7) by apply H4. assert (Lb : len b1 = 7) by apply H5.
    assert (Ha : a1 = take 7 h) by (rewrite H3, take_exact'; auto).
    assert (Hb : b1 = take 7 (drop 7 h)) by (rewrite H3, drop_exact', take_exact'; auto).
    assert (Hr : c1 = take 2 (drop 14 h)).
    { rewrite (take_all 2) by (rewrite len_drop; lia). change 14 with (7 + 7). rewrite <- drop_drop.
      rewrite H3, !drop_exact'; auto. }
    subst a1 b1 c1. rewrite (des_key_fun H4 E1), (des_key_fun H5 E2), (des_key_fun H6 E3). reflexivity.
Qed.
Lemma v1_crash E a challenge : ntlmv1_authenticate E (X := ntlm_error) a challenge = Panic <-> len challenge <> 8.
Proof.
  unfold ntlmv1_authenticate. cbv zeta. pose proof (hash_len E a) as Hl. set (h := ntlm_hash E a) in *. unfold des_oneshot.
  destruct (@expand_total ntlm_error (take 7 h)) as (k1 & E1); [rewrite len_take; lia|].
  destruct (@expand_total ntlm_error (take 7 (drop 7 h))) as (k2 & E2); [rewrite len_take; lia|].
  destruct (@expand_total ntlm_error (take 2 (drop 14 h))) as (k3 & E3); [rewrite len_take; lia|].
  rewrite E1, E2, E3. cbn [rbind]. destruct (N.eqb_spec (len challenge) 8); cbn [rbind]; intuition discriminate.
Qed.
Lemma v1_no_error E a challenge e : ntlmv1_authenticate E (X := ntlm_error) a challenge <> Err e.
Proof.
  unfold ntlmv1_authenticate. cbv zeta. pose proof (hash_len E a) as Hl. set (h := ntlm_hash E a) in *. unfold des_oneshot.
  destruct (@expand_total ntlm_error (take 7 h)) as (k1 & E1); [rewrite len_take; lia|].
  destruct (@expand_total ntlm_error (take 7 (drop 7 h))) as (k2 & E2); [rewrite len_take; lia|].
  destruct (@expand_total ntlm_error (take 2 (drop 14 h))) as (k3 & E3); [rewrite len_take; lia|].
  rewrite E1, E2, E3. cbn [rbind]. destruct (len challenge =? 8); discriminate.
Qed.
Lemma v1_length E a challenge nt : ntlmv1_authenticate E (X := ntlm_error) a challenge = Ok nt -> len nt = 24.
Proof.
  unfold ntlmv1_authenticate, des_oneshot. cbv zeta. intros H. destruct (len challenge =? 8).
  - repeat match goal with H : rbind _ _ = Ok _ |- _ => apply rbind_ok in H; destruct H as (? & ? & H) end.
    repeat match goal with H : Ok _ = Ok _ |- _ => apply ok_inj in H end. subst. rewrite !len_app. unfold len. rewrite !des_len. reflexivity.
  - apply rbind_ok in H. destruct H as (? & H & _). apply rbind_ok in H. destruct H as (? & _ & H). discriminate H.
Qed.
