(** * InfoFacts: the SMB header. *)
From Verif Require Import Base BaseFacts Text Win Errors Info Spec SpecFacts.
Set Implicit Arguments.
Unset Strict Implicit.
Open Scope N_scope.

(** ** single flags *)
Lemma land_pow2 f k : N.land f (2 ^ k) = if N.testbit f k then 2 ^ k else 0.
Proof.
  apply N.bits_inj; intros i. rewrite N.land_spec, N.pow2_bits_eqb.
  destruct (N.eqb_spec k i) as [->|Hk].
  - destruct (N.testbit f i) eqn:H; [|now rewrite N.bits_0].
    now rewrite N.pow2_bits_true.
  - rewrite andb_false_r. destruct (N.testbit f k); [|now rewrite N.bits_0].
    now rewrite N.pow2_bits_false.
Qed.
Lemma contains_pow2 f k : contains f (2 ^ k) = N.testbit f k.
Proof.
  unfold contains. rewrite land_pow2. destruct (N.testbit f k).
  - apply N.eqb_refl.
  - apply N.eqb_neq. pose proof (N.pow_nonzero 2 k). lia.
Qed.
Lemma testbit_land_all f all k : N.testbit all k = true -> N.testbit (N.land f all) k = N.testbit f k.
Proof. intros H. now rewrite N.land_spec, H, andb_true_r. Qed.
Lemma reply_flag f : contains (truncate_bits Flags1_all f) F1_REPLY = N.testbit f 7.
Proof.
  change F1_REPLY with (2 ^ 7). rewrite contains_pow2. now apply testbit_land_all.
Qed.

(** ** enums *)
Lemma cmd_of_code_inv c cm : cmd_of_code c = Some cm -> cmd_code cm = c.
Proof. unfold cmd_of_code. intros H. apply find_some in H. now apply N.eqb_eq. Qed.
Lemma cmd_of_code_code cm : cmd_of_code (cmd_code cm) = Some cm.
Proof. destruct cm; reflexivity. Qed.
Lemma cmd_code_inj a b : cmd_code a = cmd_code b -> a = b.
Proof. intros H. apply (f_equal cmd_of_code) in H. rewrite !cmd_of_code_code in H. congruence. Qed.
Lemma cmd_eqb_eq a b : cmd_eqb a b = true <-> a = b.
Proof.
  unfold cmd_eqb. rewrite N.eqb_eq. split; [apply cmd_code_inj|now intros ->].
Qed.
Lemma cmd_eqb_refl a : cmd_eqb a a = true.
Proof. now apply cmd_eqb_eq. Qed.
Lemma cmd_code_lt c : cmd_code c < 256.
Proof. destruct c; cbn; lia. Qed.
Lemma known_codes_iff c : In c known_codes <-> exists cm, cmd_of_code c = Some cm.
Proof.
  split.
  - unfold known_codes. intros H. cbn [In] in H.
    repeat (destruct H as [<-|H]; [eexists; reflexivity|]). destruct H.
  - intros [cm H]. apply cmd_of_code_inv in H. subst. destruct cm; cbn; tauto.
Qed.
Lemma cmd_of_code_None c : ~ In c known_codes -> cmd_of_code c = None.
Proof. intros H. destruct (cmd_of_code c) eqn:E; [|easy]. destruct H. apply known_codes_iff. eauto. Qed.

Lemma nt_of_code_inv c s : nt_of_code c = Some s -> nt_code s = c.
Proof. unfold nt_of_code. intros H. apply find_some in H. now apply N.eqb_eq. Qed.
Lemma nt_of_code_code s : nt_of_code (nt_code s) = Some s.
Proof. destruct s; reflexivity. Qed.
Lemma status_code_of c : status_code (status_of_code c) = c.
Proof.
  unfold status_of_code. destruct (nt_of_code c) eqn:H; [|easy]. now apply nt_of_code_inv.
Qed.
Lemma status_of_code_known s : status_of_code (nt_code s) = Known s.
Proof. unfold status_of_code. now rewrite nt_of_code_code. Qed.
Lemma action_of_code_inv c s : action_of_code c = Some s -> action_code s = c.
Proof. unfold action_of_code. intros H. apply find_some in H. now apply N.eqb_eq. Qed.

(** ** the header as a concatenation *)
Definition header_bytes (m4 : bytes) (c st f1 f2 ph : N) (sg rs : bytes) (tid pl uid mid : N)
  (r : bytes) : bytes :=
  m4 ++ le 1 c ++ le 4 st ++ le 1 f1 ++ le 2 f2 ++ le 2 ph ++ sg ++ rs
  ++ le 2 tid ++ le 2 pl ++ le 2 uid ++ le 2 mid ++ r.

Record header_ok (m4 : bytes) (c st f1 f2 ph : N) (sg rs : bytes) (tid pl uid mid : N) : Prop := {
  ho_m : len m4 = 4; ho_c : c < 256; ho_st : st < 4294967296; ho_f1 : f1 < 256; ho_f2 : f2 < 65536;
  ho_ph : ph < 65536; ho_sg : len sg = 8; ho_rs : len rs = 2; ho_tid : tid < 65536;
  ho_pl : pl < 65536; ho_uid : uid < 65536; ho_mid : mid < 65536 }.

Ltac cut_le_at k b :=
  let v := fresh "v" in let r := fresh "r" in let H := fresh "Hcut" in let Hv := fresh "Hv" in
  destruct (@cut_le k b ltac:(len_lia)) as (v & r & H & Hv); try rewrite H in *.

Lemma header_split p : 32 <= len p ->
  exists m4 c st f1 f2 ph sg rs tid pl uid mid r,
    p = header_bytes m4 c st f1 f2 ph sg rs tid pl uid mid r
    /\ header_ok m4 c st f1 f2 ph sg rs tid pl uid mid.
Proof.
  intros H.
  destruct (@cut 4 p ltac:(lia)) as (m4 & r0 & -> & Hm). rewrite len_app in H.
  destruct (@cut_le 1 r0 ltac:(len_lia)) as (c & r1 & -> & Hc). rewrite len_app, len_le in H.
  destruct (@cut_le 4 r1 ltac:(len_lia)) as (st & r2 & -> & Hst). rewrite len_app, len_le in H.
  destruct (@cut_le 1 r2 ltac:(len_lia)) as (f1 & r3 & -> & Hf1). rewrite len_app, len_le in H.
  destruct (@cut_le 2 r3 ltac:(len_lia)) as (f2 & r4 & -> & Hf2). rewrite len_app, len_le in H.
  destruct (@cut_le 2 r4 ltac:(len_lia)) as (ph & r5 & -> & Hph). rewrite len_app, len_le in H.
  destruct (@cut 8 r5 ltac:(len_lia)) as (sg & r6 & -> & Hsg). rewrite len_app in H.
  destruct (@cut 2 r6 ltac:(len_lia)) as (rs & r7 & -> & Hrs). rewrite len_app in H.
  destruct (@cut_le 2 r7 ltac:(len_lia)) as (tid & r8 & -> & Htid). rewrite len_app, len_le in H.
  destruct (@cut_le 2 r8 ltac:(len_lia)) as (pl & r9 & -> & Hpl). rewrite len_app, len_le in H.
  destruct (@cut_le 2 r9 ltac:(len_lia)) as (uid & r10 & -> & Huid). rewrite len_app, len_le in H.
  destruct (@cut_le 2 r10 ltac:(len_lia)) as (mid & r11 & -> & Hmid).
  exists m4, c, st, f1, f2, ph, sg, rs, tid, pl, uid, mid, r11. split; [reflexivity|].
  now split.
Qed.

Section Header.
Variables (m4 : bytes) (c st f1 f2 ph : N) (sg rs : bytes) (tid pl uid mid : N) (r : bytes).
Hypothesis H : header_ok m4 c st f1 f2 ph sg rs tid pl uid mid.
Let p := header_bytes m4 c st f1 f2 ph sg rs tid pl uid mid r.

Lemma header_len : len p = 32 + len r.
Proof. destruct H. unfold p, header_bytes. len_lia. Qed.
Lemma header_magic : take 4 p = m4.
Proof. destruct H. unfold p, header_bytes. now apply take_exact'. Qed.
Lemma header_cmd : u8_at p 4 = Some c.
Proof. destruct H. unfold p, header_bytes. now fields. Qed.
Lemma header_status : u32_at p 5 = Some st.
Proof. destruct H. unfold p, header_bytes. now fields. Qed.
Lemma header_flags1 : u8_at p 9 = Some f1.
Proof. destruct H. unfold p, header_bytes. now fields. Qed.
Lemma header_flags2 : u16_at p 10 = Some f2.
Proof. destruct H. unfold p, header_bytes. now fields. Qed.
Lemma header_pid_high : u16_at p 12 = Some ph.
Proof. destruct H. unfold p, header_bytes. now fields. Qed.
Lemma header_sig : bytes_at p 14 8 = Some sg.
Proof. destruct H. unfold p, header_bytes. now fields. Qed.
Lemma header_tid : u16_at p 24 = Some tid.
Proof. destruct H. unfold p, header_bytes. now fields. Qed.
Lemma header_pid_low : u16_at p 26 = Some pl.
Proof. destruct H. unfold p, header_bytes. now fields. Qed.
Lemma header_uid : u16_at p 28 = Some uid.
Proof. destruct H. unfold p, header_bytes. now fields. Qed.
Lemma header_mid : u16_at p 30 = Some mid.
Proof. destruct H. unfold p, header_bytes. now fields. Qed.
Lemma header_drop : drop 32 p = r.
Proof.
  destruct H. unfold p, header_bytes.
  do 12 (rewrite drop_app, (drop_all _ _) by len_lia; cbn [app]).
  replace (_ - _) with 0 by len_lia. apply drop_0.
Qed.

Definition header_info (cm : cmd) : info :=
  mk_info cm (status_of_code st) (N.land f1 Flags1_all) (N.land f2 Flags2_all)
    (N.lor (N.shiftl ph 16) pl) tid uid mid.

Lemma info_parse_header : info_parse p =
  if list_eq_dec Byte.byte_eq_dec m4 magic then
    match cmd_of_code c with
    | None => Err (InvalidCommand c)
    | Some cm => if N.testbit f1 7 then Ok (header_info cm, r) else Err ReplyExpected
    end
  else Err InvalidHeader.
Proof.
  unfold info_parse. rewrite header_len. destruct (N.ltb_spec (32 + len r) SMB_HEADER_LEN) as [Hl|_].
  { unfold SMB_HEADER_LEN in Hl; lia. }
  destruct H. unfold p, header_bytes.
  rewrite copy_app by easy. cbn [rbind]. change SMB_MAGIC with magic.
  destruct (list_eq_dec Byte.byte_eq_dec m4 magic); [|reflexivity]. cbn [negb].
  unfold get_u8, get_u16_le, get_u32_le.
  rewrite get_le_app by easy. cbn [rbind].
  destruct (cmd_of_code c) as [cm|]; [|reflexivity]. cbn [ok_or rbind].
  do 4 (rewrite get_le_app by easy; cbn [rbind]).
  do 2 (rewrite advance_app by easy; cbn [rbind]).
  do 4 (rewrite get_le_app by easy; cbn [rbind]).
  rewrite reply_flag. destruct (N.testbit f1 7); reflexivity.
Qed.
End Header.

(** a header that the parser accepts, by fields *)
Lemma info_parse_ok_fields p i r : info_parse p = Ok (i, r) ->
  smb_reply p (cmd_code (i_cmd i)) (status_code (i_status i)) (i_mid i)
  /\ r = drop 32 p
  /\ i_status i = status_of_code (status_code (i_status i))
  /\ u16_at p 24 = Some (i_tid i) /\ u16_at p 28 = Some (i_uid i)
  /\ (exists f1, u8_at p 9 = Some f1 /\ i_flags1 i = N.land f1 Flags1_all)
  /\ (exists f2, u16_at p 10 = Some f2 /\ i_flags2 i = N.land f2 Flags2_all)
  /\ (exists hi lo, u16_at p 12 = Some hi /\ u16_at p 26 = Some lo /\ i_pid i = hi * 65536 + lo).
Proof.
  intros Hp. destruct (N.leb_spec 32 (len p)) as [Hl|Hl].
  2: { unfold info_parse in Hp. destruct (N.ltb_spec (len p) SMB_HEADER_LEN); [easy|]. unfold SMB_HEADER_LEN in *; lia. }
  destruct (header_split Hl) as (m4 & c & st & f1 & f2 & ph & sg & rs & tid & pl & uid & mid & r' & -> & Ho).
  rewrite (info_parse_header r' Ho) in Hp.
  destruct (list_eq_dec Byte.byte_eq_dec m4 magic) as [Em|]; [|easy].
  destruct (cmd_of_code c) as [cm|] eqn:Ec; [|easy].
  destruct (N.testbit f1 7) eqn:Ef; [|easy].
  injection Hp as <- <-. cbn [header_info i_cmd i_status i_mid i_tid i_uid i_flags1 i_flags2 i_pid].
  apply cmd_of_code_inv in Ec. subst c. rewrite status_code_of.
  split.
  { split; [rewrite (header_len _ Ho); lia|]. split; [now rewrite (header_magic _ Ho)|].
    split; [apply (header_cmd _ Ho)|]. split; [apply known_codes_iff; rewrite cmd_of_code_code; eauto|].
    split; [apply (header_status _ Ho)|]. split; [exists f1; split; [apply (header_flags1 _ Ho)|easy]|].
    apply (header_mid _ Ho). }
  split; [now rewrite (header_drop _ Ho)|]. split; [reflexivity|].
  split; [apply (header_tid _ Ho)|]. split; [apply (header_uid _ Ho)|].
  split; [exists f1; split; [apply (header_flags1 _ Ho)|easy]|].
  split; [exists f2; split; [apply (header_flags2 _ Ho)|easy]|].
  exists ph, pl. split; [apply (header_pid_high _ Ho)|]. split; [apply (header_pid_low _ Ho)|].
  destruct Ho. rewrite N.shiftl_mul_pow2. change (2 ^ 16) with 65536.
  assert (Hand : N.land (ph * 65536) pl = 0).
  { apply N.bits_inj; intros k. rewrite N.land_spec, N.bits_0.
    change 65536 with (2 ^ 16).
    destruct (N.ltb_spec k 16) as [Hk|Hk].
    - now rewrite N.mul_pow2_bits_low.
    - rewrite <- (N.mod_small pl (2 ^ 16)) by (cbn; lia). rewrite N.mod_pow2_bits_high by lia.
      apply andb_false_r. }
  now rewrite <- N.lxor_lor, <- N.add_nocarry_lxor by exact Hand.
Qed.

(** conversely, a reply header is accepted *)
Lemma info_parse_reply p code st mid : smb_reply p code st mid ->
  exists i, info_parse p = Ok (i, drop 32 p) /\ cmd_of_code code = Some (i_cmd i)
            /\ i_status i = status_of_code st /\ i_mid i = mid.
Proof.
  intros (Hl & Hm & Hc & Hk & Hs & (f & Hf & Hb) & Hmid).
  destruct (header_split Hl) as (m4 & c & st' & f1 & f2 & ph & sg & rs & tid & pl & uid & mid' & r' & -> & Ho).
  rewrite (header_magic _ Ho) in Hm. rewrite (header_cmd _ Ho) in Hc. rewrite (header_status _ Ho) in Hs.
  rewrite (header_flags1 _ Ho) in Hf. rewrite (header_mid _ Ho) in Hmid.
  injection Hc as ->. injection Hs as ->. injection Hf as ->. injection Hmid as ->.
  rewrite (info_parse_header r' Ho), (header_drop _ Ho).
  destruct (list_eq_dec Byte.byte_eq_dec m4 magic); [|easy].
  apply known_codes_iff in Hk. destruct Hk as [cm Hcm]. rewrite Hcm, Hb.
  eexists. split; [reflexivity|]. cbn. auto.
Qed.

(** the parser never crashes; the four rejections *)
Lemma info_parse_total p :
  (len p < 32 /\ info_parse p = Err InvalidHeader)
  \/ (32 <= len p /\ take 4 p <> magic /\ info_parse p = Err InvalidHeader)
  \/ (32 <= len p /\ take 4 p = magic /\ exists c, u8_at p 4 = Some c /\ ~ In c known_codes
      /\ info_parse p = Err (InvalidCommand c))
  \/ (32 <= len p /\ take 4 p = magic /\ (exists c, u8_at p 4 = Some c /\ In c known_codes)
      /\ (exists f, u8_at p 9 = Some f /\ N.testbit f 7 = false) /\ info_parse p = Err ReplyExpected)
  \/ (exists code st mid, smb_reply p code st mid).
Proof.
  destruct (N.ltb_spec (len p) 32) as [Hl|Hl].
  { left. split; [easy|]. unfold info_parse, SMB_HEADER_LEN. now destruct (N.ltb_spec (len p) 32); [|lia]. }
  right. destruct (header_split Hl) as (m4 & c & st' & f1 & f2 & ph & sg & rs & tid & pl & uid & mid' & r' & -> & Ho).
  pose proof (info_parse_header r' Ho) as Hp.
  rewrite (header_magic _ Ho), (header_cmd _ Ho), (header_flags1 _ Ho).
  destruct (list_eq_dec Byte.byte_eq_dec m4 magic) as [Em|Em]; [|now left].
  right. destruct (cmd_of_code c) as [cm|] eqn:Ec.
  - right. assert (Hin : In c known_codes) by (apply known_codes_iff; eauto).
    destruct (N.testbit f1 7) eqn:Ef.
    + right. exists c, st', mid'. split; [easy|]. rewrite (header_magic _ Ho). split; [easy|].
      split; [apply (header_cmd _ Ho)|]. split; [easy|]. split; [apply (header_status _ Ho)|].
      split; [exists f1; split; [apply (header_flags1 _ Ho)|easy]|apply (header_mid _ Ho)].
    + left. repeat split; eauto.
  - left. split; [easy|]. split; [easy|]. exists c. repeat split; try easy.
    intros Hin. apply known_codes_iff in Hin. destruct Hin. congruence.
Qed.

Lemma info_parse_no_panic p : info_parse p <> Panic.
Proof.
  destruct (info_parse_total p) as [H|[H|[H|[H|H]]]].
  - destruct H as [_ ->]. easy.
  - destruct H as (_ & _ & ->). easy.
  - destruct H as (_ & _ & c & _ & _ & ->). easy.
  - destruct H as (_ & _ & _ & _ & ->). easy.
  - destruct H as (code & st & mid & H). apply info_parse_reply in H. destruct H as (i & -> & _). easy.
Qed.

(** ** the header the client writes *)
Record info_range (i : info) : Prop := {
  ir_st : status_code (i_status i) < 4294967296; ir_f1 : i_flags1 i < 256; ir_f2 : i_flags2 i < 65536;
  ir_pid : i_pid i < 4294967296; ir_tid : i_tid i < 65536; ir_uid : i_uid i < 65536; ir_mid : i_mid i < 65536 }.

Lemma info_write_header i r : info_range i ->
  info_write i ++ r = header_bytes magic (cmd_code (i_cmd i)) (status_code (i_status i)) (i_flags1 i)
    (i_flags2 i) (i_pid i / 65536) (zeros 8) (zeros 2) (i_tid i) (i_pid i mod 65536) (i_uid i) (i_mid i) r
  /\ header_ok magic (cmd_code (i_cmd i)) (status_code (i_status i)) (i_flags1 i)
    (i_flags2 i) (i_pid i / 65536) (zeros 8) (zeros 2) (i_tid i) (i_pid i mod 65536) (i_uid i) (i_mid i).
Proof.
  intros []. split.
  - unfold info_write, header_bytes. rewrite <- !app_assoc.
    rewrite N.shiftr_div_pow2. change (2 ^ 16) with 65536.
    change 0xffff with (N.ones 16). rewrite N.land_ones. reflexivity.
  - split; try assumption; try reflexivity; try lia. apply cmd_code_lt.
Qed.
Lemma len_info_write i : len (info_write i) = 32.
Proof. unfold info_write. autorewrite with len. reflexivity. Qed.
#[global] Hint Rewrite len_info_write : len.
(** Known statuses are reported by name, others by value. *)
Lemma status_names st : match status_of_code st with
  | Known s => nt_code s = st
  | Unknown v => v = st /\ forall s, nt_code s <> st
  end.
Proof.
  destruct (status_of_code st) as [s|v] eqn:H.
  - rewrite <- (status_code_of st), H. reflexivity.
  - assert (v = st) as -> by (rewrite <- (status_code_of st), H; reflexivity).
    split; [reflexivity|]. intros s <-. now rewrite status_of_code_known in H.
Qed.
