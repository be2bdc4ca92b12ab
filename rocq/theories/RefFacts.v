(** * RefFacts: the reference server is conforming. *)
From Coq Require Import Lia.
From Verif Require Import Base BaseFacts Text TextFacts Win Errors Common Reply Ntlm Prog Client Spec SpecFacts SpecReply SpecMsg Api SpecCall
  RunFacts MsgFacts InfoFacts ReqFacts ReplyFacts Flow SpecRemote Sample RefServer.
Set Implicit Arguments.
Unset Strict Implicit.
Open Scope N_scope.

(** ** replies *)
Lemma header_len code st f2 tid who id : len (header code st f2 tid who id) = 32.
Proof. unfold header. rewrite !len_app, !len_le, len_zeros. reflexivity. Qed.
Lemma header_reply code st f2 tid who id b : In code known_codes -> st < 4294967296 -> u16 id ->
  smb_reply (header code st f2 tid who id ++ b) code st id.
Proof.
  intros Hc Hst Hid. unfold u16 in Hid. assert (code < 256). { revert Hc. cbn. intuition lia. }
  split; [rewrite len_app, header_len; lia|]. split; [reflexivity|].
  unfold header, magic. rewrite <- !app_assoc.
  split; [fields; reflexivity|]. split; [exact Hc|]. split; [fields; reflexivity|].
  split; [exists 152; split; [fields; reflexivity|reflexivity]|]. fields. reflexivity.
Qed.
Lemma header_flags2 code st f2 tid who id b : f2 < 65536 -> u16_at (header code st f2 tid who id ++ b) 10 = Some f2.
Proof. intros H. unfold header, magic. rewrite <- !app_assoc. fields. reflexivity. Qed.
Lemma header_tid code st f2 tid who id b : u16 tid -> u16_at (header code st f2 tid who id ++ b) 24 = Some tid.
Proof. intros H. unfold u16 in H. unfold header, magic. rewrite <- !app_assoc. fields. reflexivity. Qed.
Lemma header_uid code st f2 tid who id b : u16 who -> u16_at (header code st f2 tid who id ++ b) 28 = Some who.
Proof. intros H. unfold u16 in H. unfold header, magic. rewrite <- !app_assoc. fields. reflexivity. Qed.
Lemma body_parts h words data n : len h = 32 -> len words = 2 * n -> n < 256 -> len data < 65536 ->
  smb_parts (h ++ body words data) words data [].
Proof.
  intros Hh Hw Hn Hd. exists h, n. split; [exact Hh|]. split; [exact Hw|]. split; [exact Hn|]. split; [exact Hd|].
  unfold body. rewrite app_nil_r, Hw, N.mul_comm, N.div_mul by lia. reflexivity.
Qed.
Lemma within_flags mask f : within mask f -> flags_of mask f f.
Proof. intros H. apply flags_of_iff. symmetry. exact H. Qed.
Lemma within_le mask f : within mask f -> f <= mask.
Proof. intros <-. apply land_le_r. Qed.
Ltac within_bounds := repeat match goal with
  | H : within ?m ?f |- _ =>
    lazymatch goal with _ : f <= m |- _ => fail | _ => pose proof (within_le H) end
  end.
Ltac opens := unfold u16, u32, u64, OPLOCK_BITS, DISPOSITION_BITS, FILE_ATTR_BITS, RESOURCE_BITS, CAPABILITY_BITS, DIR_ACCESS_BITS in *.
Ltac fd := fields; reflexivity.

Definition plain_answer (hd : bytes) {R} (o : op R) (v : R) : bytes := hd ++ body (fst (write o v)) (snd (write o v)).

Lemma handle_written hd h : len hd = 32 -> (forall b, u16_at (hd ++ b) 24 = Some (h_tid h)) -> proper_handle h ->
  handle_of (hd ++ body (fst (write_handle h)) (snd (write_handle h))) h.
Proof.
  intros Hh Ht (H1 & H2 & H3 & H4 & H5 & H6 & H7 & H8 & H9 & H10 & H11 & H12).
  exists (fst (write_handle h)), [], [], (h_oplock h), (h_disposition h), (h_attributes h), (h_file_type h).
  split; [apply body_parts with (n := 34); [exact Hh|unfold write_handle; cbn [fst]; rewrite !len_app, !len_le; reflexivity|lia|vm_compute; reflexivity]|].
  split; [split; [cbn [write_handle fst andx]; rewrite !len_app, !len_le; vm_compute; discriminate|reflexivity]|].
  split; [apply Ht|]. unfold write_handle, andx. cbn [fst].
  assert (Hd : (if h_directory h then 1 else 0) < 256) by (destruct (h_directory h); lia).
  within_bounds. opens. clear Ht Hh.
  assert (h_oplock h < 256) by lia. assert (h_disposition h < 4294967296) by lia. 
  assert (h_attributes h < 4294967296) by lia. assert (h_file_type h < 65536) by lia.
  split; [fd|]. split; [now apply within_flags|]. split; [fd|]. split; [fd|]. split; [now apply within_flags|].
  split; [fd|]. split; [fd|]. split; [fd|]. split; [fd|]. split; [fd|]. split; [now apply within_flags|].
  split; [fd|]. split; [fd|]. split; [fd|]. split; [now apply within_flags|]. fd.
Qed.
Lemma read_written hd v : len hd = 32 -> len v < 65536 -> read_of (hd ++ body (fst (write_read v)) (snd (write_read v))) v.
Proof.
  intros Hh Hv. exists (fst (write_read v)), v, [].
  split; [apply body_parts with (n := 12); [exact Hh|unfold write_read; cbn [fst]; rewrite !len_app, !len_le, len_zeros; reflexivity|lia|exact Hv]|].
  split; [split; [cbn [write_read fst andx]; rewrite !len_app, !len_le; rewrite len_zeros; vm_compute; discriminate|reflexivity]|].
  split; [|now left]. unfold write_read, andx. cbn [fst]. clear Hh. fd.
Qed.
Lemma session_written hd s : len hd = 32 -> (forall b, u16_at (hd ++ b) 28 = Some (ss_uid s)) -> proper_session s ->
  session_of (hd ++ body (fst (write_session s)) (snd (write_session s))) s.
Proof.
  intros Hh Ht [H1 H2]. exists (fst (write_session s)), (ss_blob s), [], (write_flag (ss_guest_mode s)), (len (ss_blob s)), [].
  split; [apply body_parts with (n := 4); [exact Hh|unfold write_session; cbn [fst]; rewrite !len_app, !len_le; reflexivity|lia|exact H2]|].
  split; [split; [cbn [write_session fst andx]; rewrite !len_app, !len_le; vm_compute; discriminate|reflexivity]|].
  split; [apply Ht|]. unfold write_session, andx. cbn [fst].
  assert (write_flag (ss_guest_mode s) < 65536) by (destruct (ss_guest_mode s); reflexivity).
  clear Ht Hh. split; [fd|]. split; [destruct (ss_guest_mode s); reflexivity|].
  split; [|split; [now rewrite app_nil_r|reflexivity]].
  rewrite !len_app, !len_le. cbn [N.leb N.compare]. fd.
Qed.
Lemma server_written hd s : len hd = 32 -> proper_server s ->
  server_of (hd ++ body (fst (write_server s)) (snd (write_server s))) s.
Proof.
  intros Hh (H1 & H2 & H3 & H4 & H5 & H6 & H7 & H8 & H9 & H10 & H11).
  exists (fst (write_server s)), (s_challenge s), [], (s_capabilities s), (10 * s_system_time s), (len (s_challenge s)), [].
  split; [apply body_parts with (n := 17); [exact Hh|unfold write_server; cbn [fst]; rewrite !len_app, !len_le; reflexivity|lia|cbn [snd write_server]; lia]|].
  unfold write_server. cbn [fst]. within_bounds. opens. clear Hh. assert (s_dialect s < 65536) by lia.
  assert (s_capabilities s < 4294967296) by lia.
  split; [fd|]. split; [exact H1|]. split; [fd|]. split; [fd|]. split; [fd|]. split; [fd|]. split; [fd|]. split; [fd|]. split; [fd|].
  split; [now apply within_flags|]. split; [fd|]. split; [rewrite N.mul_comm, N.div_mul; lia|]. split; [fd|]. split; [fd|].
  split; [now rewrite app_nil_r|reflexivity].
Qed.
Lemma no_nul s b : utf8_of s b -> ~ In 0 s -> ~ In x00 b.
Proof.
  assert (Hn : forall c, n2b c = x00 -> c mod 256 = 0) by (intros c H; rewrite <- b2n_n2b, H; reflexivity).
  induction 1 as [|c s b Hc _ IH|c s b Hc _ IH|c s b Hc Hch _ IH|c s b Hc _ IH]; cbn [In]; intros H.
  - tauto.
  - intros [X|X]; [apply Hn in X; apply H; left; lia|apply IH; tauto].
  - intros [X|[X|X]]; [apply Hn in X; lia|apply Hn in X; lia|apply IH; tauto].
  - intros [X|[X|[X|X]]]; [apply Hn in X; lia|apply Hn in X; lia|apply Hn in X; lia|apply IH; tauto].
  - intros [X|[X|[X|[X|X]]]]; [apply Hn in X; lia|apply Hn in X; lia|apply Hn in X; lia|apply Hn in X; lia|apply IH; tauto].
Qed.
Lemma rights_fit r : rights r -> match r with Some v => v < 4294967296 | None => True end.
Proof. destruct r as [v|]; cbn; [|trivial]. intros H. apply within_le in H. unfold DIR_ACCESS_BITS in H. lia. Qed.
Lemma share_written hd s : len hd = 32 -> (forall b, u16_at (hd ++ b) 24 = Some (sh_tid s)) ->
  (forall b, u16_at (hd ++ b) 10 = Some 0x4801) -> proper_share s ->
  share_of (hd ++ body (fst (write_share s)) (snd (write_share s))) s.
Proof.
  intros Hh Ht Hf (H1 & H2 & H3 & H4 & [H5 H6] & [H7 H8] & H9).
  exists (fst (write_share s)), (snd (write_share s)), [], 0x4801, (utf8 (sh_service s)), (utf8 (sh_filesystem s)), [].
  assert (Hl : len (fst (write_share s)) = 6 + len (write_rights (sh_access_rights s)) + len (write_rights (sh_guest_rights s)))
    by (unfold write_share; cbn [fst]; rewrite !len_app, !len_le; change (len andx) with 4; change (N.of_nat 2) with 2; lia).
  assert (Hr : forall r, len (write_rights r) = match r with Some _ => 4 | None => 0 end)
    by (intros [r|]; [apply (len_le 4)|reflexivity]).
  rewrite !Hr in Hl. apply rights_fit in H2 as F2. apply rights_fit in H3 as F3.
  split.
  { apply body_parts with (n := len (fst (write_share s)) / 2); [exact Hh| | |].
    - rewrite Hl. destruct (sh_access_rights s), (sh_guest_rights s); reflexivity.
    - rewrite Hl. destruct (sh_access_rights s), (sh_guest_rights s); reflexivity.
    - cbn [write_share snd]. rewrite !len_app. change (len [x00]) with 1. lia. }
  split; [split; [rewrite Hl; destruct (sh_access_rights s), (sh_guest_rights s); vm_compute; discriminate|reflexivity]|].
  split; [apply Ht|]. split; [lia|].
  assert (Hw : fst (write_share s) = andx ++ le 2 0 ++ write_rights (sh_access_rights s) ++ write_rights (sh_guest_rights s)) by reflexivity.
  split; [|split; [|split]].
  - unfold rights_of. destruct (sh_access_rights s) as [a|]; [exists a; split; [|now apply within_flags]|].
    + rewrite Hw. unfold andx. cbn [write_rights]. clear Ht Hf Hr Hl Hw Hh. fd.
    + rewrite H4 in Hl by reflexivity. lia.
  - unfold rights_of. destruct (sh_guest_rights s) as [g|]; [exists g; split; [|now apply within_flags]|].
    + destruct (sh_access_rights s) as [a|]; [|discriminate (H4 eq_refl)].
      rewrite Hw. unfold andx. cbn [write_rights]. clear Ht Hf Hr Hl Hw Hh. fd.
    + destruct (sh_access_rights s); lia.
  - apply Hf.
  - split; [now apply utf8_of_utf8|]. split; [now apply no_nul with (1 := utf8_of_utf8 H5)|].
    change (N.testbit 0x4801 15) with false. cbv iota.
    split; [now rewrite app_nil_r|]. split; [now apply utf8_of_utf8|now apply no_nul with (1 := utf8_of_utf8 H7)].
Qed.

(** notifications *)
Lemma action_small a : action_number a < 4294967296.
Proof. destruct a; reflexivity. Qed.
Lemma chain_written l : Forall (fun c => str (fst c)) l -> forall a, len a + len (write_changes l) < 4294967296 ->
  notify_chain (a ++ write_changes l) (len a) l.
Proof.
  induction 1 as [|c r Hc Hr IH]; intros a Hl.
  - cbn [write_changes]. rewrite app_nil_r. apply chain_end.
  - cbn [write_changes]. cbv zeta. cbn [write_changes] in Hl. cbv zeta in Hl.
    pose proof (action_small (snd c)) as Ha.
    set (n := encode_utf16le (fst c)) in *. set (k := match r with [] => 0 | _ => 12 + len n end) in *.
    assert (Hk : k < 4294967296).
    { subst k. rewrite !len_app, !len_le in Hl. change (N.of_nat 4) with 4 in Hl. destruct r; lia. }
    assert (Hn : len n < 4294967296) by (rewrite !len_app, !len_le in Hl; lia).
    assert (He : notify_entry (a ++ le 4 k ++ le 4 (action_number (snd c)) ++ le 4 (len n) ++ n ++ write_changes r) (len a) c).
    { exists (len n), n. clear IH Hl. split; [fields; reflexivity|]. split; [fields; reflexivity|].
      split; [|now apply utf16le_encode]. rewrite bytes_at_app2 by lia. replace (len a + 12 - len a) with 12 by lia.
      fields. reflexivity. }
    assert (H0 : u32_at (a ++ le 4 k ++ le 4 (action_number (snd c)) ++ le 4 (len n) ++ n ++ write_changes r) (len a) = Some k)
      by (clear IH Hl He; fields; reflexivity).
    destruct r as [|c2 r].
    + apply chain_last; [exact H0|exact He].
    + apply chain_more with (next := k); [exact H0|subst k; lia|exact He|].
      assert (Hx : len (a ++ le 4 k ++ le 4 (action_number (snd c)) ++ le 4 (len n) ++ n) = len a + k)
        by (rewrite !len_app, !len_le; change (N.of_nat 4) with 4; unfold k; lia).
      rewrite <- Hx. 
      replace (a ++ le 4 k ++ le 4 (action_number (snd c)) ++ le 4 (len n) ++ n ++ write_changes (c2 :: r))
        with ((a ++ le 4 k ++ le 4 (action_number (snd c)) ++ le 4 (len n) ++ n) ++ write_changes (c2 :: r))
        by (rewrite <- !app_assoc; reflexivity).
      apply IH. rewrite Hx. rewrite !len_app, !len_le in Hl. change (N.of_nat 4) with 4 in Hl. unfold k in *. lia.
Qed.
Lemma body_block hd words pre b post o : len hd = 32 -> o = 35 + len words + len pre ->
  block (hd ++ body words (pre ++ b ++ post)) words (pre ++ b ++ post) o (len b) b.
Proof.
  intros Hh ->. split; [lia|]. split; [rewrite !len_app; lia|]. unfold body.
  rewrite bytes_at_app2 by lia. rewrite bytes_at_app2 by (rewrite len_le; lia). rewrite bytes_at_app2 by (rewrite len_le; lia).
  rewrite bytes_at_app2 by (rewrite !len_le; lia). rewrite bytes_at_app2 by (rewrite !len_le; lia).
  apply bytes_at_exact; [|reflexivity]. rewrite !len_le. change (N.of_nat 1) with 1. change (N.of_nat 2) with 2. lia.
Qed.
Lemma notification_written hd l : len hd = 32 -> proper_notification l ->
  notification_of (hd ++ body (fst (write_notification l)) (snd (write_notification l))) l.
Proof.
  intros Hh [H1 H2]. exists [], (write_changes l), []. split; [|now apply chain_written with (a := []); [|cbn; lia]].
  exists (fst (write_notification l)), (snd (write_notification l)), [], (len (write_changes l)), 0, (len (write_changes l)), 72, 0, 0, 0.
  assert (Hw : len (fst (write_notification l)) = 36)
    by (unfold write_notification; cbn [fst]; rewrite !len_app, !len_le, len_zeros; reflexivity).
  split; [apply body_parts with (n := 18); [exact Hh|exact Hw|lia|unfold write_notification; cbn [snd]; rewrite len_app; change (len [x00]) with 1; lia]|].
  assert (Hb : block (hd ++ body (fst (write_notification l)) (snd (write_notification l))) (fst (write_notification l))
     (snd (write_notification l)) 72 (len (write_changes l)) (write_changes l)).
  { replace (snd (write_notification l)) with ([x00] ++ write_changes l ++ []) by (rewrite app_nil_r; reflexivity).
    apply body_block; [exact Hh|]. rewrite Hw. reflexivity. }
  revert Hb. unfold write_notification. cbv zeta. cbn [fst snd]. intros Hb.
  assert (len (write_changes l) < 4294967296) by lia.
  repeat match goal with |- u32_at _ _ = _ /\ _ => split; [clear Hb Hw; fd|] end.
  split; [clear Hb Hw; fd|]. split; [reflexivity|]. split; [lia|]. split; [lia|].
  split; [|reflexivity]. destruct (N.eqb_spec (len (write_changes l)) 0) as [E|E]; [|exact Hb].
  now apply len_0 in E.
Qed.

(** searches *)
Lemma entry_written d : proper_entry d -> len (write_entry d) < 4294967296 -> dir_of (write_entry d) d.
Proof.
  intros (H1 & H2 & H3 & H4 & H5 & H6 & H7) Hl.
  exists (10 * d_creation d), (10 * d_access d), (10 * d_write d), (10 * d_change d), (d_attributes d),
    (len (encode_utf16le (d_filename d))), (encode_utf16le (d_filename d)).
  assert (Hn : len (encode_utf16le (d_filename d)) < 4294967296)
    by (unfold write_entry in Hl; cbv zeta in Hl; rewrite !len_app in Hl; lia).
  clear Hl. unfold write_entry. cbv zeta. within_bounds. opens. assert (d_attributes d < 4294967296) by lia.
  split; [fd|]. split; [rewrite N.mul_comm, N.div_mul; lia|]. split; [fd|]. split; [rewrite N.mul_comm, N.div_mul; lia|].
  split; [fd|]. split; [rewrite N.mul_comm, N.div_mul; lia|]. split; [fd|]. split; [rewrite N.mul_comm, N.div_mul; lia|].
  split; [fd|]. split; [fd|]. split; [now apply within_flags|]. split; [fd|]. split; [fd|]. now apply utf16le_encode.
Qed.
Lemma len_entry d : 60 <= len (write_entry d).
Proof. unfold write_entry. cbv zeta. rewrite !len_app, !len_le. change (N.of_nat 4) with 4. change (N.of_nat 8) with 8. lia. Qed.
Lemma entries_written l : Forall proper_entry l -> len (write_entries l) < 4294967296 -> entries true (write_entries l) l.
Proof.
  induction 1 as [|d r Hd Hr IH]; intros Hl; cbn [write_entries] in *; cbv zeta in *; [constructor|].
  pose proof (@len_entry d). rewrite !len_app, len_le in Hl. change (N.of_nat 4) with 4 in Hl.
  assert (He : dir_of (write_entry d) d) by (apply entry_written; [exact Hd|lia]).
  destruct r as [|d2 r].
  - apply entries_last; [reflexivity|apply u32_at_le; lia|]. cbn [write_entries]. rewrite app_nil_r.
    rewrite drop_exact' by reflexivity. exact He.
  - apply entries_more with (n := 4 + len (write_entry d)) (e := write_entry d).
    + apply u32_at_le; lia.
    + lia.
    + apply bytes_mid; [reflexivity|lia].
    + exact He.
    + rewrite app_assoc, drop_exact'; [apply IH; lia|]. rewrite len_app, len_le. reflexivity.
Qed.
Lemma reassembles_one b : reassembles [(0, b)] b.
Proof.
  exists (nonempty [(0, b)]). split; [reflexivity|]. unfold nonempty. cbn [filter snd].
  destruct (N.eqb_spec (len b) 0) as [E|E]; cbn [negb].
  - apply len_0 in E. subst b. constructor.
  - pose proof (@tiles_cons 0 b [] [] (tiles_nil _)) as H. rewrite app_nil_r in H. exact H.
Qed.
Lemma one_fragment hd a b id : len hd = 32 -> len a + len b < 65470 ->
  let p := hd ++ body (fst (write_trans2 a b)) (snd (write_trans2 a b)) in
  smb_reply p 0x32 0 id -> len p <= NB_MAX ->
  exists fs, fragments_arrive id (session_message p) fs [] /\ split_of fs a b /\ last_completes fs (len a) (len b).
Proof.
  intros Hh Hl p Hp Hmax. exists [mk_trans2 a (len a) 0 b (len b) 0]. split; [|split].
  - apply next_fragment with (p := p) (b' := []).
    + exists []. split; [constructor|]. split; [exact Hmax|now rewrite app_nil_r].
    + exact Hp.
    + exists (fst (write_trans2 a b)), (snd (write_trans2 a b)), [], (len a), 56, (len b), (56 + len a).
      assert (Hw : len (fst (write_trans2 a b)) = 20) by (unfold write_trans2; cbn [fst]; rewrite !len_app, !len_le; reflexivity).
      split; [apply body_parts with (n := 10); [exact Hh|exact Hw|lia|cbn [write_trans2 snd]; rewrite !len_app; change (len [x00]) with 1; lia]|].
      assert (Hb1 : block p (fst (write_trans2 a b)) (snd (write_trans2 a b)) 56 (len a) a).
      { unfold p, write_trans2. cbn [snd]. apply body_block; [exact Hh|]. cbn [fst]. rewrite !len_app, !len_le. reflexivity. }
      assert (Hb2 : block p (fst (write_trans2 a b)) (snd (write_trans2 a b)) (56 + len a) (len b) b).
      { unfold p. replace (snd (write_trans2 a b)) with (([x00] ++ a) ++ b ++ []) by (rewrite app_nil_r, <- app_assoc; reflexivity).
        apply body_block; [exact Hh|]. rewrite Hw, len_app. change (len [x00]) with 1. lia. }
      cbn [f_parameter f_parameter_total f_parameter_offset f_data f_data_total f_data_offset].
      split; [|split; [|split; [|split; [|split; [|split; [|split; [|split; [|split; [exact Hb1|exact Hb2]]]]]]]]];
        clear Hb1 Hb2 Hw Hp Hmax; clear p; unfold write_trans2; cbn [fst]; fd.
    + constructor.
  - split; [discriminate|]. split; [repeat constructor|]. split; apply reassembles_one.
  - intros fs1 fs2 H H1 H2. destruct fs1 as [|f1 fs1]; [contradiction|]. apply (f_equal (@length _)) in H.
    cbn in H. rewrite app_length in H. destruct fs2; [contradiction|]. cbn in H. lia.
Qed.
Lemma found_written f : proper_found f ->
  first_of (le 2 (ff_sid f) ++ le 2 (len (ff_info f)) ++ le 2 (write_flag (ff_end f)) ++ le 2 0 ++ le 2 0)
    (write_entries (ff_info f)) (ff_sid f) (ff_end f) (ff_info f).
Proof.
  intros (H1 & H2 & H3 & H4). unfold u16 in H1.
  assert (Hc : forall l, len l <= len (write_entries l)).
  { induction l as [|d l IH]; [reflexivity|]. cbn [write_entries]. cbv zeta. rewrite len_cons, !len_app. pose proof (@len_entry d). lia. }
  specialize (Hc (ff_info f)).
  split; [rewrite !len_app, !len_le; vm_compute; discriminate|]. split; [fd|]. split; [fd|].
  split; [|split; [apply entries_written; [exact H2|lia]|exact H3]].
  exists (write_flag (ff_end f)). assert (write_flag (ff_end f) < 65536) by (destruct (ff_end f); reflexivity).
  split; [fd|]. destruct (ff_end f); cbn; split; congruence.
Qed.

(** ** requests *)
Lemma backslashes_ok p q : windows_path p q -> q = backslashes p.
Proof.
  induction 1 as [|a b p q H _ ->]; [reflexivity|]. cbn [backslashes map]. f_equal.
  destruct H as [[-> ->]|[H ->]]; [reflexivity|]. destruct (N.eqb_spec a 47); [contradiction|reflexivity].
Qed.
Lemma wide_read p o n s : wide_at p o n s -> wide p o n = Some s.
Proof.
  intros (_ & b & Hb & H). pose proof (bytes_at_bound _ _ _ _ H) as [H1 H2]. rewrite len_app in H2. change (len [x00; x00]) with 2 in H2.
  unfold wide. unfold bytes_at in *. destruct (N.leb_spec (o + n) (len p)); [|lia]. destruct (N.leb_spec (o + (n - 2)) (len p)); [|lia].
  apply some_inj in H. replace (take (n - 2) (drop o p)) with b.
  - apply decode_utf16le_ok in Hb. now rewrite Hb.
  - replace (take (n - 2) (drop o p)) with (take (n - 2) (take n (drop o p))) by (rewrite take_take; f_equal; lia).
    rewrite H. symmetry. apply take_exact'. lia.
Qed.
Lemma path_read p o n s : path_at p o n s -> wide p o n = Some (backslashes s).
Proof. intros (q & Hq & H). apply backslashes_ok in Hq. subst q. now apply wide_read. Qed.
Lemma words_read p words data : smb_parts p words data [] ->
  exists count, u8_at p 32 = Some count /\ bytes_at p 33 (2 * count) = Some words /\ len words = 2 * count.
Proof.
  intros (h & n & Hh & Hw & Hn & Hd & ->). exists n. split; [|split; [|exact Hw]].
  - rewrite u8_at_app2 by lia. rewrite Hh. change (32 - 32) with 0. cbn [app]. rewrite u8_at_0, b2n_n2b. f_equal. apply N.mod_small. exact Hn.
  - rewrite app_assoc. apply bytes_mid; [rewrite len_app, Hh; reflexivity|lia].
Qed.
Lemma sub_at b o n r k m : bytes_at b o n = Some r -> k + m <= n -> bytes_at b (o + k) m = bytes_at r k m.
Proof.
  intros H Hk. pose proof (bytes_at_bound _ _ _ _ H) as [H1 H2]. unfold bytes_at in *.
  destruct (N.leb_spec (o + n) (len b)); [|lia]. destruct (N.leb_spec (o + k + m) (len b)); [|lia]. destruct (N.leb_spec (k + m) (len r)); [|lia].
  apply some_inj in H. subst r. f_equal. rewrite drop_take, take_take, drop_drop. f_equal. lia.
Qed.
Lemma sub_u16 b o n r k : bytes_at b o n = Some r -> k + 2 <= n -> u16_at b (o + k) = u16_at r k.
Proof.
  intros H Hk. pose proof (bytes_at_bound _ _ _ _ H) as [H1 H2]. pose proof (sub_at H Hk) as Hs.
  unfold bytes_at in H. destruct (N.leb_spec (o + n) (len b)); [|lia]. apply some_inj in H. subst r.
  assert (Hb : b = take o b ++ take n (drop o b) ++ drop n (drop o b)) by (rewrite !take_drop; reflexivity).
  rewrite Hb at 1. rewrite u16_at_app2 by (rewrite len_take; lia). rewrite u16_at_app1 by (rewrite !len_take, ?len_drop; lia).
  f_equal. rewrite len_take. lia.
Qed.
Lemma drop_at p o n r : bytes_at p o n = Some r -> drop o p = r ++ drop (o + n) p.
Proof.
  intros H. unfold bytes_at in H. destruct (N.leb_spec (o + n) (len p)); [|discriminate H]. apply some_inj in H. subst r.
  rewrite <- drop_drop, take_drop. reflexivity.
Qed.
Lemma wide_drop p o n s : wide_at p o n s -> ~ In 0 s -> parse_utf16le_0 (drop o p) = Ok (s, drop (o + n) p).
Proof.
  intros (_ & b & Hb & H) Hs. apply drop_at in H. rewrite H. apply parse_utf16le_0_ok. exists b.
  split; [now rewrite <- app_assoc|]. auto.
Qed.

Theorem understood R (c : call R) (unicode : bool) who id p words data :
  typed c -> unambiguous c -> smb_parts p words data [] ->
  request_header p (opcode c) (if unicode then 0xc843 else 0x4843) (op_tid c) who id ->
  asks unicode c p words data -> understand p = Some (Some_op (op_of c)).
Proof.
  intros Ht Hun Hp [_ _ Hcode _ _ Hf2 _ _ Htid _ _ _] Ha. destruct (words_read Hp) as (count & Hc1 & Hc2 & Hc3).
  unfold understand. rewrite Hcode, Hf2, Htid, Hc1, Hc2. clear Hcode Hf2 Htid Hc1 Hc2.
  assert (Hbit : N.testbit (if unicode then 0xc843 else 0x4843) 15 = unicode) by (destruct unicode; reflexivity).
  assert (Hmount : forall path password, asks_mount unicode p words path password ->
    read_mount unicode p words = Some (Some_op (OMount (backslashes path) (sent_password password)))).
  { intros path password (_ & _ & _ & pw & Hpw & Hn & Hraw & o & n & Hq & Hlen & Hrest).
    unfold read_mount. rewrite Hn, Hraw.
    assert (Hd : exists pass, utf8_decode pw = Some pass /\ sent_password pass = sent_password password).
    { destruct password as [|c0 password].
      - cbn in Hpw. subst pw. exists [0]. split; reflexivity.
      - cbn [N.ltb N.compare] in Hpw. replace (0 <? len (c0 :: password)) with true in Hpw by (symmetry; apply N.ltb_lt; rewrite len_cons; lia).
        exists (c0 :: password). split; [now apply utf8_decode_iff|reflexivity]. }
    destruct Hd as (pass & -> & ->). cbv zeta. destruct unicode.
    - destruct Hrest as [Ho Hpath]. assert (He : o mod 2 = 0) by (destruct Hpath as (q & _ & H & _); exact H).
      replace (43 + len pw + (43 + len pw) mod 2) with o by lia. replace (len p - 6 - o) with n by lia.
      rewrite (path_read Hpath). reflexivity.
    - destruct Hrest as (-> & q & b & Hq' & Hb & Hat). apply backslashes_ok in Hq'. subst q.
      rewrite N.add_0_r. pose proof (bytes_at_bound _ _ _ _ Hat) as [H1 H2]. rewrite len_app in H2. change (len [x00]) with 1 in H2.
      replace (len p - 7 - (43 + len pw)) with (n - 1) by lia.
      replace (43 + len pw) with (43 + len pw + 0) by lia. rewrite (sub_at Hat) by lia.
      rewrite bytes_at_exact by lia. apply utf8_decode_iff in Hb. rewrite Hb. reflexivity. }
  assert (Hopen : forall access sharing options path, asks_open access sharing options p words path ->
    forall tid, read_open tid p words = Some (if options =? 1 then Some_op (OOpenDir tid (backslashes path)) else Some_op (OOpenFile tid (backslashes path)))).
  { intros access sharing options path (_ & _ & _ & (n & Hn & Hpath & _) & _ & _ & _ & _ & _ & _ & _ & Ho & _) tid.
    unfold read_open. rewrite Hn, (path_read Hpath), Ho. reflexivity. }
  assert (Htr : forall sub parameter o n name, asks_trans2 sub p words parameter -> u16_at words 20 = Some o -> len parameter = 12 + n ->
    wide p (o + 12) n = Some name -> exists sid, u16_at parameter 0 = Some sid /\
    forall tid, read_trans2 tid p words = Some (if sub =? 1 then Some_op (OFindFirst tid name) else Some_op (OFindNext tid sid name))).
  { intros sub parameter o n name (_ & _ & _ & _ & _ & _ & _ & _ & H18 & (o' & H20 & _ & Hpar) & _ & _ & _ & Hsub) Ho Hn Hname.
    rewrite Ho in H20. apply some_inj in H20. subst o'. 
    assert (Hsid : exists sid, u16_at parameter 0 = Some sid) by (exists (fld 2 parameter 0); apply u16_fld; lia).
    destruct Hsid as [sid Hsid]. exists sid. split; [exact Hsid|]. intros tid. unfold read_trans2. rewrite H18, Ho, Hsub.
    pose proof (sub_u16 (k := 0) Hpar ltac:(lia)) as Hs. rewrite N.add_0_r in Hs. rewrite Hs, Hsid.
    replace (len parameter - 12) with n by lia. rewrite Hname. reflexivity. }
  destruct c; cbn [opcode op_tid asks op_of N.eqb Pos.eqb] in *.
  - rewrite Hbit. now apply Hmount.
  - rewrite Hbit. now apply (Hmount path []).
  - reflexivity.
  - rewrite (Hopen _ _ _ _ Ha). reflexivity.
  - rewrite (Hopen _ _ _ _ Ha). reflexivity.
  - destruct Ha as (_ & -> & _). reflexivity.
  - destruct Ha as (_ & _ & -> & (low & high & -> & -> & ->) & _). reflexivity.
  - destruct Ha as (_ & _ & _ & n & Hpath & Hn). replace (len p - 38) with n by lia. rewrite (path_read Hpath). reflexivity.
  - destruct Ha as (_ & _ & n & Hpath & Hn). replace (len p - 36) with n by lia. rewrite (path_read Hpath). reflexivity.
  - destruct Ha as (_ & _ & _ & _ & _ & _ & _ & _ & _ & _ & _ & _ & -> & -> & _). reflexivity.
  - destruct Ha as (_ & _ & _ & _ & _ & _ & _ & _ & _ & _ & _ & _ & -> & -> & _). reflexivity.
  - destruct Ha as (parameter & o & n & H1 & _ & _ & _ & _ & _ & H20 & Hn & Hpath).
    destruct (Htr _ _ _ _ _ H1 H20 Hn (path_read Hpath)) as (sid & _ & ->). reflexivity.
  - destruct Ha as (parameter & o & n & H1 & Hsid & _ & _ & _ & _ & H20 & Hn & Hpath).
    destruct (Htr _ _ _ _ _ H1 H20 Hn (wide_read Hpath)) as (sid' & Hsid' & ->).
    rewrite Hsid in Hsid'. apply some_inj in Hsid'. subst sid'. reflexivity.
  - reflexivity.
  - destruct Ha as (Hw & _ & Hn & _ & _ & Hsec & _ & n & m & Hu & Hd & _ & _). destruct Hun as [Hun1 Hun2].
    unfold read_setup. rewrite Hn, Hw, Hsec. cbn [N.eqb Pos.eqb].
    rewrite (wide_drop Hu Hun1), (wide_drop Hd Hun2). reflexivity.
  - destruct Ha as (Hw & _ & Hn & _ & Hb & _). unfold read_setup. rewrite Hn, Hw, Hb. reflexivity.
Qed.

(** ** the server *)
Lemma code_op R (c : call R) : code_of (op_of c) = opcode c.
Proof. destruct c; reflexivity. Qed.
Lemma code_known R (o : op R) : In (code_of o) known_codes.
Proof. destruct o; cbn; auto 20. Qed.
Lemma arrives_one id p : len p <= NB_MAX -> reply_arrives id (session_message p) p [].
Proof. intros H. exists []. split; [constructor|]. split; [exact H|]. now rewrite app_nil_r. Qed.


Lemma reply_written R (c : call R) tid who id v hd : single_reply c -> len hd = 32 -> u16 id -> proper_value (op_of c) v ->
  hd = header (code_of (op_of c)) 0 0x4801 (reply_tid (op_of c) tid v) (reply_uid (op_of c) who v) id ->
  decodes c (hd ++ body (fst (write (op_of c) v)) (snd (write (op_of c) v))) v.
Proof.
  intros Hs Hh Hid Hv ->.
  destruct c; cbn [single_reply] in Hs; try tauto; cbn [op_of proper_value write reply_tid reply_uid code_of decodes] in *.
  - apply share_written; [exact Hh|intros b; apply header_tid, Hv|intros b; now apply header_flags2|exact Hv].
  - apply share_written; [exact Hh|intros b; apply header_tid, Hv|intros b; now apply header_flags2|exact Hv].
  - exists [], [], []. now apply body_parts with (n := 0).
  - apply handle_written; [exact Hh|intros b; apply header_tid, Hv|exact Hv].
  - apply handle_written; [exact Hh|intros b; apply header_tid, Hv|exact Hv].
  - exists [], [], []. now apply body_parts with (n := 0).
  - now apply read_written.
  - exists [], [], []. now apply body_parts with (n := 0).
  - exists [], [], []. now apply body_parts with (n := 0).
  - now apply notification_written.
  - now apply notification_written.
  - now apply server_written.
  - apply session_written; [exact Hh|intros b; apply header_uid, Hv|exact Hv].
  - apply session_written; [exact Hh|intros b; apply header_uid, Hv|exact Hv].
Qed.
Lemma len_rights r : len (write_rights r) <= 4.
Proof. destruct r; cbn [write_rights]; [rewrite len_le; reflexivity|vm_compute; discriminate]. Qed.
Lemma written_small R (o : op R) v : proper_value o v ->
  len (fst (write o v)) <= 510 /\ len (snd (write o v)) <= 65535.
Proof.
  destruct o; cbn [proper_value write]; intros H;
    try match goal with |- len (fst ([], [])) <= _ /\ _ => cbn [fst snd]; split; vm_compute; discriminate end.
  - pose proof (@len_rights (sh_access_rights v)). pose proof (@len_rights (sh_guest_rights v)).
    destruct H as (_ & _ & _ & _ & _ & _ & H). cbn [write_share fst snd]. rewrite !len_app, !len_le.
    change (len andx) with 4. change (len [x00]) with 1. change (N.of_nat 2) with 2. lia.
  - cbn [write_handle fst snd]. rewrite !len_app, !len_le. split; vm_compute; discriminate.
  - cbn [write_handle fst snd]. rewrite !len_app, !len_le. split; vm_compute; discriminate.
  - cbn [write_read fst snd]. rewrite !len_app, !len_le, len_zeros. split; [vm_compute; discriminate|lia].
  - destruct H as [_ H]. unfold write_notification. cbv zeta. cbn [fst snd]. rewrite !len_app, !len_le, len_zeros.
    split; [vm_compute; discriminate|change (len [x00]) with 1; lia].
  - destruct H as (_ & _ & _ & H). unfold write_found, write_trans2. cbn [fst snd]. rewrite !len_app, !len_le.
    split; [vm_compute; discriminate|]. change (len [x00]) with 1. change (N.of_nat 2) with 2. lia.
  - destruct H as (H & _). unfold write_found_next, write_trans2. rewrite H. cbn [fst snd write_entries]. rewrite !len_app, !len_le.
    split; vm_compute; discriminate.
  - destruct H as (_ & _ & _ & _ & _ & _ & _ & _ & _ & _ & H). cbn [write_server fst snd]. rewrite !len_app, !len_le.
    split; [vm_compute; discriminate|lia].
  - destruct H as (_ & H). cbn [write_session fst snd]. rewrite !len_app, !len_le. split; [vm_compute; discriminate|lia].
  - destruct H as (_ & H). cbn [write_session fst snd]. rewrite !len_app, !len_le. split; [vm_compute; discriminate|lia].
Qed.
Lemma len_body words data : len (body words data) = 3 + len words + len data.
Proof. unfold body. rewrite !len_app, !len_le. change (N.of_nat 1) with 1. change (N.of_nat 2) with 2. lia. Qed.

Theorem ref_conforming St (B : service St) : proper B -> conforming (ref_server B) B (fun s => s).
Proof.
  intros HB s R c unicode who id p words data Ht Hun _ Hp Hh Ha.
  pose proof (understood Ht Hun Hp Hh Ha) as Hu. pose proof Hh as [_ _ _ _ _ _ _ _ Htid _ Huid Hid].
  pose proof (u16_at_bound _ _ _ Hid) as [_ Hid']. fold (u16 id) in Hid'.
  unfold ref_server. cbv zeta. unfold session_message, nb_frame. cbn [app]. change (drop 4 (?a :: ?b :: ?c :: ?d :: ?r)) with r.
  replace (drop 4 (n2b 0 :: n2b (len p / 65536) :: n2b (len p / 256) :: n2b (len p) :: p)) with p by reflexivity.
  rewrite Hu, Htid, Huid, Hid. specialize (HB R who (op_of c) s). destruct (B R who (op_of c) s) as [r s'] eqn:Er. cbn [fst snd] in *.
  eexists s', _. split; [reflexivity|]. split; [reflexivity|].
  change ([n2b 0; _; _; _] ++ ?r) with (session_message r).
  destruct r as [v|st]; cbn [answers write_reply].
  - rewrite code_op. set (hd := header _ _ _ _ _ _). assert (Hhd : len hd = 32) by apply header_len.
    pose proof (written_small HB) as [Hw Hd].
    assert (Hmax : len (hd ++ body (fst (write (op_of c) v)) (snd (write (op_of c) v))) <= NB_MAX)
      by (rewrite len_app, Hhd, len_body; unfold NB_MAX; lia).
    assert (Hsr : forall b, smb_reply (hd ++ b) (opcode c) 0 id)
      by (intros b; apply header_reply; [rewrite <- code_op; apply code_known|lia|exact Hid']).
    split; intros Hs.
    + eexists _, 0. split; [apply arrives_one; exact Hmax|]. split; [apply Hsr|]. split; [left; reflexivity|].
      apply reply_written with (tid := op_tid c) (who := who) (id := id); try assumption. rewrite code_op. reflexivity.
    + destruct c; cbn [single_reply] in Hs; try tauto; cbn [op_of proper_value write] in *.
      * pose proof HB as (_ & _ & _ & Hl). pose proof (found_written HB) as Hf. unfold write_found in *.
        set (a := le 2 (ff_sid v) ++ _) in *. assert (Hla : len a = 10) by (unfold a; rewrite !len_app, !len_le; reflexivity).
        clearbody a. set (b := write_entries (ff_info v)) in *. clearbody b.
        assert (Hab : len a + len b < 65470) by lia.
        destruct (one_fragment Hhd Hab (Hsr _) Hmax) as (fs & H1 & H2 & H3).
        exists fs, a, b. split; [exact H1|]. split; [exact H2|]. split; [exact H3|]. exact Hf.
      * pose proof HB as [Hl He]. 
        assert (Hf : next_of (le 2 (len (fn_info v)) ++ le 2 (write_flag (fn_end v)) ++ le 2 0 ++ le 2 0) (write_entries (fn_info v)) (fn_end v) (fn_info v)).
        { rewrite Hl, He. split; [reflexivity|]. split; [exists 1; split; [reflexivity|split; [discriminate|reflexivity]]|].
          split; [constructor|reflexivity]. }
        assert (Hb : len (write_entries (fn_info v)) = 0) by (rewrite Hl; reflexivity).
        unfold write_found_next in *.
        set (a := le 2 (len (fn_info v)) ++ _) in *. assert (Hla : len a = 8) by (unfold a; rewrite !len_app, !len_le; reflexivity).
        clearbody a. set (b := write_entries (fn_info v)) in *. clearbody b.
        assert (Hab : len a + len b < 65470) by lia.
        destruct (one_fragment Hhd Hab (Hsr _) Hmax) as (fs & H1 & H2 & H3).
        exists fs, a, b. split; [exact H1|]. split; [exact H2|]. split; [exact H3|]. exact Hf.
  - destruct HB as (H1 & H2 & H3). rewrite code_op in H3 |- *. eexists. split; [apply arrives_one|split; [apply header_reply|]].
    + rewrite len_app, header_len, len_body. vm_compute. discriminate.
    + rewrite <- code_op. apply code_known.
    + exact H1.
    + exact Hid'.
    + intros [X|[X Y]]; [contradiction|]. now apply H3.
Qed.
