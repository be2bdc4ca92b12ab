(** * AccountFacts: logging in at services that check logins. *)
From Coq Require Import Lia.
From Verif Require Import Base BaseFacts Text TextFacts Utils Win Errors Common Reply Ntlm Prog Client Spec SpecFacts SpecReply SpecNtlm SpecMsg
  Api SpecCall RunFacts MsgFacts NtlmFacts Flow FlowFacts SpecLogin OpenFacts SpecRemote RemoteFacts RefServer RefFacts FileService FileFacts SpecAccount SpecUpper.
Set Implicit Arguments.
Unset Strict Implicit.
Open Scope N_scope.

Lemma v1_from_hash E password challenge nt : v1_response E password challenge nt <-> exists h, nt_hash E password h /\ proves_v1 E h challenge nt.
Proof.
  split.
  - intros (pw & h & a & b & c & k1 & k2 & k3 & H1 & H2 & H3 & H4). exists h. split; [now exists pw|]. now exists a, b, c, k1, k2, k3.
  - intros (h & (pw & H1 & H2) & a & b & c & k1 & k2 & k3 & H3 & H4). now exists pw, h, a, b, c, k1, k2, k3.
Qed.
Lemma v2_from_hash E password user domain time challenge info nt : v2_response E password user domain time challenge info nt ->
  exists h, nt_hash E password h /\ proves_v2 E h user domain challenge nt.
Proof.
  intros (pw & name & tag & H1 & H2 & H3 & H4). exists (md4 E pw). split; [now exists pw|].
  exists name, tag, (v2_blob time (rnd E) info). split; [exact H2|]. split; [exact H4|]. split; [|exact H3].
  rewrite H3. unfold len. now rewrite hmac_len.
Qed.
Lemma nt_hash_fun E password h h' : nt_hash E password h -> nt_hash E password h' -> h = h'.
Proof. intros (a & Ha & ->) (b & Hb & ->). f_equal. apply utf16le_of_encode in Ha. apply utf16le_of_encode in Hb. destruct Ha, Hb. congruence. Qed.
Lemma key_there k : len k = 7 -> exists e, des_key k e.
Proof.
  intros H. destruct (@expand_total unit k) as (e & He); [lia|]. exists e. destruct (expand_padded He) as (_ & Hk).
  now rewrite H, N.sub_diag, app_nil_r in Hk.
Qed.
Lemma bytes_dec (x y : bytes) : x = y \/ x <> y.
Proof. destruct (list_eq_dec Byte.byte_eq_dec x y); auto. Qed.
Lemma v1_there E h challenge : len h = 16 -> exists nt, proves_v1 E h challenge nt /\ forall nt', proves_v1 E h challenge nt' -> nt' = nt.
Proof.
  intros Hh.
  destruct (@key_there (take 7 h)) as (k1 & H1); [rewrite len_take; lia|].
  destruct (@key_there (take 7 (drop 7 h))) as (k2 & H2); [rewrite len_take, len_drop; lia|].
  destruct (@key_there (drop 14 h ++ zeros 5)) as (k3 & H3); [rewrite len_app, len_drop, len_zeros; lia|].
  assert (Hsp : h = take 7 h ++ take 7 (drop 7 h) ++ drop 14 h).
  { rewrite <- (take_drop 7 h) at 1. f_equal. rewrite <- (take_drop 7 (drop 7 h)) at 1. f_equal. rewrite drop_drop. reflexivity. }
  eexists. split.
  - exists (take 7 h), (take 7 (drop 7 h)), (drop 14 h), k1, k2, k3. auto.
  - intros nt' (a & b & c & e1 & e2 & e3 & Hs & Ha & Hb & Hc & ->).
    assert (La : len a = 7) by apply Ha. assert (Lb : len b = 7) by apply Hb.
    assert (Ea : take 7 h = a) by (rewrite Hs, <- La; apply take_exact).
    assert (Eb : take 7 (drop 7 h) = b) by (rewrite Hs, <- La, drop_exact, La, <- Lb; apply take_exact).
    assert (Ec : drop 14 h = c).
    { replace (drop 14 h) with (drop 7 (drop 7 h)) by (rewrite drop_drop; reflexivity).
      rewrite Hs. rewrite <- La at 2. rewrite drop_exact. rewrite <- Lb. apply drop_exact. }
    rewrite Ea in H1. rewrite Eb in H2. rewrite Ec in H3.
    now rewrite (des_key_fun H1 Ha), (des_key_fun H2 Hb), (des_key_fun H3 Hc).
Qed.
Lemma v1_dec E h challenge nt : proves_v1 E h challenge nt \/ ~ proves_v1 E h challenge nt.
Proof.
  destruct (N.eq_dec (len h) 16) as [H|H].
  - destruct (v1_there E challenge H) as (x & Hx & Hu). destruct (bytes_dec nt x) as [->|Hne]; [now left|]. right. intros Hp. now apply Hne, Hu.
  - right. intros (a & b & c & k1 & k2 & k3 & -> & (Ha & _) & (Hb & _) & (Hc & _) & _). apply H. rewrite !len_app in *. rewrite len_zeros in Hc. lia.
Qed.
Lemma genuine_v1_dec E known user domain challenge nt : genuine_v1 E known user domain challenge nt \/ ~ genuine_v1 E known user domain challenge nt.
Proof.
  unfold genuine_v1. destruct (known user domain) as [h|]; [|right; now intros (h & H & _)].
  destruct (v1_dec E h challenge nt) as [H|H]; [left; now exists h|]. right. intros (h' & [= <-] & H'). contradiction.
Qed.
Lemma str_dec s : is_str s \/ ~ is_str s.
Proof. unfold is_str. destruct (is_text s); auto. Qed.
Lemma v2_dec E h user domain challenge nt : proves_v2 E h user domain challenge nt \/ ~ proves_v2 E h user domain challenge nt.
Proof.
  destruct (str_dec (upper E user ++ domain)) as [Hs|Hs].
  - pose proof (utf16le_encode (proj1 (is_text_str _) Hs)) as Hn.
    destruct (N.le_gt_cases 16 (len nt)) as [Hl|Hl].
    + destruct (bytes_dec (take 16 nt) (hmac E (hmac E h (encode_utf16le (upper E user ++ domain))) (challenge ++ drop 16 nt))) as [He|He].
      * left. exists (encode_utf16le (upper E user ++ domain)), (take 16 nt), (drop 16 nt).
        split; [exact Hn|]. split; [symmetry; apply take_drop|]. split; [rewrite len_take; lia|exact He].
      * right. intros (name & tag & rest & H1 & -> & H3 & H4). apply He. rewrite <- H3, take_exact, drop_exact.
        apply utf16le_of_encode in H1. destruct H1 as [<- _]. exact H4.
    + right. intros (name & tag & rest & H1 & -> & H3 & H4). rewrite len_app in Hl. lia.
  - right. intros (name & tag & rest & H1 & _). apply Hs. apply is_text_str. now apply utf16le_of_encode in H1.
Qed.
Lemma genuine_v2_dec E known user domain challenge nt : genuine_v2 E known user domain challenge nt \/ ~ genuine_v2 E known user domain challenge nt.
Proof.
  unfold genuine_v2. destruct (known user domain) as [h|]; [|right; now intros (h & H & _)].
  destruct (v2_dec E h user domain challenge nt) as [H|H]; [left; now exists h|]. right. intros (h' & [= <-] & H'). contradiction.
Qed.
Lemma v1_fun E password challenge x y : v1_response E password challenge x -> v1_response E password challenge y -> x = y.
Proof.
  intros Hx Hy. apply v1_from_hash in Hx. apply v1_from_hash in Hy. destruct Hx as (h & H1 & H2), Hy as (h' & H1' & H2').
  rewrite <- (nt_hash_fun H1 H1') in H2'.
  assert (Hh : len h = 16) by (destruct H1 as (pw & _ & ->); unfold len; now rewrite md4_len).
  destruct (v1_there E challenge Hh) as (z & _ & Hz). now rewrite (Hz _ H2), (Hz _ H2').
Qed.
Lemma v2_fun E password user domain time challenge info x y : v2_response E password user domain time challenge info x ->
  v2_response E password user domain time challenge info y -> x = y.
Proof.
  intros (p & n & t & H1 & H2 & -> & ->) (p' & n' & t' & H1' & H2' & -> & ->).
  apply utf16le_of_encode in H1. apply utf16le_of_encode in H1'. apply utf16le_of_encode in H2. apply utf16le_of_encode in H2'.
  destruct H1 as [-> _], H1' as [-> _], H2 as [-> _], H2' as [-> _]. reflexivity.
Qed.
(** who has the password is admitted *)
Lemma registered_v1 E known a challenge nt : registered E known a -> v1_response E (a_password a) challenge nt ->
  genuine_v1 E known (a_user a) (a_domain a) challenge nt.
Proof.
  intros (h & Hk & Hh) Hr. exists h. split; [exact Hk|]. apply v1_from_hash in Hr. destruct Hr as (h' & Hh' & Hp).
  now rewrite (nt_hash_fun Hh Hh').
Qed.
Lemma registered_v2 E known a time challenge info nt : registered E known a ->
  v2_response E (a_password a) (a_user a) (a_domain a) time challenge info nt ->
  genuine_v2 E known (a_user a) (a_domain a) challenge nt.
Proof.
  intros (h & Hk & Hh) Hr. exists h. split; [exact Hk|]. apply v2_from_hash in Hr. destruct Hr as (h' & Hh' & Hp).
  now rewrite (nt_hash_fun Hh Hh').
Qed.

(** ** the login as a program *)
Lemma encoded_size u s : len (encoded u s) <= text_size s.
Proof.
  unfold encoded, text_size. destruct u.
  - rewrite len_encode_utf16le, utf16_len_utf16. lia.
  - rewrite utf8_len_utf8. lia.
Qed.
Section Login.
Variable St : Type.
Variable B : service St.
Variable E : env.
Variable known : accounts.
Lemma local_login_v1 c st s st1 entered : typed_auth (auth_of c) ->
  ~ In 0 (a_user (auth_of c)) -> ~ In 0 (a_domain (auth_of c)) ->
  B (uid c) ONegotiate st = (inl s, st1) -> N.testbit (s_capabilities s) 31 = false -> len (s_challenge s) = 8 ->
  checks_v1 E known B (s_challenge s) st1 entered -> fits_v1 (N.testbit (s_capabilities s) 2) (auth_of c) ->
  exists r c' st', local B (setup_flow E) c st 2 r c' st'
  /\ decided (admitted_v1 E known (auth_of c) (s_challenge s)) entered r (uid c') st'.
Proof.
  intros (Hu & Hw & Hd & Hp) Hnu Hnd HB Hc Hl Hck Hfit.
  assert (exists nt, ntlmv1_authenticate E (X := ntlm_error) (auth_of c) (s_challenge s) = Ok nt) as (nt & Hnt).
  { destruct (ntlmv1_authenticate E (X := ntlm_error) (auth_of c) (s_challenge s)) as [nt|e|] eqn:Hn; [now exists nt| |].
    - now apply v1_no_error in Hn.
    - apply v1_crash in Hn. contradiction. }
  pose proof (proj1 (v1_good E nt Hp Hl) Hnt) as Hv.
  assert (Hln : len nt = 24) by exact (v1_length Hnt).
  set (c1 := set_options (s_max_buffer_size s) (N.testbit (s_capabilities s) 2) (next_client c)).
  assert (Hf : fits_request (use_unicode c1) (SetupAuth (a_user (auth_of c)) (a_domain (auth_of c)) nt)).
  { unfold fits_v1, fits_request in *. rewrite len_zeros in Hfit. rewrite Hln. exact Hfit. }
  assert (HL : forall r st2, B (uid c1) (OSetupAuth (a_user (auth_of c)) (a_domain (auth_of c)) nt) st1 = (r, st2) ->
     forall a c' st', local B (fbind (FRet (returned r)) (fun r => FUid (ss_uid r) (FRet (Good tt)))) (next_client c1) st2 0 a c' st' ->
     local B (setup_flow E) c st 2 a c' st').
  { intros r st2 HBr a c' st' Hrest. unfold setup_flow, fcall. cbn [fbind].
    apply l_call with (r := inl s) (st1 := st1); [exact I|exact I|exact I|exact HB|]. cbn [returned fbind].
    apply l_options, l_state. fold c1. rewrite Hc. change (auth_of c1) with (auth_of c). rewrite Hnt. cbn [flift fbind].
    apply l_call with (r := r) (st1 := st2); [now split|now split|exact Hf|exact HBr|exact Hrest]. }
  destruct (Hck (uid c1) (a_user (auth_of c)) (a_domain (auth_of c)) nt) as (Hyes & Hno).
  destruct (genuine_v1_dec E known (a_user (auth_of c)) (a_domain (auth_of c)) (s_challenge s) nt) as [Hg|Hg].
  - destruct (Hyes Hg) as (r & st2 & HBr & Hur & Hent). exists (Good tt), (set_uid (ss_uid r) (next_client c1)), st2.
    split; [|left; split; [now exists nt|split; [reflexivity|exact Hent]]].
    apply (HL _ _ HBr). cbn [returned fbind]. apply l_uid; [exact Hur|constructor].
  - destruct (Hno Hg) as (st2 & HBr). exists (Bad (ServerError (Known LOGIN_FAILURE))), (next_client c1), st2.
    split; [|right; split; [|reflexivity]].
    + apply (HL _ _ HBr). constructor.
    + intros (nt' & Hv' & Hg'). rewrite (v1_fun Hv Hv') in Hg. contradiction.
Qed.
Lemma local_login_at S c st s st1 most t entered : typed_auth (auth_of c) -> clock E t ->
  B (uid c) ONegotiate st = (inl s, st1) -> N.testbit (s_capabilities s) 31 = true ->
  checks_v2 S known B most st1 entered -> fits_v2 most (auth_of c) ->
  exists r c' st' m1 r1 st2 ch, local B (setup_flow E) c st 3 r c' st'
  /\ negotiate_message (a_domain (auth_of c)) (a_workstation (auth_of c)) m1
  /\ B (uid c) (OSetupBlob m1) st1 = (inl r1, st2) /\ challenge_of (ss_blob r1) ch
  /\ decided (admitted_at S E known (auth_of c) t (ch_challenge ch) (ch_info ch)) entered r (uid c') st'.
Proof.
  intros (Hu & Hw & Hd & Hp) Ht HB Hc Hck Hfit.
  pose proof (@encoded_size false (a_domain (auth_of c))) as S1. pose proof (@encoded_size false (a_workstation (auth_of c))) as S2.
  cbn [encoded] in S1, S2. unfold fits_v2 in Hfit.
  destruct (@init_fits (a_domain (auth_of c)) (a_workstation (auth_of c))) as (m1 & Hm1); [lia|lia|].
  pose proof (init_good Hd Hw Hm1) as Hneg.
  set (c1 := set_options (s_max_buffer_size s) (N.testbit (s_capabilities s) 2) (next_client c)).
  destruct (Hck (uid c) _ _ _ Hneg) as (r1 & st2 & ch & HB1 & Hur & Hch & Hinfo & Hfin).
  set (c2 := set_uid (ss_uid r1) (next_client c1)). set (u := N.testbit (ch_flags ch) 0) in *.
  pose proof (@encoded_size u (a_domain (auth_of c))) as S3. pose proof (@encoded_size u (a_workstation (auth_of c))) as S4.
  pose proof (@encoded_size u (a_user (auth_of c))) as S5.
  destruct (@authenticate_fits E (auth_of c) ch t Ht) as (m3 & Hm3); [lia|fold u; lia|fold u; lia|fold u; lia|].
  destruct (proj1 (authenticate_iff ch m3 (conj Hu (conj Hw (conj Hd Hp))) Ht) Hm3) as (nt & Hv & Hauth). fold u in Hauth.
  assert (Hlm1 : len m1 <= 40 + text_size (a_domain (auth_of c)) + text_size (a_workstation (auth_of c))).
  { destruct Hneg as (d & w & Hd8 & Hw8 & _ & _ & _ & _ & _ & _ & Hlen). apply utf8_of_inv in Hd8. apply utf8_of_inv in Hw8.
    destruct Hd8 as [_ ->], Hw8 as [_ ->]. lia. }
  assert (Hln : len nt = 48 + len (ch_info ch)) by (apply (@v2_length E (auth_of c)); now apply (v2_good ch nt Hp Hu Hd Ht)).
  assert (Hlm3 : len m3 <= 124 + most + text_size (a_user (auth_of c)) + text_size (a_domain (auth_of c)) + text_size (a_workstation (auth_of c))).
  { destruct Hauth as (d & x & w & Hd8 & Hx8 & Hw8 & _ & _ & _ & _ & _ & _ & _ & Hlen).
    apply oem_encoded in Hd8. apply oem_encoded in Hx8. apply oem_encoded in Hw8. subst d x w. lia. }
  assert (HL : forall r st3, B (uid c2) (OSetupBlob m3) st2 = (r, st3) ->
     forall a c' st', local B (fbind (FRet (returned r)) (fun _ => FRet (Good tt))) (next_client c2) st3 0 a c' st' ->
     local B (setup_flow E) c st 3 a c' st').
  { intros r st3 HBr a c' st' Hrest. unfold setup_flow, fcall. cbn [fbind].
    apply l_call with (r := inl s) (st1 := st1); [exact I|exact I|exact I|exact HB|]. cbn [returned fbind].
    apply l_options, l_state. fold c1. rewrite Hc. change (auth_of c1) with (auth_of c). rewrite Hm1. cbn [flift fbind].
    apply l_call with (r := inl r1) (st1 := st2); [exact I|exact I| |exact HB1|].
    { cbn [fits_request]. destruct (use_unicode c1); zify; lia. }
    cbn [returned fbind]. apply l_uid; [exact Hur|]. fold c2. rewrite (proj2 (challenge_ok _ _) Hch). cbn [flift fbind].
    rewrite Hm3. cbn [flift fbind]. apply l_call with (r := r) (st1 := st3); [exact I|exact I| |exact HBr|exact Hrest].
    cbn [fits_request]. destruct (use_unicode c2); zify; lia. }
  destruct (Hfin _ _ _ _ _ Hauth) as (Hyes & Hno).
  destruct (genuine_v2_dec S known (a_user (auth_of c)) (a_domain (auth_of c)) (ch_challenge ch) nt) as [Hg|Hg].
  - destruct (Hyes Hg) as (r3 & st3 & HBr & Hent). exists (Good tt), (next_client c2), st3, m1, r1, st2, ch.
    split; [apply (HL _ _ HBr); constructor|]. split; [exact Hneg|]. split; [exact HB1|]. split; [exact Hch|].
    left. split; [now exists nt|]. split; [reflexivity|exact Hent].
  - destruct (Hno Hg) as (st3 & HBr). exists (Bad (ServerError (Known LOGIN_FAILURE))), (next_client c2), st3, m1, r1, st2, ch.
    split; [apply (HL _ _ HBr); constructor|]. split; [exact Hneg|]. split; [exact HB1|]. split; [exact Hch|].
    right. split; [|reflexivity]. intros (nt' & Hv' & Hg'). rewrite (v2_fun Hv Hv') in Hg. contradiction.
Qed.
Lemma local_login_v2 c st s st1 most t entered : typed_auth (auth_of c) -> clock E t ->
  B (uid c) ONegotiate st = (inl s, st1) -> N.testbit (s_capabilities s) 31 = true ->
  checks_v2 E known B most st1 entered -> fits_v2 most (auth_of c) ->
  exists r c' st' m1 r1 st2 ch, local B (setup_flow E) c st 3 r c' st'
  /\ negotiate_message (a_domain (auth_of c)) (a_workstation (auth_of c)) m1
  /\ B (uid c) (OSetupBlob m1) st1 = (inl r1, st2) /\ challenge_of (ss_blob r1) ch
  /\ decided (admitted_v2 E known (auth_of c) t (ch_challenge ch) (ch_info ch)) entered r (uid c') st'.
Proof. exact (@local_login_at E c st s st1 most t entered). Qed.
End Login.

Section Remote.
Variables Sv St : Type.
Variable react : Sv -> bytes -> reaction Sv.
Variable B : service St.
Variable abs : Sv -> St.
Hypothesis conf : conforming react B abs.
Variable E : env.
Variable known : accounts.
Theorem remote_login_v1 w s st1 entered : typed_client (cl w) -> idle w -> typed_auth (auth_of (cl w)) ->
  ~ In 0 (a_user (auth_of (cl w))) -> ~ In 0 (a_domain (auth_of (cl w))) ->
  B (uid (cl w)) ONegotiate (abs (srv w)) = (inl s, st1) -> N.testbit (s_capabilities s) 31 = false -> len (s_challenge s) = 8 ->
  checks_v1 E known B (s_challenge s) st1 entered -> fits_v1 (N.testbit (s_capabilities s) 2) (auth_of (cl w)) ->
  room E (cl w) 2 ->
  exists r k w', (forall fuel, (k <= fuel)%nat -> run react (setup_connection E fuel) w = Done r w') /\ idle w'
  /\ decided (admitted_v1 E known (auth_of (cl w)) (s_challenge s)) entered r (uid (cl w')) (abs (srv w')).
Proof.
  intros Ht Hi Ha Hu Hd HB Hc Hl Hck Hfit Hroom.
  destruct (local_login_v1 Ha Hu Hd HB Hc Hl Hck Hfit) as (r & c' & st' & HL & Hdec).
  destruct (remote_local conf (E := E) HL eq_refl eq_refl Ht Hi Hroom) as (k & w' & fs & Hrun & Hi' & Hcl & Hst & _).
  exists r, k, w'. split; [|split; [exact Hi'|now rewrite Hcl, Hst]].
  intros fuel Hf. rewrite setup_same. now apply Hrun.
Qed.
Theorem remote_login_at S w s st1 most t entered : typed_client (cl w) -> idle w -> typed_auth (auth_of (cl w)) -> clock E t ->
  B (uid (cl w)) ONegotiate (abs (srv w)) = (inl s, st1) -> N.testbit (s_capabilities s) 31 = true ->
  checks_v2 S known B most st1 entered -> fits_v2 most (auth_of (cl w)) -> room E (cl w) 3 ->
  exists r k w' m1 r1 st2 ch, (forall fuel, (k <= fuel)%nat -> run react (setup_connection E fuel) w = Done r w') /\ idle w'
  /\ negotiate_message (a_domain (auth_of (cl w))) (a_workstation (auth_of (cl w))) m1
  /\ B (uid (cl w)) (OSetupBlob m1) st1 = (inl r1, st2) /\ challenge_of (ss_blob r1) ch
  /\ decided (admitted_at S E known (auth_of (cl w)) t (ch_challenge ch) (ch_info ch)) entered r (uid (cl w')) (abs (srv w')).
Proof.
  intros Ht Hi Ha Htime HB Hc Hck Hfit Hroom.
  destruct (local_login_at Ha Htime HB Hc Hck Hfit) as (r & c' & st' & m1 & r1 & st2 & ch & HL & Hneg & HB1 & Hch & Hdec).
  destruct (remote_local conf (E := E) HL eq_refl eq_refl Ht Hi Hroom) as (k & w' & fs & Hrun & Hi' & Hcl & Hst & _).
  exists r, k, w', m1, r1, st2, ch. split; [|split; [exact Hi'|split; [exact Hneg|split; [exact HB1|split; [exact Hch|now rewrite Hcl, Hst]]]]].
  intros fuel Hf. rewrite setup_same. now apply Hrun.
Qed.
Theorem remote_login_v2 w s st1 most t entered : typed_client (cl w) -> idle w -> typed_auth (auth_of (cl w)) -> clock E t ->
  B (uid (cl w)) ONegotiate (abs (srv w)) = (inl s, st1) -> N.testbit (s_capabilities s) 31 = true ->
  checks_v2 E known B most st1 entered -> fits_v2 most (auth_of (cl w)) -> room E (cl w) 3 ->
  exists r k w' m1 r1 st2 ch, (forall fuel, (k <= fuel)%nat -> run react (setup_connection E fuel) w = Done r w') /\ idle w'
  /\ negotiate_message (a_domain (auth_of (cl w))) (a_workstation (auth_of (cl w))) m1
  /\ B (uid (cl w)) (OSetupBlob m1) st1 = (inl r1, st2) /\ challenge_of (ss_blob r1) ch
  /\ decided (admitted_v2 E known (auth_of (cl w)) t (ch_challenge ch) (ch_info ch)) entered r (uid (cl w')) (abs (srv w')).
Proof. exact (@remote_login_at E w s st1 most t entered). Qed.
End Remote.
Lemma app_same (a b c d : bytes) : a ++ b = c ++ d -> len a = len c -> a = c /\ b = d.
Proof.
  intros H Hl. pose proof (f_equal (take (len a)) H) as H1. pose proof (f_equal (drop (len a)) H) as H2.
  rewrite Hl in H1, H2. rewrite <- Hl in H1 at 1. rewrite <- Hl in H2 at 1. rewrite !take_exact in H1. rewrite !drop_exact in H2. now split.
Qed.
Lemma admitted_collides E known a t challenge info h h' : known (a_user a) (a_domain a) = Some h -> nt_hash E (a_password a) h' ->
  (admitted_v1 E known a challenge -> exists nt, proves_v1 E h challenge nt /\ proves_v1 E h' challenge nt)
  /\ (admitted_v2 E known a t challenge info ->
      exists name, utf16le_of (upper E (a_user a) ++ a_domain a) name
      /\ hmac E (hmac E h name) (challenge ++ v2_blob t (rnd E) info) = hmac E (hmac E h' name) (challenge ++ v2_blob t (rnd E) info)).
Proof.
  intros Hk Hh. split.
  - intros (nt & Hr & x & Hx & Hp). rewrite Hk in Hx. injection Hx as <-. exists nt. split; [exact Hp|].
    apply v1_from_hash in Hr. destruct Hr as (y & Hy & Hq). now rewrite (nt_hash_fun Hh Hy).
  - intros (nt & (pw & name & tag & H1 & H2 & H3 & H4) & x & Hx & n2 & tag2 & rest & G1 & G2 & G3 & G4).
    rewrite Hk in Hx. injection Hx as <-. exists name. split; [exact H2|].
    assert (Ht : len tag = 16) by (rewrite H3; unfold len; now rewrite hmac_len).
    rewrite H4 in G2. apply app_same in G2; [|lia]. destruct G2 as [<- <-].
    apply utf16le_of_encode in G1. apply utf16le_of_encode in H2. destruct G1 as [-> _], H2 as [-> _].
    rewrite (nt_hash_fun Hh (ex_intro _ pw (conj H1 eq_refl))). congruence.
Qed.
