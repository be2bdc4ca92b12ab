(** * GateFacts: the gate checks logins; behind it, everything is as before. *)
From Coq Require Import Lia.
From Verif Require Import Base BaseFacts Text TextFacts Utils Win Errors Common Reply Ntlm Prog Client Spec SpecFacts SpecReply SpecNtlm SpecMsg
  Api SpecCall RunFacts MsgFacts NtlmFacts Flow FlowFacts SpecLogin OpenFacts SpecRemote RemoteFacts RefServer RefFacts FileService FileFacts
  SpecAccount AccountFacts Gate.
Set Implicit Arguments.
Unset Strict Implicit.
Open Scope N_scope.

Lemma same_bytes_iff x y : same_bytes x y = true <-> x = y.
Proof. unfold same_bytes. destruct (list_eq_dec _ _ _); split; congruence. Qed.
Lemma among_iff u l : among u l = true <-> In u l.
Proof.
  unfold among. rewrite existsb_exists. split.
  - intros (x & Hx & He). apply N.eqb_eq in He. now subst.
  - intros H. exists u. split; [exact H|apply N.eqb_refl].
Qed.
(** ** keys *)
Lemma seven (f : nat -> bool) : bits_to_n (map f (seq 0 7)) < 128
  /\ forall i, (i < 7)%nat -> N.testbit (bits_to_n (map f (seq 0 7))) (6 - N.of_nat i) = f i.
Proof.
  cbn [map seq]. unfold bits_to_n. cbn [fold_left].
  destruct (f 0%nat) eqn:F0, (f 1%nat) eqn:F1, (f 2%nat) eqn:F2, (f 3%nat) eqn:F3, (f 4%nat) eqn:F4, (f 5%nat) eqn:F5, (f 6%nat) eqn:F6;
    (split; [reflexivity|]); intros i Hi;
    do 7 (destruct i as [|i]; [try rewrite F0; try rewrite F1; try rewrite F2; try rewrite F3; try rewrite F4; try rewrite F5; try rewrite F6; reflexivity|]); lia.
Qed.
Lemma key_bit k j i : (j < 8)%nat -> i < 8 -> bit (key_of k) (8 * N.of_nat j + i) = if i =? 7 then false else bit k (7 * N.of_nat j + i).
Proof.
  intros Hj Hi. unfold bit at 1.
  replace ((8 * N.of_nat j + i) / 8) with (N.of_nat j) by (apply N.div_unique with i; lia).
  replace ((8 * N.of_nat j + i) mod 8) with i by (apply N.mod_unique with (N.of_nat j); lia).
  rewrite Nnat.Nat2N.id.
  assert (Hn : nth_error (key_of k) j = Some (key_byte k j)).
  { unfold key_of. do 8 (destruct j as [|j]; [reflexivity|]). lia. }
  rewrite Hn. unfold key_byte.
  destruct (seven (fun i => bit k (N.of_nat (7 * j + i)))) as (Hb & Hv).
  set (v := bits_to_n _) in *. rewrite b2n_n2b, N.mod_small by lia.
  destruct (N.eqb_spec i 7) as [->|Hne].
  - rewrite N.sub_diag. apply N.testbit_even_0.
  - replace (7 - i) with (N.succ (6 - i)) by lia. rewrite N.testbit_even_succ by lia.
    specialize (Hv (N.to_nat i)). rewrite N2Nat.id in Hv. rewrite Hv by lia. f_equal. lia.
Qed.
Lemma key_right k : len k = 7 -> des_key k (key_of k).
Proof.
  intros Hk. split; [exact Hk|]. split; [reflexivity|]. split.
  - intros i Hi. assert (H7 : i / 7 < 8) by (apply N.div_lt_upper_bound; lia).
    pose proof (N.mod_lt i 7 ltac:(lia)) as Hm. pose proof (N.div_mod' i 7) as Hd.
    replace (i / 7 * 8 + i mod 7) with (8 * N.of_nat (N.to_nat (i / 7)) + i mod 7) by lia.
    rewrite key_bit by lia. destruct (N.eqb_spec (i mod 7) 7) as [H|H]; [lia|]. f_equal. lia.
  - intros j Hj. replace (8 * j + 7) with (8 * N.of_nat (N.to_nat j) + 7) by lia. rewrite key_bit by lia. reflexivity.
Qed.
Lemma right_v1_iff E known user domain challenge nt :
  right_v1 E known user domain challenge nt = true <-> genuine_v1 E known user domain challenge nt.
Proof.
  unfold right_v1, genuine_v1. destruct (known user domain) as [h|].
  - rewrite andb_true_iff, same_bytes_iff, N.eqb_eq.
    assert (Hx : len h = 16 -> proves_v1 E h challenge (expected_v1 E h challenge)).
    { intros Hh. exists (take 7 h), (take 7 (drop 7 h)), (take 2 (drop 14 h)). eexists _, _, _.
      split; [|split; [|split; [|split; [|reflexivity]]]].
      - rewrite <- (take_drop 7 h) at 1. f_equal. rewrite <- (take_drop 7 (drop 7 h)) at 1. f_equal. rewrite drop_drop.
        symmetry. apply take_all. rewrite len_drop. lia.
      - apply key_right. rewrite len_take. lia.
      - apply key_right. rewrite len_take, len_drop. lia.
      - apply key_right. rewrite len_app, len_take, len_drop, len_zeros. lia. }
    split.
    + intros (Hh & ->). exists h. auto.
    + intros (h' & [= <-] & Hp). assert (Hh : len h = 16).
      { destruct Hp as (a & b & c & k1 & k2 & k3 & -> & (Ha & _) & (Hb & _) & (Hc & _) & _). rewrite !len_app in *. rewrite len_zeros in Hc. lia. }
      split; [exact Hh|]. destruct (v1_there E challenge Hh) as (x & _ & Hu). now rewrite (Hu _ Hp), (Hu _ (Hx Hh)).
  - split; [discriminate|]. now intros (h & H & _).
Qed.
Lemma right_v2_iff E known user domain challenge nt :
  right_v2 E known user domain challenge nt = true <-> genuine_v2 E known user domain challenge nt.
Proof.
  unfold right_v2, genuine_v2. destruct (known user domain) as [h|].
  - rewrite !andb_true_iff, same_bytes_iff, N.leb_le. split.
    + intros ((Hl & Hs) & He). exists h. split; [reflexivity|].
      exists (encode_utf16le (upper E user ++ domain)), (take 16 nt), (drop 16 nt).
      split; [exact (utf16le_encode (proj1 (is_text_str _) Hs))|]. split; [symmetry; apply take_drop|]. split; [rewrite len_take; lia|exact He].
    + intros (h' & [= <-] & name & tag & rest & H1 & -> & H3 & H4). apply utf16le_of_encode in H1. destruct H1 as [-> Hs].
      split; [split|].
      * rewrite len_app. lia.
      * now apply is_text_str.
      * rewrite <- H3, take_exact, drop_exact. exact H4.
  - split; [discriminate|]. now intros (h & H & _).
Qed.
(** ** messages *)
Lemma designates_payload m o a p : designates m o a p -> payload m o = Some p.
Proof. intros (H1 & _ & H3 & H4). unfold payload. now rewrite H1, H3. Qed.
Lemma wide_payload m o a p s : designates m o a p -> utf16le_of s p -> payload_text m o = Some s.
Proof. intros H1 H2. unfold payload_text. rewrite (designates_payload H1). apply decode_utf16le_ok in H2. now rewrite H2. Qed.
Lemma challenge_message_good challenge info : len challenge = 8 -> len info < 65536 ->
  challenge_of (challenge_message challenge info) (mk_challenge [] 1 challenge info).
Proof.
  intros Hc Hi. exists 1, 0, 48, [], (len info), 48. unfold challenge_message.
  assert (Hsg : len SIGNATURE = 8) by reflexivity.
  split; [now fields|]. generalize SIGNATURE, Hsg. clear Hsg. intros sg Hsg. cbn [ch_challenge ch_flags ch_target ch_info].
  split; [now fields|]. split; [now fields|]. split; [now fields|]. split; [now fields|].
  split; [intros k; rewrite <- N.land_spec; reflexivity|].
  split; [now fields|]. split; [now fields|]. split; [now fields|].
  split; [|split; [|now fields]].
  - rewrite !app_assoc. rewrite bytes_at_app1. 2: { rewrite !len_app, !len_le, len_zeros, Hc, Hsg. cbn. lia. }
    unfold bytes_at. rewrite !len_app, !len_le, len_zeros, Hc, Hsg. reflexivity.
  - apply utf16le_encode with (s := []). constructor.
Qed.

Section Gate.
Variable St : Type.
Variable E : env.
Variable known : accounts.
Variable setup : server_setup.
Variable nonce : N -> bytes.
Variable info : bytes.
Variable B : service St.
Notation G := (gate St E known setup nonce info B).
Definition is_in (u : N) (s : gated St) : Prop := In u (g_entered s).
Lemma gate_v1 st : g_next st < 65536 ->
  checks_v1 E known G (s_challenge setup) st (fun u st' => is_in u st' /\ g_behind st' = g_behind st).
Proof.
  intros Hn who user domain nt. apply N.ltb_lt in Hn as Hb. rewrite <- right_v1_iff. cbn [gate]. rewrite Hb. cbn [andb].
  split; intros Hg.
  - rewrite Hg. eexists _, _. split; [reflexivity|]. split; [exact Hn|]. split; [left; reflexivity|reflexivity].
  - destruct (right_v1 _ _ _ _ _ _); [now destruct Hg|]. now eexists.
Qed.
Lemma gate_v2 st : g_next st < 65536 -> (forall n, len (nonce n) = 8) -> len info < 65536 ->
  checks_v2 E known G (len info) st (fun u st' => is_in u st' /\ g_behind st' = g_behind st).
Proof.
  intros Hn Hnonce Hi who domain workstation m1 Hm1. apply N.ltb_lt in Hn as Hb.
  destruct Hm1 as (d1 & w1 & _ & _ & _ & Hty & _).
  eexists _, _, (mk_challenge [] 1 (nonce (g_next st)) info). cbn [gate]. rewrite Hty, Hb. cbv beta iota.
  split; [reflexivity|]. split; [exact Hn|]. split; [apply challenge_message_good; auto|].
  split; [cbn [ch_info]; lia|]. clear domain workstation m1 d1 w1 Hty. cbn [ch_flags ch_challenge].
  intros user domain workstation nt m3 (d & u & w & Hd & Hu & _ & _ & Hty & _ & D1 & D2 & D3 & _).
  cbn [ss_uid gate]. rewrite Hty, (designates_payload D1), (wide_payload D2 Hd), (wide_payload D3 Hu). cbv beta iota.
  rewrite Hb. cbn [g_waiting among existsb]. rewrite N.eqb_refl. cbn [orb andb].
  rewrite <- right_v2_iff. split; intros Hg.
  - rewrite Hg. eexists _, _. split; [reflexivity|]. split; [left; reflexivity|reflexivity].
  - destruct (right_v2 _ _ _ _ _ _); [now destruct Hg|]. now eexists.
Qed.
(** behind the gate *)
Lemma gate_pass R (c : call R) who s r st : working c -> In who (g_entered s) -> B who (op_of c) (g_behind s) = (r, st) ->
  G R who (op_of c) s = (r, mk_gated (g_waiting s) (g_entered s) (g_next s) st).
Proof.
  intros Hw Hin. apply among_iff in Hin. destruct c; cbn [working] in Hw; try contradiction; cbn [op_of gate]; rewrite Hin; intros ->; reflexivity.
Qed.
Lemma gate_local A (f : flow A) c st n a c' st' : local B f c st n a c' st' -> works f ->
  forall s, In (uid c) (g_entered s) -> g_behind s = st ->
  local G f c s n a c' (mk_gated (g_waiting s) (g_entered s) (g_next s) st') /\ uid c' = uid c.
Proof.
  induction 1 as [x c st|R q f c st r st1 n x c' st' Hq Hun Hfit HB _ IH|f c st n x c' st' _ IH|u f c st n x c' st' Hu _ IH|mm u f c st n x c' st' _ IH];
    intros Hw s Hin Hs.
  - subst st. destruct s. cbn. split; [constructor|reflexivity].
  - destruct Hw as (Hwq & Hk). subst st.
    destruct (IH (Hk (returned r)) (mk_gated (g_waiting s) (g_entered s) (g_next s) st1) Hin eq_refl) as (HL & Hu).
    split; [|exact Hu]. apply l_call with (r := r) (st1 := mk_gated (g_waiting s) (g_entered s) (g_next s) st1); auto.
    now apply gate_pass.
  - destruct (IH (Hw c) s Hin Hs) as (HL & Hu). split; [now apply l_state|exact Hu].
  - contradiction.
  - contradiction.
Qed.
Lemma gate_proper : proper_server setup -> (forall n, len (nonce n) = 8) -> len info < 65000 -> proper B -> proper G.
Proof.
  intros Hs Hn Hi HB R who o s.
  assert (Hd : forall T (p : op T), code_of p <> 0x73 -> proper_status p 0xc0000022) by (intros T p H; split; [reflexivity|split; [discriminate|discriminate]]).
  assert (Hr : forall p : op session_setup, proper_status p refused) by (intros p; split; [reflexivity|split; [discriminate|discriminate]]).
  assert (Hp : forall T (p : op T), code_of p <> 0x73 -> match fst (if among who (g_entered s)
      then let (r, st) := B who p (g_behind s) in (r, mk_gated (g_waiting s) (g_entered s) (g_next s) st)
      else (inr 0xc0000022, s)) with inl v => proper_value p v | inr st => proper_status p st end).
  { intros T p Hc. destruct (among who (g_entered s)); [|now apply Hd].
    specialize (HB T who p (g_behind s)). destruct (B who p (g_behind s)) as [r st]. exact HB. }
  destruct o; cbn [gate]; try (apply Hp; discriminate).
  - exact Hs.
  - destruct (N.ltb_spec (g_next s) 65536) as [Hlt|Hlt]; cbn [andb]; [|apply Hr].
    destruct (right_v1 _ _ _ _ _ _); [|apply Hr]. cbn. split; [exact Hlt|reflexivity].
  - destruct (u32_at blob 8) as [n|]; [|apply Hr].
    destruct n as [|[[?|?|]|?|]]; try apply Hr.
    + destruct (payload blob 20) as [nt|]; [|apply Hr]. destruct (payload_text blob 28) as [dom|]; [|apply Hr].
      destruct (payload_text blob 36) as [user|]; [|apply Hr].
      destruct (N.ltb_spec who 65536) as [Hlt|Hlt]; cbn [andb]; [|apply Hr].
      destruct (among who (g_waiting s) && _); [|apply Hr]. cbn. split; [exact Hlt|reflexivity].
    + destruct (N.ltb_spec (g_next s) 65536) as [Hlt|Hlt]; [|apply Hr]. cbn [fst proper_value]. split; [exact Hlt|].
      cbn [ss_blob]. unfold challenge_message. rewrite !len_app, !len_le, len_zeros, Hn. change (len SIGNATURE) with 8. lia.
Qed.
End Gate.
Theorem gate_session Sv St (react : Sv -> bytes -> reaction Sv) E known setup nonce info (B : service St) abs A (f : flow A) w n a c' st' :
  conforming react (gate St E known setup nonce info B) abs -> typed_client (cl w) -> idle w ->
  In (uid (cl w)) (g_entered (abs (srv w))) ->
  local B f (cl w) (g_behind (abs (srv w))) n a c' st' -> works f -> room E (cl w) n ->
  exists k w', (forall fuel, (k <= fuel)%nat -> run react (interp E fuel f) w = Done a w')
  /\ idle w' /\ g_behind (abs (srv w')) = st' /\ In (uid (cl w')) (g_entered (abs (srv w'))).
Proof.
  intros conf Ht Hi Hin HL Hw Hroom.
  destruct (gate_local E known setup nonce info HL Hw Hin eq_refl) as (HG & Hu).
  destruct (remote_local conf (E := E) HG eq_refl eq_refl Ht Hi Hroom) as (k & w' & fs & Hrun & Hi' & Hcl & Hst & _).
  exists k, w'. split; [exact Hrun|]. split; [exact Hi'|]. rewrite Hst, Hcl, Hu. split; [reflexivity|exact Hin].
Qed.
Lemma v1_exists E password challenge : is_str password -> exists nt, v1_response E password challenge nt.
Proof.
  intros H. pose proof (utf16le_encode (proj1 (is_text_str _) H)) as Hp.
  assert (Hh : len (md4 E (encode_utf16le password)) = 16) by (unfold len; now rewrite md4_len).
  destruct (v1_there E challenge Hh) as (nt & Hnt & _). exists nt. apply v1_from_hash. eexists. split; [|exact Hnt]. now exists (encode_utf16le password).
Qed.
Lemma v2_exists E a t challenge info : typed_auth a -> exists nt, v2_response E (a_password a) (a_user a) (a_domain a) t challenge info nt.
Proof.
  intros (Hu & _ & Hd & Hp). do 4 eexists. split; [exact (utf16le_encode (proj1 (is_text_str _) Hp))|].
  split; [apply utf16le_encode, is_text_str; rewrite is_text_app, (upper_text E _ Hu); exact Hd|]. split; reflexivity.
Qed.
Section Open.
Variables Sv St : Type.
Variable react : Sv -> bytes -> reaction Sv.
Variable E : env.
Variable known : accounts.
Variable setup : server_setup.
Variable nonce : N -> bytes.
Variable info : bytes.
Variable B : service St.
Variable abs : Sv -> gated St.
Hypothesis conf : conforming react (gate St E known setup nonce info B) abs.
Theorem gate_open w t : typed_client (cl w) -> idle w -> typed_auth (auth_of (cl w)) -> registered E known (auth_of (cl w)) ->
  ~ In 0 (a_user (auth_of (cl w))) -> ~ In 0 (a_domain (auth_of (cl w))) -> clock E t ->
  len (s_challenge setup) = 8 -> (forall n, len (nonce n) = 8) -> len info < 60000 ->
  fits_v1 (N.testbit (s_capabilities setup) 2) (auth_of (cl w)) -> fits_v2 (len info) (auth_of (cl w)) ->
  room E (cl w) 3 -> g_next (abs (srv w)) < 65536 ->
  exists k w', (forall fuel, (k <= fuel)%nat -> run react (setup_connection E fuel) w = Done (Good tt) w')
  /\ idle w' /\ In (uid (cl w')) (g_entered (abs (srv w'))) /\ g_behind (abs (srv w')) = g_behind (abs (srv w)).
Proof.
  intros Ht Hi Ha Hreg Hnu Hnd Htime Hch Hno Hinfo Hf1 Hf2 Hroom Hnx.
  assert (HB : gate St E known setup nonce info B server_setup (uid (cl w)) ONegotiate (abs (srv w)) = (inl setup, abs (srv w))) by reflexivity.
  assert (Hi2 : len info < 65536) by lia.
  destruct (N.testbit (s_capabilities setup) 31) eqn:Hc.
  - destruct (remote_login_v2 conf (known := known) Ht Hi Ha Htime HB Hc (gate_v2 E known setup B Hnx Hno Hi2) Hf2 Hroom)
      as (r & k & w' & m1 & r1 & st2 & ch & Hrun & Hi' & _ & _ & _ & [(_ & -> & Hin & Hb)|(Hn & _)]).
    + exists k, w'. auto.
    + destruct Hn. destruct (v2_exists E t (ch_challenge ch) (ch_info ch) Ha) as (nt & Hnt). exists nt. split; [exact Hnt|].
      exact (registered_v2 Hreg Hnt).
  - destruct (remote_login_v1 conf (E := E) (known := known) Ht Hi Ha Hnu Hnd HB Hc Hch (gate_v1 E known setup nonce info B Hnx) Hf1)
      as (r & k & w' & Hrun & Hi' & [(_ & -> & Hin & Hb)|(Hn & _)]).
    + intros Ho. specialize (Hroom Ho). lia.
    + exists k, w'. auto.
    + destruct Hn. destruct (v1_exists E (s_challenge setup) (proj2 (proj2 (proj2 Ha)))) as (nt & Hnt). exists nt. split; [exact Hnt|].
      exact (registered_v1 Hreg Hnt).
Qed.
End Open.
