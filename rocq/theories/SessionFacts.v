(** * SessionFacts: NetBIOS names and sessions (C42, C59) *)
From Verif Require Import Base Text Utils Win Errors Info Common Msg Reply Ntlm Prog Client Spec SpecReply SpecCrash
  SpecNtlm Api SpecCall Flow BaseFacts TextFacts RunFacts SpecFacts InfoFacts ClientFacts MsgFacts CallFacts
  FlowFacts LoopFacts EndFacts ReqFacts AskFacts NtlmFacts SpecLogin OpenFacts.
Open Scope N_scope.
Set Implicit Arguments.
Unset Strict Implicit.

(** ** names *)
Lemma ascii_part_filter s : ascii_part s (filter (fun c => c <? 128) s).
Proof.
  induction s as [|c s IH]; [constructor|]. cbn [filter]. destruct (N.ltb_spec c 128); now constructor.
Qed.
Lemma ascii_part_fun s l : ascii_part s l -> l = filter (fun c => c <? 128) s.
Proof.
  induction 1 as [|c s l Hc _ IH|c s l Hc _ IH]; [reflexivity| |]; cbn [filter]; destruct (N.ltb_spec c 128); try lia; congruence.
Qed.
Definition name_of (s : text) : list N := firstn 16 (filter (fun c => c <? 128) s ++ repeat 32 16).
Lemma name_of_length s : length (name_of s) = 16%nat.
Proof. unfold name_of. rewrite firstn_length, app_length, repeat_length. lia. Qed.
Lemma name_of_ok s : name16 s (name_of s).
Proof.
  exists (filter (fun c => c <? 128) s). split; [apply ascii_part_filter|]. split; [apply name_of_length|].
  unfold name_of. set (a := filter _ s). destruct (Nat.le_gt_cases 16 (length a)) as [H|H].
  - left. exists (skipn 16 a). rewrite firstn_app. replace (16 - length a)%nat with 0%nat by lia. rewrite firstn_O.
    rewrite app_nil_r. symmetry. apply firstn_skipn.
  - right. exists (16 - length a)%nat. rewrite firstn_app, firstn_all2 by lia. f_equal.
    assert (G : forall n m, (n <= m)%nat -> firstn n (repeat 32 m) = repeat 32 n).
    { clear. intros n. induction n as [|n IH]; intros m H; [reflexivity|]. destruct m as [|m]; [lia|]. cbn. f_equal. apply IH. lia. }
    apply G. lia.
Qed.
Lemma name16_fun s l : name16 s l -> l = name_of s.
Proof.
  intros (a & Ha & Hl & H). apply ascii_part_fun in Ha. unfold name_of. rewrite <- Ha. clear Ha. destruct H as [[cut ->]|[n ->]].
  - rewrite <- app_assoc, firstn_app, firstn_all2 by lia. replace (16 - length l)%nat with 0%nat by lia. rewrite firstn_O. now rewrite app_nil_r.
  - rewrite app_length, repeat_length in Hl. rewrite firstn_app, firstn_all2 by lia. f_equal.
    assert (Hn : n = (16 - length a)%nat) by lia. rewrite <- Hn.
    assert (G : forall n m, (n <= m)%nat -> firstn n (repeat 32 m) = repeat 32 n).
    { clear. intros n. induction n as [|n IH]; intros m H; [reflexivity|]. destruct m as [|m]; [lia|]. cbn. f_equal. apply IH. lia. }
    symmetry. apply G. lia.
Qed.
Lemma name_of_ascii s : Forall (fun c => c < 128) (name_of s).
Proof.
  unfold name_of. set (l := _ ++ _). assert (H : Forall (fun c => c < 128) l).
  { apply Forall_app. split; [|apply Forall_forall; intros x Hx; apply repeat_spec in Hx; subst; lia].
    apply Forall_forall. intros x Hx. apply filter_In in Hx. destruct Hx as [_ Hx]. apply N.ltb_lt in Hx. exact Hx. }
  rewrite <- (firstn_skipn 16 l) in H. now apply Forall_app in H.
Qed.
Definition letters (l : list N) : text := flat_map (fun c => [65 + c / 16; 65 + c mod 16]) l.
Lemma utf8_ascii c : c < 128 -> utf8_char c = [n2b c].
Proof. intros H. unfold utf8_char. destruct (N.ltb_spec c 128); [reflexivity|lia]. Qed.
Lemma letters_ok l : Forall (fun c => c < 128) l -> half_ascii l (utf8 (letters l)).
Proof.
  induction 1 as [|c l Hc _ IH]; [constructor|]. unfold letters, utf8 in *. cbn [flat_map app].
  rewrite !utf8_ascii by lia. cbn [app]. constructor; [lia| | |exact IH]; rewrite b2n_n2b; lia.
Qed.
Lemma half_ascii_fun l b : half_ascii l b -> forall b', half_ascii l b' -> b = b'.
Proof.
  induction 1 as [|c l x y b Hc Hx Hy _ IH]; intros b' H'; inversion H' as [|c' l' x' y' b2 Hc' Hx' Hy' Hb]; subst; [reflexivity|].
  assert (x = x') by (apply b2n_inj; congruence). assert (y = y') by (apply b2n_inj; congruence). subst. do 2 f_equal. auto.
Qed.
Lemma half_ascii_len l b : half_ascii l b -> len b = 2 * N.of_nat (length l).
Proof. induction 1; cbn [length]; rewrite ?len_cons; [reflexivity|]. lia. Qed.
(** decoding the letters gives the name back *)
Lemma half_ascii_inj l l' b : half_ascii l b -> half_ascii l' b -> l = l'.
Proof.
  intros H. revert l'. induction H as [|c l x y b Hc Hx Hy _ IH]; intros l' H'; inversion H' as [|c' l2 x' y' b2 Hc' Hx' Hy' Hb]; subst; [reflexivity|].
  f_equal; [lia|auto].
Qed.
Definition session_payload (dst src : text) : bytes :=
  le 1 0x20 ++ utf8 (encode_netbios_name dst) ++ le 1 0 ++ le 1 0x20 ++ utf8 (encode_netbios_name src) ++ le 1 0.
Lemma session_name_ok s : session_name s ([x20] ++ utf8 (encode_netbios_name s) ++ [x00]).
Proof. exists (name_of s), (utf8 (letters (name_of s))). split; [apply name_of_ok|]. split; [|reflexivity]. apply letters_ok, name_of_ascii. Qed.
Lemma session_name_fun s b b' : session_name s b -> session_name s b' -> b = b'.
Proof.
  intros (l & x & Hl & Hx & ->) (l' & x' & Hl' & Hx' & ->). apply name16_fun in Hl. apply name16_fun in Hl'. subst l l'.
  now rewrite (half_ascii_fun Hx Hx').
Qed.
Lemma session_name_len s b : session_name s b -> len b = 34.
Proof.
  intros (l & x & (a & _ & Hl & _) & Hx & ->). apply half_ascii_len in Hx. rewrite !len_app, Hx, Hl. reflexivity.
Qed.
Lemma session_payload_len dst src : len (session_payload dst src) = 68.
Proof.
  pose proof (session_name_len (session_name_ok dst)) as H1. pose proof (session_name_len (session_name_ok src)) as H2.
  unfold session_payload. rewrite !len_app in *. change (len [x20]) with 1 in *. change (len [x00]) with 1 in *.
  change (len (le 1 _)) with 1. lia.
Qed.
Lemma session_request_ok dst src : session_request dst src (nb_frame 0x81 (session_payload dst src)).
Proof.
  do 2 eexists. split; [apply session_name_ok|]. split; [apply session_name_ok|].
  assert (H : ([x20] ++ utf8 (encode_netbios_name dst) ++ [x00]) ++ [x20] ++ utf8 (encode_netbios_name src) ++ [x00] = session_payload dst src).
  { rewrite <- !app_assoc. reflexivity. }
  rewrite H. split; [reflexivity|apply session_payload_len].
Qed.
Lemma session_request_fun dst src f f' : session_request dst src f -> session_request dst src f' -> f = f'.
Proof.
  intros (a & b & Ha & Hb & -> & _) (a' & b' & Ha' & Hb' & -> & _). now rewrite (session_name_fun Ha Ha'), (session_name_fun Hb Hb').
Qed.
Lemma session_encode dst src : frame_encode (FSessionRequest (session_payload dst src)) = Ok (nb_frame 0x81 (session_payload dst src)).
Proof.
  unfold frame_encode. pose proof (session_payload_len dst src) as H. rewrite nb_frame_le by lia. rewrite H.
  rewrite N.eqb_refl. cbn [negb]. rewrite try_into_small by (cbn; lia). reflexivity.
Qed.

(** ** sessions *)
Section Server.
Variable Sv : Type.
Variable react : Sv -> bytes -> reaction Sv.
Notation world := (world cifs Sv).
Notation run := (run react).

Lemma session_refused src w s n e inc t :
  react (srv w) (nb_frame 0x81 (session_payload smb_server src)) = Refuse s n e inc t ->
  exists w', run (create_session smb_server src) w = Done (Bad (ENetBios (IoError (IoOther e)))) w'
   /\ tx w' = tx w ++ [take n (nb_frame 0x81 (session_payload smb_server src))].
Proof.
  intros H. unfold create_session. fold (session_payload smb_server src). cbv zeta. rewrite run_mbind. unfold nb_send.
  rewrite session_encode. cbn [lift]. rewrite run_mbind, run_ret. cbn [gbind obind]. unfold write_exactly. cbn [run].
  rewrite H. destruct (deliver _ _ _ _) as [b t']. cbn [gbind obind run fail]. eexists. split; reflexivity.
Qed.
Lemma session_accepted src w w1 : session_asked react w (nb_frame 0x81 (session_payload smb_server src)) w1 ->
  run (create_session smb_server src) w =
  gbind (run nb_recv w1) (fun f w => match f with
    | FPositiveResponse => Done (Good tt) w
    | FNegativeResponse code => Done (Bad (ENetBios (CreateSession code))) w
    | _ => Done (Bad (ENetBios InvalidFrame)) w end).
Proof.
  intros (s & inc & t & Hr & Hc & Hs & Ht & Hd). unfold create_session. fold (session_payload smb_server src). cbv zeta.
  rewrite run_mbind. unfold nb_send. rewrite session_encode. cbn [lift]. rewrite run_mbind, run_ret. cbn [gbind obind].
  unfold write_exactly. cbn [run]. rewrite Hr, <- Hd. cbn [run]. rewrite run_ret. cbn [gbind obind].
  assert (E : w1 = mk_world (cl w) s (rx w1) (tl w1) (tx w ++ [nb_frame 0x81 (session_payload smb_server src)])).
  { destruct w1. cbn in *. subst. reflexivity. }
  rewrite <- E, run_mbind. apply gbind_ext. intros [m|m| |c| |] v; reflexivity.
Qed.
Lemma nb_recv_tx w : tx (final (run nb_recv w)) = tx w.
Proof. apply (run_quiet react quiet_nb_recv w). Qed.
Lemma frame_positive ty p : frame_new ty p = Ok FPositiveResponse -> ty = 0x82 /\ p = [].
Proof.
  unfold frame_new. destruct (N.eqb_spec ty 0); [discriminate|]. destruct (N.eqb_spec ty 0x81); [discriminate|].
  destruct (N.eqb_spec ty 0x82) as [->|].
  - destruct (N.eqb_spec (len p) 0) as [Hl|]; [|discriminate]. intros _. split; [reflexivity|]. destruct p; [reflexivity|]. rewrite len_cons in Hl. lia.
  - destruct (N.eqb_spec ty 0x83); [destruct p as [|x [|]]; discriminate|]. destruct (N.eqb_spec ty 0x84); [destruct (negb _); discriminate|].
    destruct (N.eqb_spec ty 0x85); [destruct (negb _); discriminate|]. discriminate.
Qed.
Lemma session_cases src w : exists f, session_request smb_server src f
  /\ ((exists w1 rest, session_asked react w f w1 /\ rx w1 = positive_response ++ rest
        /\ run (create_session smb_server src) w = Done (Good tt) (leaving w1 rest))
      \/ ((forall w', run (create_session smb_server src) w <> Done (Good tt) w')
          /\ exists n, tx (final (run (create_session smb_server src) w)) = tx w ++ [take n f])).
Proof.
  exists (nb_frame 0x81 (session_payload smb_server src)). split; [apply session_request_ok|].
  set (f := nb_frame 0x81 (session_payload smb_server src)).
  destruct (react (srv w) f) as [s inc t|s n e inc t] eqn:Hr.
  - destruct (deliver (tl w) (rx w) inc t) as [b t'] eqn:Hd. set (w1 := mk_world (cl w) s b t' (tx w ++ [f])).
    assert (Ha : session_asked react w f w1). { exists s, inc, t. cbn. auto. }
    rewrite (session_accepted Ha). pose proof (nb_recv_tx w1) as Htx.
    assert (Hall : exists n, tx w1 = tx w ++ [take n f]).
    { exists (len f). cbn [w1 tx]. now rewrite take_all by lia. }
    rewrite run_nb_recv in *. destruct (next_frame (rx w1)) as [ty p rest|rest|] eqn:Hn.
    + destruct (frame_new ty p) as [[m|m| |c| |]|e|] eqn:Hf; cbn [lifted gbind obind final] in *;
        try (right; split; [intros ? Hv; discriminate Hv|rewrite Htx; exact Hall]).
      left. apply frame_positive in Hf. destruct Hf as [-> ->]. apply next_frame_inv in Hn. destruct Hn as (Hn & _).
      exists w1, rest. auto.
    + right. split; [intros ? Hv; discriminate Hv|]. cbn [gbind obind final] in *. rewrite Htx. exact Hall.
    + right. split.
      * intros w'. unfold short_outcome. destruct (tl w1); intros Hv; discriminate Hv.
      * destruct (short_outcome w1) as [[a|e]|v|v|v] eqn:Hs; cbn [gbind obind final] in *; try (rewrite Htx; exact Hall).
        exfalso. revert Hs. unfold short_outcome. destruct (tl w1); intros Hv; discriminate Hv.
  - right. destruct (session_refused Hr) as (w' & Hw & Ht). rewrite Hw. split; [intros ? Hv; discriminate Hv|]. exists n. exact Ht.
Qed.
Lemma session_positive src w f w1 rest : session_request smb_server src f -> session_asked react w f w1 ->
  rx w1 = positive_response ++ rest -> run (create_session smb_server src) w = Done (Good tt) (leaving w1 rest).
Proof.
  intros Hf Ha Hx. rewrite (session_request_fun Hf (session_request_ok _ _)) in Ha. rewrite (session_accepted Ha), run_nb_recv, Hx.
  unfold positive_response. rewrite next_frame_complete; [reflexivity|lia|]. change (len (@nil byte)) with 0. unfold NB_MAX. lia.
Qed.
(** RFC 1002 4.3.4: the error code is reported *)
Lemma session_negative src w f w1 code rest : session_request smb_server src f -> session_asked react w f w1 ->
  rx w1 = nb_frame 0x83 [code] ++ rest ->
  run (create_session smb_server src) w = Done (Bad (ENetBios (CreateSession (b2n code)))) (leaving w1 rest).
Proof.
  intros Hf Ha Hx. rewrite (session_request_fun Hf (session_request_ok _ _)) in Ha. rewrite (session_accepted Ha), run_nb_recv, Hx.
  rewrite next_frame_complete; [reflexivity|lia|]. change (len [code]) with 1. unfold NB_MAX. lia.
Qed.

(** ** open *)
Variable E : env.
Variable net : N -> connection Sv.
Notation opens := (open E Sv net react).
Lemma start_begins maybe st : begins maybe st (start Sv (credentials maybe) st).
Proof. repeat split. Qed.
Lemma open_direct port maybe st p : net p = Connected st -> port = Some p \/ (port = None /\ p = 445) ->
  exists w, begins maybe st w /\ forall fuel, opens fuel port maybe = ([p], OnStream (run (setup_connection E fuel) w)).
Proof.
  intros Hn Hp. exists (start Sv (credentials maybe) st). split; [apply start_begins|]. intros fuel. unfold open.
  destruct Hp as [->|[-> ->]]; rewrite Hn; reflexivity.
Qed.
Lemma open_refused fuel p maybe e : net p = ConnectError e ->
  opens fuel (Some p) maybe = ([p], NoConnection (ENetBios (IoError (IoOther e)))).
Proof. unfold open. intros ->. reflexivity. Qed.
Lemma open_nowhere fuel maybe e1 e2 : net 445 = ConnectError e1 -> net 139 = ConnectError e2 ->
  opens fuel None maybe = ([445; 139], NoConnection (ENetBios (IoError (IoOther e2)))).
Proof. unfold open. intros -> ->. reflexivity. Qed.
Lemma open_session fuel maybe e1 st : net 445 = ConnectError e1 -> net 139 = Connected st ->
  exists w o f, begins maybe st w /\ opens fuel None maybe = ([445; 139], OnStream o)
  /\ session_request smb_server (a_workstation (credentials maybe)) f
  /\ ((exists w1 rest, session_asked react w f w1 /\ rx w1 = positive_response ++ rest
        /\ o = run (setup_connection E fuel) (leaving w1 rest))
      \/ ((forall w', o <> Done (Good tt) w') /\ exists n, tx (final o) = [take n f])).
Proof.
  intros H1 H2. exists (start Sv (credentials maybe) st). unfold open. rewrite H1, H2.
  change (match maybe with Some a => a | None => default_auth end) with (credentials maybe). change SMBSERVER with smb_server. set (a := credentials maybe).
  destruct (session_cases (a_workstation a) (start Sv a st)) as (f & Hf & Hc).
  eexists. exists f. split; [apply start_begins|]. split; [reflexivity|]. split; [exact Hf|]. rewrite run_mbind.
  destruct Hc as [(w1 & rest & Ha & Hx & Hr)|(Hb & n & Hn)].
  - left. exists w1, rest. rewrite Hr. auto.
  - right. destruct (run (create_session _ _) _) as [[[]|e] v|v|v|v]; [exfalso; eapply Hb; reflexivity|..];
      (split; [intros ? Hv; discriminate Hv|exists n; exact Hn]).
Qed.
(** the session request comes first, and in every case *)
Lemma open_first fuel maybe e1 st : net 445 = ConnectError e1 -> net 139 = Connected st ->
  exists o f, opens fuel None maybe = ([445; 139], OnStream o) /\ session_request smb_server (a_workstation (credentials maybe)) f
  /\ ((exists l, tx (final o) = f :: l) \/ (exists n, tx (final o) = [take n f])).
Proof.
  intros H1 H2. destruct (open_session fuel maybe H1 H2) as (w & o & f & Hw & Ho & Hf & Hc). exists o, f. split; [exact Ho|]. split; [exact Hf|].
  destruct Hc as [(w1 & rest & (s & inc & t & _ & _ & _ & Hx & _) & _ & ->)|(_ & Hn)]; [left|right; exact Hn].
  rewrite (setup_same E fuel react (leaving w1 rest)).
  destruct (flow_written react E (setup_flow E) fuel (leaving w1 rest)) as (k & l & Hl & _).
  exists l. rewrite Hl. cbn [leaving tx]. rewrite Hx. destruct Hw as (_ & _ & _ & _ & ->). reflexivity.
Qed.
Lemma open_positive maybe e1 st : net 445 = ConnectError e1 -> net 139 = Connected st ->
  exists w, begins maybe st w /\ forall fuel f w1 rest,
  session_request smb_server (a_workstation (credentials maybe)) f ->
  session_asked react w f w1 -> rx w1 = positive_response ++ rest ->
  opens fuel None maybe = ([445; 139], OnStream (run (setup_connection E fuel) (leaving w1 rest))).
Proof.
  intros H1 H2. exists (start Sv (credentials maybe) st). split; [apply start_begins|]. intros fuel f w1 rest Hf Ha Hx. unfold open. rewrite H1, H2.
  change (match maybe with Some a => a | None => default_auth end) with (credentials maybe). change SMBSERVER with smb_server. rewrite run_mbind.
  now rewrite (session_positive Hf Ha Hx).
Qed.
Lemma connects p : (exists st, net p = Connected st) \/ exists e, net p = ConnectError e.
Proof. destruct (net p) as [st|e]; eauto. Qed.
Lemma on_stream (p q : list N) (x y : outcome cifs Sv (ans unit)) : (p, OnStream x) = (q, OnStream y) -> x = y.
Proof. clear. congruence. Qed.
(** every successful open is a successful login on some stream *)
Lemma open_good fuel port maybe ports w' : opens fuel port maybe = (ports, OnStream (Done (Good tt) w')) ->
  exists w, fresh maybe (cl w) /\ run (setup_connection E fuel) w = Done (Good tt) w'.
Proof.
  intros H. destruct port as [p|].
  - destruct (net p) as [st|e] eqn:Hn; [|rewrite (open_refused fuel maybe Hn) in H; discriminate].
    destruct (open_direct (port := Some p) maybe Hn (or_introl eq_refl)) as (w & Hw & Ho). rewrite Ho in H. apply on_stream in H.
    exists w. split; [apply Hw|exact H].
  - destruct (net 445) as [st|e] eqn:Hn.
    + destruct (open_direct (port := None) maybe Hn (or_intror (conj eq_refl eq_refl))) as (w & Hw & Ho). rewrite Ho in H. apply on_stream in H.
      exists w. split; [apply Hw|exact H].
    + destruct (connects 139) as [[st Hm]|[e2 Hm]].
      2:{ rewrite (open_nowhere fuel maybe Hn Hm) in H. discriminate H. }
      destruct (open_session fuel maybe Hn Hm) as (w & o & f & Hw & Ho & _ & Hc). rewrite Ho in H. apply on_stream in H. subst o.
      destruct Hc as [(w1 & rest & (s & inc & t & _ & Hcl & _) & _ & Hr)|(Hb & _)]; [|exfalso; eapply Hb; reflexivity].
      exists (leaving w1 rest). split; [cbn [leaving cl]; rewrite Hcl; apply Hw|]. symmetry. exact Hr.
Qed.
End Server.

(** ** the state after open *)
Section After.
Variable Sv : Type.
Variable react : Sv -> bytes -> reaction Sv.
Notation world := (world cifs Sv).
Variable E : env.
Lemma next_u16 c : u16 (mid (next_client c)).
Proof. unfold u16, next_client. cbn [mid]. apply N.mod_lt. discriminate. Qed.
Lemma exchange_uid R (c : call R) (w w' : world) p st v : exchange react E c w p st v w' -> uid (cl w') = uid (cl w)
  /\ use_unicode (cl w') = use_unicode (cl w) /\ auth_of (cl w') = auth_of (cl w) /\ u16 (mid (cl w'))
  /\ max_smb_size (cl w') = max_smb_size (cl w).
Proof. intros H. rewrite (exchange_client H). repeat split. apply next_u16. Qed.
Lemma session_uid m (w w' : world) p st v : exchange react E (SetupBlob m) w p st v w' -> u16 (ss_uid v).
Proof.
  intros (f & w1 & _ & _ & _ & _ & _ & (words & data & rest & action & n & more & _ & _ & H & _) & _).
  now apply u16_at_bound in H.
Qed.
Lemma classic_uid x y m (w w' : world) p st v : exchange react E (SetupAuth x y m) w p st v w' -> u16 (ss_uid v).
Proof.
  intros (f & w1 & _ & _ & _ & _ & _ & (words & data & rest & action & n & more & _ & _ & H & _) & _).
  now apply u16_at_bound in H.
Qed.
Lemma login_state t (w : world) s user last w' : login react E t w s user last w' ->
  uid (cl w') = user /\ use_unicode (cl w') = N.testbit (s_capabilities s) 2
  /\ max_smb_size (cl w') = s_max_buffer_size s /\ auth_of (cl w') = auth_of (cl w) /\ typed_client (cl w')
  /\ (last = 0 \/ last = 0xc0000016).
Proof.
  intros (p & w1 & H1 & H). apply exchange_uid in H1. destruct H1 as (_ & _ & Ha & _). cbv zeta in H.
  destruct (N.testbit (s_capabilities s) 31).
  - destruct H as (m1 & p1 & st1 & r1 & v1 & ch & nt & m3 & p3 & r3 & _ & H2 & <- & _ & _ & _ & H3).
    pose proof (session_uid H2) as Hu. pose proof (exchange_uid H2) as (_ & Hun & Ha2 & _ & Hm2).
    pose proof (exchange_uid H3) as (Hu3 & Hun3 & Ha3 & Hm & Hm3). cbn [adopt set_options set_uid cl auth_of use_unicode uid max_smb_size] in *.
    split; [exact Hu3|]. split; [congruence|]. split; [congruence|]. split; [congruence|].
    split; [split; [unfold u16 in *; congruence|exact Hm]|].
    destruct H3 as (? & ? & _ & _ & _ & _ & [->|[_ ->]] & _); auto.
  - destruct H as (nt & p2 & r & v1 & _ & _ & H2 & <- & ->).
    pose proof (classic_uid H2) as Hu. pose proof (exchange_uid H2) as (_ & Hun & Ha2 & Hm & Hm2).
    cbn [adopt set_options set_uid cl auth_of use_unicode uid max_smb_size] in *.
    split; [reflexivity|]. split; [congruence|]. split; [congruence|]. split; [congruence|].
    split; [split; [exact Hu|exact Hm]|].
    destruct H2 as (? & ? & _ & _ & _ & _ & [->|[_ ->]] & _); auto.
Qed.
(** users do not change it *)
Lemma user_keeps fuel A (p : flow A) : user p -> forall w : world, typed_client (cl w) ->
  let w' := final (run react (interp E fuel p) w) in
  uid (cl w') = uid (cl w) /\ use_unicode (cl w') = use_unicode (cl w) /\ typed_client (cl w').
Proof.
  intros H. induction H as [a| | |R c k _ IH]; intros w T; cbv zeta; cbn [interp run final]; auto.
  rewrite run_bind, final_lift. destruct (@call_once _ react E fuel R c w) as (l & _ & Hw).
  assert (G : uid (cl (final (run react (exec E fuel c) w))) = uid (cl w)
    /\ use_unicode (cl (final (run react (exec E fuel c) w))) = use_unicode (cl w)
    /\ typed_client (cl (final (run react (exec E fuel c) w)))).
  { destruct Hw; auto; (split; [reflexivity|]; split; [reflexivity|]; split; [apply T|apply next_u16]). }
  destruct (run react (exec E fuel c) w) as [a v|v|v|v]; cbn [final] in G; auto.
  destruct G as (G1 & G2 & G3). specialize (IH a v G3). cbv zeta in IH. destruct IH as (I1 & I2 & I3). rewrite <- G1, <- G2. auto.
Qed.
(** all later requests *)
Lemma later_requests fuel t net port maybe ports w' : typed_auth (credentials maybe) -> clock E t ->
  open E Sv net react fuel port maybe = (ports, OnStream (Done (Good tt) w')) ->
  exists w s id last, fresh maybe (cl w) /\ login react E t w s id last w'
  /\ forall n A (p : flow A) R (c : call R) f, user p -> typed c ->
     request (exec E n c) (cl (final (run react (interp E n p) w'))) = Some f ->
     exists q flags2 m, f = session_message q /\ request_header q (opcode c) flags2 (op_tid c) id m
      /\ N.testbit flags2 15 = N.testbit (s_capabilities s) 2.
Proof.
  intros Ta Ht H. apply open_good in H. destruct H as (w & Hw & H).
  apply (login_good (t := t)) in H; [|now rewrite (proj1 Hw)|exact Ht]. destruct H as (s & user & last & H).
  exists w, s, user, last. split; [exact Hw|]. split; [exact H|]. intros n A p R c f Hp Hc Hf.
  apply login_state in H. destruct H as (Hu & Hn & _ & _ & Ht' & _). pose proof (user_keeps n Hp Ht') as (K1 & K2 & K3).
  destruct (request_identity K3 Hc Hf) as (q & flags2 & H1 & H2 & H3). exists q, flags2. eexists. rewrite K1, Hu in H2. rewrite K2, Hn in H3.
  split; [exact H1|]. split; [exact H2|exact H3].
Qed.
Lemma open_login fuel t net port maybe ports w' : typed_auth (credentials maybe) -> clock E t ->
  open E Sv net react fuel port maybe = (ports, OnStream (Done (Good tt) w')) ->
  exists w s user last, fresh maybe (cl w) /\ login react E t w s user last w' /\ (last = 0 \/ last = 0xc0000016).
Proof.
  intros Ta Ht H. apply open_good in H. destruct H as (w & Hw & H).
  apply (login_good (t := t)) in H; [|now rewrite (proj1 Hw)|exact Ht]. destruct H as (s & user & last & H).
  exists w, s, user, last. split; [exact Hw|]. split; [exact H|]. now apply login_state in H.
Qed.
(** the headers of the frames of a login *)
Lemma exchange_header R (c : call R) (w w' : world) p st v : exchange react E c w p st v w' -> typed_client (cl w) -> typed c -> op_tid c = 0xffff ->
  exists f, tx w' = tx w ++ [f] /\ has_header f (opcode c, use_unicode (cl w), uid (cl w), mid (cl w)) /\ mid (cl w') = (mid (cl w) + 1) mod 65536.
Proof.
  intros (f & w1 & (n & Hf) & (s & inc & t & _ & Hc & _ & Ht & _) & _ & _ & _ & _ & ->) T Hty Hid. exists f. cbn [leaving tx cl].
  split; [exact Ht|]. split; [|now rewrite Hc]. destruct (request_asks T Hty Hf) as (q & words & data & Hq & _ & _ & Hh & _).
  exists q. rewrite Hid in Hh. auto.
Qed.
Lemma login_headers_ok maybe t (w : world) s user last w' : typed_auth (credentials maybe) -> fresh maybe (cl w) -> login react E t w s user last w' ->
  exists fs, tx w' = tx w ++ fs /\ Forall2 has_header fs (login_headers s user).
Proof.
  intros (Ta & _ & Td & _) (Ha & Hn & Hu & Hm) (p & w1 & H1 & H). pose proof (exchange_uid H1) as (U1 & _ & A1 & _ & _).
  destruct (exchange_header H1) as (f1 & X1 & F1 & I1); [split; [rewrite Hu|rewrite Hm]; reflexivity|exact I|reflexivity|].
  rewrite Hn, Hu, Hm in F1. rewrite Hm in I1. rewrite Hu in U1. unfold login_headers. cbv zeta in *.
  destruct (N.testbit (s_capabilities s) 31).
  - destruct H as (m1 & p1 & st1 & r1 & v1 & ch & nt & m3 & p3 & r3 & _ & H2 & <- & _ & _ & _ & H3).
    pose proof (session_uid H2) as Hs. pose proof (exchange_uid H2) as (_ & Hun & _ & _ & _).
    destruct (exchange_header H2) as (f2 & X2 & F2 & I2).
    { unfold typed_client, u16; cbn [adopt set_options cl uid mid]; split; [rewrite U1|rewrite I1]; reflexivity. }
    { exact I. } { reflexivity. }
    cbn [adopt set_options set_uid cl auth_of use_unicode uid mid] in *. cbn [tx] in *. rewrite I1 in I2.
    destruct (exchange_header H3) as (f3 & X3 & F3 & _).
    { unfold typed_client, u16; cbn [adopt set_uid cl uid mid]; split; [exact Hs|rewrite I2; reflexivity]. }
    { exact I. } { reflexivity. }
    cbn [adopt set_options set_uid cl auth_of use_unicode uid mid] in *. cbn [tx] in *. 
    exists [f1; f2; f3]. split; [cbn [adopt tx] in *; rewrite X3, X2, X1, <- !app_assoc; reflexivity|].
    rewrite U1, I1 in F2. rewrite Hun, I2 in F3. auto.
  - destruct H as (nt & p2 & r & v1 & _ & _ & H2 & <- & ->).
    destruct (exchange_header H2) as (f2 & X2 & F2 & _).
    { unfold typed_client, u16; cbn [adopt set_options cl uid mid]; split; [rewrite U1|rewrite I1]; reflexivity. }
    { cbn [typed]. rewrite Ha. auto. } { reflexivity. }
    cbn [adopt set_options set_uid cl auth_of use_unicode uid mid] in *. cbn [tx] in *.
    exists [f1; f2]. split; [cbn [adopt tx] in *; rewrite X2, X1, <- app_assoc; reflexivity|].
    rewrite U1, I1 in F2. auto.
Qed.
Lemma login_iff t (w w' : world) : typed_auth (auth_of (cl w)) -> clock E t ->
  ((exists fuel, run react (setup_connection E fuel) w = Done (Good tt) w') <-> exists s user last, login react E t w s user last w').
Proof.
  intros Ta Ht. split.
  - intros (fuel & H). now apply (login_good (t := t)) in H.
  - intros (s & user & last & H). apply login_complete in H; auto. destruct H as [f0 H]. exists f0. apply H. lia.
Qed.
End After.
Lemma encoded_name s : exists l, name16 s l /\ half_ascii l (utf8 (encode_netbios_name s)).
Proof. exists (name_of s). split; [apply name_of_ok|]. apply letters_ok, name_of_ascii. Qed.
