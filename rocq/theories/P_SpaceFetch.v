(** * Property C119, continued: from a URI to the file over bounded buffers. *)
From Coq Require Import String.
From Verif Require Import Base Text Win Errors Common Reply Ntlm Prog Client Uri Spec SpecReply SpecNtlm SpecMsg Api SpecCall
  BaseFacts MsgFacts SizeFacts ClientFacts Flow FlowFacts SpecRemote RemoteFacts RefServer RefFacts FileService SpecLogin SpecAccount Gate SpecUri SpecFetch SpecPool SpecPipe PipeFacts
  SpecSpace SpaceFacts Crypto Tests Sample P_Remote P_Session P_Uri P_Fetch P_Pipe P_Space.
Open Scope N_scope.
Open Scope list_scope.

(** a connection is opened, by whatever port, and a program run on it: if the one succeeds and the
    other gives [a] when requests and answers are handed over at once, then both together give
    [a] over buffers of any size, and (one byte, and a server that reads while it has something
    to write) they cannot get stuck.  [fs] is what the server then has not worked on yet. *)
Theorem C119_then : forall E Sv net (react : Sv -> bytes -> reaction Sv) fuel port maybe ports w1 A (q : prog cifs (ans A)) a w2,
  keeps_open react -> open E Sv net react fuel port maybe = (ports, OnStream (Done (Good tt) w1)) ->
  frames_only q -> run react q w1 = Done a w2 ->
  exists session st, net (last ports 0) = Connected st /\ (session = true -> ports = [445; 139])
    /\ (st_tl _ st = Open -> forall cap duplex y,
        ticked cap duplex react (afresh (do! _ := opening E fuel session (credentials maybe) in q) (initial_cifs (credentials maybe)) (st_srv _ st) (st_rx _ st)) y ->
        (ended (the_client y) = true -> y_prog y = Ret a /\ y_cl y = cl w2
           /\ exists fs out, y_in y ++ y_up y = concat fs /\ serves react (y_srv y) fs (srv w2) out)
        /\ (1 <= cap -> duplex = true -> exists y', ticked cap duplex react y y' /\ ended (the_client y') = true)).
Proof.
  intros E Sv net react fuel port maybe ports w1 A q a w2 Hk H Hq Hrun. destruct (open_runs E net react fuel port maybe H) as (b & st & H1 & Hp & H2).
  exists b, st. split; [exact H1|]. split; [exact Hp|]. intros Ht cap duplex y Hy.
  assert (Hf : frames_only (do! _ := opening E fuel b (credentials maybe) in q)) by (apply fr_mbind; [apply opening_frames|intros _; exact Hq]).
  assert (Hr : run react (do! _ := opening E fuel b (credentials maybe) in q) (mk_world (initial_cifs (credentials maybe)) (st_srv _ st) (st_rx _ st) Open []) = Done a w2).
  { unfold start in H2. rewrite Ht in H2. rewrite run_mbind, <- H2. exact Hrun. }
  split.
  - intros He. destruct (C119_result _ _ react _ _ _ _ cap duplex y Hk Hf Hy He) as (w & fs & out & H3 & H4 & H5 & H6 & _). rewrite Hr in H3.
    unfold ended_as in H3. destruct (y_prog y) as [x| | | | | |]; try contradiction; try discriminate.
    assert (E1 : a = x) by congruence. assert (E2 : w2 = w) by congruence. subst x w. split; [reflexivity|]. split; [symmetry; exact H4|]. exists fs, out. auto.
  - intros Hcap ->. refine (C119_ends _ _ react _ _ _ _ cap y Hk Hf Hcap Hy _). rewrite Hr. discriminate.
Qed.
Print Assumptions C119_then.

(** C72 over bounded buffers: the URI leads to the file. *)
Theorem C119_fetch : forall tree fsetup accepts Sv (react : Sv -> bytes -> reaction Sv) E known setup nonce info abs,
  conforming react (gate files E known setup nonce info (file_service tree fsetup accepts)) abs -> keeps_open react ->
  len (s_challenge setup) = 8 -> (forall n, len (nonce n) = 8) -> len info <= 30000 ->
  forall net word digit u path ws dom t s0 p tid d,
  valid word digit_char u -> given (u_port u) (fun p => value 0 p < 65536) -> ~ ambiguous word digit u -> u_path u = Some path ->
  is_str (written u) -> is_str ws -> is_str dom -> ~ In 0 dom -> len (written u) + len ws + len dom <= 8000 -> clock E t ->
  p = match u_port u with Some q => value 0 q | None => 445 end -> net p = Connected (mk_stream s0 [] Open) ->
  registered E known (mk_auth (or_else (u_user u) []) ws (or_else (u_domain u) dom) (or_else (u_password u) [])) ->
  g_next (abs s0) < 65536 -> sound_files (g_behind (abs s0)) -> fs_next (g_behind (abs s0)) < 65536 ->
  tree (unc (u_host u) (u_share u)) [] = Some tid -> u16 tid ->
  contents (fs_files (g_behind (abs s0))) tid (backslashes path) = Some d -> len d < 2 ^ 64 -> (overflow_checks E = true -> len d <= 65500 * 65534) ->
  exists cfg k, resolve_smb_uri word digit (written u) = Ok cfg /\ cf_path cfg = Some path
  /\ forall fuel, (k <= fuel)%nat -> forall cap duplex y,
     ticked cap duplex react (afresh (do! _ := opening E fuel false (login_of cfg ws dom) in fetch E fuel (unc (cf_hostname cfg) (cf_share cfg)) path)
       (initial_cifs (login_of cfg ws dom)) s0 []) y ->
     (ended (the_client y) = true -> y_prog y = Ret (Good d)
        /\ exists fs s2 out, y_in y ++ y_up y = concat fs /\ serves react (y_srv y) fs s2 out
           /\ g_behind (abs s2) = mk_files (fs_files (g_behind (abs s0))) (fs_open (g_behind (abs s0))) (fs_next (g_behind (abs s0)) + 1))
     /\ (1 <= cap -> duplex = true -> exists y', ticked cap duplex react y y' /\ ended (the_client y') = true).
Proof.
  intros tree fsetup accepts Sv react E known setup nonce info abs Hc Hk A1 A2 A3 net word digit u path ws dom t s0 p tid d
    B1 B2 B3 B4 B5 B6 B7 B8 B9 B10 B11 B12 B13 B14 B15 B16 B17 B18 B19 B20 B21.
  destruct (C72_fetch tree fsetup accepts Sv react E known setup nonce info abs Hc A1 A2 A3 net word digit u path ws dom t s0 p tid d
    B1 B2 B3 B4 B5 B6 B7 B8 B9 B10 B11 B12 B13 B14 B15 B16 B17 B18 B19 B20 B21) as (cfg & w1 & w2 & k & H1 & H2 & H3).
  exists cfg, k. split; [exact H1|]. split; [exact H2|]. intros fuel Hfuel cap duplex y Hy. destruct (H3 fuel Hfuel) as (H4 & H5 & H6).
  assert (Hf : frames_only (fetch E fuel (unc (cf_hostname cfg) (cf_share cfg)) path)).
  { unfold fetch. apply fr_mbind; [exact (fr_exec E fuel (Mount _))|]. intros sh. apply fr_mbind; [apply fr_download|]. intros x.
    apply fr_mbind; [exact (fr_exec E fuel (Umount sh))|]. intros _. exact I. }
  destruct (C119_then E Sv net react fuel _ _ [p] w1 bytes _ _ w2 Hk H4 Hf H5) as (b & st & H7 & H8 & H9).
  cbn [last] in H7. rewrite B12 in H7. injection H7 as <-. destruct b; [discriminate (H8 eq_refl)|].
  destruct (H9 eq_refl cap duplex y Hy) as (H10 & H11). split; [|exact H11].
  intros He. destruct (H10 He) as (H12 & _ & fs & out & H13 & H14). split; [exact H12|]. exists fs, (srv w2), out. auto.
Qed.
Print Assumptions C119_fetch.

(** the server of C72's example, whatever the size of the buffers. *)
Example C119_fetch_example : forall extended word digit, exists cfg k,
  resolve_smb_uri word digit (txt "smb://DOMAIN;user:SecREt01@h/s/d/b") = Ok cfg /\ cf_path cfg = Some (txt "d/b")
  /\ forall fuel, (k <= fuel)%nat -> forall cap duplex y,
     ticked cap duplex (ref_server (G1 extended)) (afresh (do! _ := opening env1 fuel false (login_of cfg (txt "WORKSTATION") (txt "X")) in
         fetch env1 fuel (unc (cf_hostname cfg) (cf_share cfg)) (txt "d/b"))
       (initial_cifs (login_of cfg (txt "WORKSTATION") (txt "X"))) (mk_gated [] [] 100 files0) []) y ->
     (ended (the_client y) = true -> y_prog y = Ret (Good (repeat x2a 70))
        /\ exists fs s2 out, y_in y ++ y_up y = concat fs /\ serves (ref_server (G1 extended)) (y_srv y) fs s2 out /\ g_behind s2 = mk_files (fs_files files0) [] 2)
     /\ (1 <= cap -> duplex = true -> exists y', ticked cap duplex (ref_server (G1 extended)) y y' /\ ended (the_client y') = true).
Proof.
  intros extended word digit. change (txt "smb://DOMAIN;user:SecREt01@h/s/d/b") with (written uri2).
  refine (C119_fetch _ _ _ _ _ env1 known1 (setup1 extended) _ _ _ (C64_conforming extended) _ _ _ _ net2 word digit uri2 (txt "d/b")
    (txt "WORKSTATION") (txt "X") (10 * Z.to_N (now env1 / 1000)) (mk_gated [] [] 100 files0) 445 5 _
    _ _ _ eq_refl _ _ _ _ _ _ eq_refl eq_refl (proj1 C64_registered_ex) _ _ _ _ _ eq_refl _ _).
  - intros s f _. unfold ref_server. cbv zeta. destruct (understand (drop 4 f)) as [[R o]|]; [|eauto].
    destruct (u16_at (drop 4 f) 24), (u16_at (drop 4 f) 28), (u16_at (drop 4 f) 30); eauto. destruct (G1 extended _ _ _ _). eauto.
  - reflexivity.
  - reflexivity.
  - vm_compute. discriminate.
  - unfold valid, given, nonempty. cbn. split; [split; [discriminate|chars]|]. split; [split; [discriminate|chars]|]. split; [discriminate|].
    split; [absent|]. split; [exists 104, []; split; [reflexivity|]; split; [unfold word_char; lia|constructor]|].
    split; [exact I|]. split; [discriminate|]. split; [chars|absent].
  - exact I.
  - intros (H & _). discriminate H.
  - reflexivity.
  - reflexivity.
  - reflexivity.
  - absent.
  - vm_compute. discriminate.
  - repeat split. discriminate.
  - reflexivity.
  - constructor.
  - reflexivity.
  - reflexivity.
  - reflexivity.
  - reflexivity.
  - intros _. vm_compute. discriminate.
Qed.
