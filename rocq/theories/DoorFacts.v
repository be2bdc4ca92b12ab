(** * DoorFacts: a server that is reached over port 139 only (C113) *)
From Coq Require Import Lia String.
From Verif Require Import Base BaseFacts Text Win Errors Common Reply Ntlm Prog Client Uri Spec SpecReply SpecNtlm SpecMsg Api SpecCall RunFacts ClientFacts SizeFacts Flow FlowFacts
  SpecLogin SpecRemote RemoteFacts RefServer RefFacts FileService FileFacts SpecAccount AccountFacts Gate GateFacts OpenFacts SessionFacts SpecUri UriFacts SpecFetch FetchFacts SpecDoor.
Open Scope N_scope.
Open Scope list_scope.
Set Implicit Arguments.

Section Door.
Variable Sv : Type.
Variable react : Sv -> bytes -> reaction Sv.
Variable door : Sv + Sv -> bytes -> reaction (Sv + Sv).
Variable name : text.
Hypothesis Hd : session_door door react name.

Theorem door_run A (p : prog cifs A) f : forall w, run door p (behind f w) = outcome_behind f (run react p w).
Proof.
  induction p as [a| | |k IH|c k IH|n k IH|b k IH]; intros w; cbn [run]; try reflexivity.
  - exact (IH (cl w) w).
  - exact (IH (mk_world c (srv w) (rx w) (tl w) (tx w))).
  - cbn [behind rx tl]. destruct (n <=? len (rx w)); [exact (IH _ (mk_world (cl w) (srv w) (drop n (rx w)) (tl w) (tx w)))|].
    destruct (tl w) eqn:Ht; [reflexivity| |].
    + rewrite <- Ht. exact (IH RdEof (mk_world (cl w) (srv w) [] (tl w) (tx w))).
    + rewrite <- Ht. exact (IH (RdErr e) (mk_world (cl w) (srv w) [] (tl w) (tx w))).
  - cbn [behind srv rx tl cl tx]. rewrite (proj2 Hd). destruct (react (srv w) b) as [s inc t|s n e inc t]; destruct (deliver (tl w) (rx w) inc t) as [buf t'].
    + exact (IH None (mk_world (cl w) s buf t' (tx w ++ [b]))).
    + exact (IH (Some e) (mk_world (cl w) s buf t' (tx w ++ [take n b]))).
Qed.
Theorem door_open E net net' maybe e s f : name = a_workstation (credentials maybe) ->
  net 445 = Connected (mk_stream s [] Open) -> net' 445 = ConnectError e -> net' 139 = Connected (mk_stream (inl s) [] Open) ->
  session_request smb_server name f ->
  forall fuel, exists o, open E Sv net react fuel None maybe = ([445], OnStream o)
    /\ open E (Sv + Sv) net' door fuel None maybe = ([445; 139], OnStream (outcome_behind f o)).
Proof.
  intros Hname H1 H2 H3 Hf fuel. pose proof (proj1 Hd s f Hf) as Hacc. rewrite Hname in Hf. eexists. split; [unfold open; rewrite H1; reflexivity|].
  unfold open. rewrite H2, H3. f_equal. f_equal. change (match maybe with Some a => a | None => default_auth end) with (credentials maybe).
  change SMBSERVER with smb_server. rewrite run_mbind. set (a := credentials maybe) in Hf |- *.
  rewrite (@session_positive _ door (a_workstation a) (start (Sv + Sv) a (mk_stream (inl s) [] Open)) f
    (mk_world (initial_cifs a) (inr s) positive_response Open [f]) [] Hf).
  - cbn [obind gbind]. rewrite <- door_run. reflexivity.
  - exists (inr s), positive_response, Open. cbn [start st_srv st_rx st_tl srv rx tl]. split; [exact Hacc|]. auto.
  - reflexivity.
Qed.
End Door.

Section Fetch.
Variable tree : text -> text -> option N.
Lemma door_fetch fsetup accepts Sv (react : Sv -> bytes -> reaction Sv) (door : Sv + Sv -> bytes -> reaction (Sv + Sv)) E known setup nonce info abs :
  conforming react (gate files E known setup nonce info (file_service tree fsetup accepts)) abs ->
  len (s_challenge setup) = 8 -> (forall n, len (nonce n) = 8) -> len info <= 30000 ->
  forall net word digit u path ws dom t s0 e tid d,
  session_door door react ws ->
  valid word digit_char u -> u_port u = None -> ~ ambiguous word digit u -> u_path u = Some path ->
  is_str (written u) -> is_str ws -> is_str dom -> ~ In 0 dom -> len (written u) + len ws + len dom <= 8000 -> clock E t ->
  net 445 = ConnectError e -> net 139 = Connected (mk_stream (inl s0) [] Open) ->
  registered E known (mk_auth (or_else (u_user u) []) ws (or_else (u_domain u) dom) (or_else (u_password u) [])) ->
  g_next (abs s0) < 65536 -> sound_files (g_behind (abs s0)) -> fs_next (g_behind (abs s0)) < 65536 ->
  tree (unc (u_host u) (u_share u)) [] = Some tid -> u16 tid ->
  contents (fs_files (g_behind (abs s0))) tid (backslashes path) = Some d -> len d < 2 ^ 64 -> (overflow_checks E = true -> len d <= 65500 * 65534) ->
  exists cfg w1 w2 s2 k, resolve_smb_uri word digit (written u) = Ok cfg /\ cf_path cfg = Some path /\ srv w2 = inr s2
  /\ (forall fuel, (k <= fuel)%nat ->
     open E (Sv + Sv) net door fuel (cf_port cfg) (Some (login_of cfg ws dom)) = ([445; 139], OnStream (Done (Good tt) w1))
     /\ run door (fetch E fuel (unc (cf_hostname cfg) (cf_share cfg)) path) w1 = Done (Good d) w2)
  /\ g_behind (abs s2) = mk_files (fs_files (g_behind (abs s0))) (fs_open (g_behind (abs s0))) (fs_next (g_behind (abs s0)) + 1).
Proof.
  intros conf Hc Hn Hi net word digit u path ws dom t s0 e tid d Hdoor Hv Hport Ha Hpath Hstr Hws Hdom Hnul Hlen Ht H1 H2 Hreg Hnx Hsf Hfn Htree Htid Hcon Hd Hov.
  set (net1 := fun _ : N => Connected (mk_stream s0 [] Open)).
  destruct (@fetch_file tree fsetup accepts Sv react E known setup nonce info abs conf Hc Hn Hi net1 word digit u path ws dom t s0 445 tid d)
    as (cfg & w1 & w2 & k & Hr & Hp & Hf); auto.
  { now rewrite Hport. }
  { now rewrite Hport. }
  assert (Hnone : cf_port cfg = None).
  { destruct (resolve_exact word digit u) as (cfg' & Hcfg & C1 & C2 & C3 & C4 & C5 & C6 & C7); auto; [now rewrite Hport|].
    rewrite Hr in Hcfg. injection Hcfg as <-. rewrite Hport in C7. destruct (cf_port cfg); [contradiction|reflexivity]. }
  pose proof (session_request_ok smb_server ws) as Hs.
  exists cfg, (behind (nb_frame 0x81 (session_payload smb_server ws)) w1), (behind (nb_frame 0x81 (session_payload smb_server ws)) w2), (srv w2), k.
  split; [exact Hr|]. split; [exact Hp|]. split; [reflexivity|]. split.
  - intros fuel Hk. destruct (Hf fuel Hk) as (F1 & F2 & _). rewrite Hnone in *. split.
    + destruct (@door_open Sv react door ws Hdoor E net1 net (Some (login_of cfg ws dom)) e s0 _ eq_refl eq_refl H1 H2 Hs fuel) as (o & O1 & O2).
      rewrite F1 in O1. apply on_stream in O1. subst o. exact O2.
    + rewrite (door_run Hdoor), F2. reflexivity.
  - exact (proj2 (proj2 (Hf k (le_n k)))).
Qed.
End Fetch.
