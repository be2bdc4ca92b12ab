(** * Property C113: through port 139 it is the same. *)
From Coq Require Import String.
From Verif Require Import Base Text Win Errors Common Reply Ntlm Prog Client Uri Spec SpecReply SpecNtlm SpecMsg Api SpecCall
  MsgFacts Flow SpecLogin SpecRemote RefServer FileService SpecAccount Gate Sample SpecUri SpecFetch Crypto Tests FetchFacts SessionFacts SpecDoor DoorFacts P_Remote P_Session P_Uri P_Fetch.
Open Scope N_scope.
Open Scope list_scope.

(** C113: any server, once reachable at port 445, and once only at port 139, where it wants the
    session request [f] first.  Opening the connection ends in the same way, whatever that is:
    the same result, the same client, the same server, the same input left; and the same was
    sent, after [f]. *)
Theorem C113_open : forall Sv (react : Sv -> bytes -> reaction Sv) door name, session_door door react name ->
  forall E net net' maybe e s f, name = a_workstation (credentials maybe) ->
  net 445 = Connected (mk_stream s [] Open) -> net' 445 = ConnectError e -> net' 139 = Connected (mk_stream (inl s) [] Open) ->
  session_request smb_server name f ->
  forall fuel, exists o, open E Sv net react fuel None maybe = ([445], OnStream o)
    /\ open E (Sv + Sv) net' door fuel None maybe = ([445; 139], OnStream (outcome_behind f o)).
Proof. exact door_open. Qed.
Print Assumptions C113_open.

(** and so does every program afterwards *)
Theorem C113_program : forall Sv (react : Sv -> bytes -> reaction Sv) door name, session_door door react name ->
  forall A (p : prog cifs A) f w, run door p (behind f w) = outcome_behind f (run react p w).
Proof. exact door_run. Qed.
Print Assumptions C113_program.

(** hence a URI without a port leads to the file (C72) also where port 445 is closed *)
Theorem C113_fetch : forall tree fsetup accepts Sv (react : Sv -> bytes -> reaction Sv) door E known setup nonce info abs,
  conforming react (gate files E known setup nonce info (file_service tree fsetup accepts)) abs ->
  len (s_challenge setup) = 8 -> (forall n, len (nonce n) = 8) -> len info <= 30000 ->
  forall net word digit u path ws dom t s0 e tid d,
  session_door door react ws ->
  valid word digit_char u -> u_port u = None -> ~ ambiguous word digit u -> u_path u = Some path ->
  is_str (written u) -> is_str ws -> is_str dom -> ~ In 0 dom -> len (written u) + len ws + len dom <= 8000 -> clock E t ->
  net 445 = ConnectError e -> net 139 = Connected (mk_stream (inl s0) [] Open) ->
  registered E known (mk_auth (or_else (u_user u) []) ws (or_else (u_domain u) dom) (or_else (u_password u) [])) ->
  g_next (abs s0) < 65536 -> sound_files (g_behind (abs s0)) -> fs_next (g_behind (abs s0)) < 65536 ->
  tree (unc (u_host u) (u_share u)) [] = Some tid -> u16 tid ->
  contents (fs_files (g_behind (abs s0))) tid (backslashes path) = Some d -> len d < 2 ^ 64 -> (overflow_checks E = true -> len d <= 65500 * 65534) ->
  exists cfg w1 w2 s2 k, resolve_smb_uri word digit (written u) = Ok cfg /\ cf_path cfg = Some path /\ srv w2 = inr s2
  /\ (forall fuel, (k <= fuel)%nat ->
     open E (Sv + Sv) net door fuel (cf_port cfg) (Some (login_of cfg ws dom)) = ([445; 139], OnStream (Done (Good tt) w1))
     /\ run door (fetch E fuel (unc (cf_hostname cfg) (cf_share cfg)) path) w1 = Done (Good d) w2)
  /\ g_behind (abs s2) = mk_files (fs_files (g_behind (abs s0))) (fs_open (g_behind (abs s0))) (fs_next (g_behind (abs s0)) + 1).
Proof. exact door_fetch. Qed.
Print Assumptions C113_fetch.

(** the hypotheses hold: every server can be put behind such a door, which refuses everything
    but the session request *)
Definition door_of {Sv} (react : Sv -> bytes -> reaction Sv) (name : text) (s : Sv + Sv) (f : bytes) : reaction (Sv + Sv) :=
  match s with
  | inl s => if list_eq_dec Byte.byte_eq_dec f (nb_frame 0x81 (session_payload smb_server name))
             then Accept (inr s) positive_response Open
             else Accept (inl s) (nb_frame 0x83 [x82]) Closed
  | inr s => match react s f with
             | Accept s' inc t => Accept (inr s') inc t
             | Refuse s' n e inc t => Refuse (inr s') n e inc t
             end
  end.
Example C113_door : forall Sv (react : Sv -> bytes -> reaction Sv) name, session_door (door_of react name) react name.
Proof.
  intros Sv react name. split; [|reflexivity]. intros s f Hf. cbn [door_of].
  destruct (list_eq_dec Byte.byte_eq_dec f _) as [|H]; [reflexivity|]. destruct (H (session_request_fun Hf (session_request_ok _ _))).
Qed.
Definition net113 (q : N) : connection (gated files + gated files) :=
  if q =? 139 then Connected (mk_stream (inl (mk_gated [] [] 100 files0)) [] Open) else ConnectError 111.
Example C113_example : forall extended word digit, exists cfg w1 w2 s2 k,
  resolve_smb_uri word digit (txt "smb://DOMAIN;user:SecREt01@h/s/d/b") = Ok cfg /\ cf_path cfg = Some (txt "d/b") /\ srv w2 = inr s2
  /\ (forall fuel, (k <= fuel)%nat ->
     open env1 _ net113 (door_of (ref_server (G1 extended)) (txt "WORKSTATION")) fuel (cf_port cfg) (Some (login_of cfg (txt "WORKSTATION") (txt "X")))
       = ([445; 139], OnStream (Done (Good tt) w1))
     /\ run (door_of (ref_server (G1 extended)) (txt "WORKSTATION")) (fetch env1 fuel (unc (cf_hostname cfg) (cf_share cfg)) (txt "d/b")) w1 = Done (Good (repeat x2a 70)) w2)
  /\ g_behind s2 = mk_files (fs_files files0) [] 2.
Proof.
  intros extended word digit. change (txt "smb://DOMAIN;user:SecREt01@h/s/d/b") with (written uri2).
  refine (C113_fetch _ _ _ _ _ _ env1 known1 (setup1 extended) _ _ _ (C64_conforming extended) _ _ _ net113 word digit uri2 (txt "d/b")
    (txt "WORKSTATION") (txt "X") (10 * Z.to_N (now env1 / 1000)) (mk_gated [] [] 100 files0) 111 5 _
    (C113_door _ _ _) _ eq_refl _ eq_refl _ _ _ _ _ _ eq_refl eq_refl (proj1 C64_registered_ex) _ _ _ _ _ eq_refl _ _).
  - reflexivity.
  - reflexivity.
  - vm_compute. discriminate.
  - unfold valid, given, nonempty. cbn. split; [split; [discriminate|chars]|]. split; [split; [discriminate|chars]|]. split; [discriminate|].
    split; [absent|]. split; [exists 104, []; split; [reflexivity|]; split; [unfold word_char; lia|constructor]|].
    split; [exact I|]. split; [discriminate|]. split; [chars|absent].
  - intros (H & _). discriminate H.
  - reflexivity.
  - reflexivity.
  - reflexivity.
  - absent.
  - vm_compute. discriminate.
  - repeat split. discriminate.
  - reflexivity.
  - constructor.
  - reflexivity.
  - reflexivity.
  - reflexivity.
  - reflexivity.
  - intros _. vm_compute. discriminate.
Qed.
