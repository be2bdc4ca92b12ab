(** * Properties C82, C83: what the server does not decide, and what it does *)
From Verif Require Import Base Text Win Errors Common Reply Ntlm Prog Client Spec SpecReply SpecMsg Api SpecCall
  BaseFacts TextFacts MsgFacts SizeFacts Flow FlowFacts SpecRemote RemoteFacts RefServer RefFacts FileService FileFacts PairFacts Sample P_Remote.
Open Scope N_scope.

(** C82: two conforming servers for one service (say, two implementations) cannot be told apart:
    every client program gets the same answers from them, writes the same bytes to them and leaves
    them in the same state. *)
Theorem C82_twins : forall Sv1 Sv2 St (react1 : Sv1 -> bytes -> reaction Sv1) (react2 : Sv2 -> bytes -> reaction Sv2) (B : service St)
    abs1 abs2 E A (f : flow A) c st n a c' st',
  conforming react1 B abs1 -> conforming react2 B abs2 -> local B f c st n a c' st' ->
  forall w1 w2, cl w1 = c -> cl w2 = c -> abs1 (srv w1) = st -> abs2 (srv w2) = st ->
  typed_client c -> idle w1 -> idle w2 -> room E c n ->
  exists k v1 v2 fs, (forall fuel, (k <= fuel)%nat -> run react1 (interp E fuel f) w1 = Done a v1 /\ run react2 (interp E fuel f) w2 = Done a v2)
    /\ tx v1 = tx w1 ++ fs /\ tx v2 = tx w2 ++ fs /\ length fs = n
    /\ idle v1 /\ idle v2 /\ cl v1 = c' /\ cl v2 = c' /\ abs1 (srv v1) = st' /\ abs2 (srv v2) = st'.
Proof.
  intros Sv1 Sv2 St react1 react2 B abs1 abs2 E A f c st n a c' st' H1 H2 H.
  exact (@twins Sv1 Sv2 St react1 react2 B abs1 abs2 H1 H2 E A f c st n a c' st' H).
Qed.
Print Assumptions C82_twins.
(** a server that sends a keep-alive before every answer, and counts *)
Definition chatty {Sv} (react : Sv -> bytes -> reaction Sv) (s : Sv * N) (b : bytes) : reaction (Sv * N) :=
  match react (fst s) b with
  | Accept s' inc t => Accept (s', snd s + 1) (keepalive ++ inc) t
  | Refuse s' n e inc t => Refuse (s', snd s) n e inc t
  end.
Lemma arrives_later id b p rest : reply_arrives id b p rest -> reply_arrives id (keepalive ++ b) p rest.
Proof.
  intros (skip & H1 & H2 & ->). exists (keepalive ++ skip). split; [now constructor|]. split; [exact H2|]. now rewrite <- app_assoc.
Qed.
Theorem C82_chatty : forall Sv St (react : Sv -> bytes -> reaction Sv) (B : service St) abs,
  conforming react B abs -> conforming (chatty react) B (fun s => abs (fst s)).
Proof.
  intros Sv St react B abs H s R c unicode who id p words data Ht Hu Hl Hp Hh Ha.
  destruct (H (fst s) R c unicode who id p words data Ht Hu Hl Hp Hh Ha) as (s' & inc & Hr & Hs & Han).
  exists (s', snd s + 1), (keepalive ++ inc). unfold chatty. rewrite Hr. split; [reflexivity|]. split; [exact Hs|]. clear -Han.
  destruct (fst (B R who (op_of c) (abs (fst s)))) as [v|st]; cbn [answers] in *.
  - destruct Han as [H1 H2]. split; intros Hs.
    + destruct (H1 Hs) as (q & st & G1 & G2). exists q, st. split; [now apply arrives_later|exact G2].
    + destruct (H2 Hs) as (fs & a & b & G1 & G2 & G3). exists fs, a, b. split; [|split; [exact G2|exact G3]].
      destruct G1 as [b0|b0 q b' fr fs rest X1 X2 X3 X4]; [destruct G2 as [G2 _]; contradiction|].
      econstructor; [apply arrives_later; exact X1|exact X2|exact X3|exact X4].
  - destruct Han as (q & G1 & G2). exists q. split; [now apply arrives_later|exact G2].
Qed.
Print Assumptions C82_chatty.
(** the tour of P_Remote at the server and at the chatty server *)
Example C82_ex : exists k v1 v2 fs,
  (forall fuel, (k <= fuel)%nat -> run (ref_server FS0) (interp (env0 true) fuel tour) remote0
      = Done (Good (mk_share None None [65; 58] [78; 84; 70; 83] 5, repeat x2a 10)) v1
    /\ run (chatty (ref_server FS0)) (interp (env0 true) fuel tour) (mk_world client0 (files0, 0) [] Open [])
      = Done (Good (mk_share None None [65; 58] [78; 84; 70; 83] 5, repeat x2a 10)) v2)
  /\ tx v1 = fs /\ tx v2 = fs /\ length fs = 4%nat.
Proof.
  destruct C62_program_ex as (a & c' & st' & Hl & ->).
  destruct (C82_twins _ _ _ _ _ _ _ _ (env0 true) _ _ _ _ _ _ _ _ FS0_conforming (C82_chatty _ _ _ _ _ FS0_conforming) Hl
    remote0 (mk_world client0 (files0, 0) [] Open []) eq_refl eq_refl eq_refl eq_refl) as (k & v1 & v2 & fs & H1 & H2 & H3 & H4 & _).
  - split; reflexivity.
  - split; reflexivity.
  - split; reflexivity.
  - intros _. vm_compute. discriminate.
  - exists k, v1, v2, fs. auto.
Qed.

(** C83: the names in a list should be names: not empty, no separators, not "." or "..", no NUL.
    Instead every text (that fits) can be a name. *)
Definition file_name (t : text) : Prop := t <> [] /\ t <> [46] /\ t <> [46; 46] /\ ~ In 47 t /\ ~ In 92 t /\ ~ In 0 t.
Lemma len_entries1 d : len (write_entries [d]) = 64 + 2 * utf16_len (d_filename d).
Proof. cbn [write_entries]. unfold write_entry. rewrite !len_app, !len_le, len_encode_utf16le, utf16_len_utf16. change (len (@nil byte)) with 0. lia. Qed.
Theorem C83_any_refuted : forall name, is_str name -> utf16_len name < 32000 ->
  exists k w w', idle w /\ typed_client (cl w)
  /\ (forall fuel, (k <= fuel)%nat -> run (ref_server FS0) (list_dir (env0 true) fuel share0 [42]) w
     = Done (Good [mk_dir 0 0 0 0 name 0 0x80]) w').
Proof.
  intros name Hn Hl. set (w := mk_world client0 (mk_files [(5, name, [])] [] 1) [] Open []).
  assert (Hlist : listing (srv w) (sh_tid share0) (backslashes [42]) = [mk_dir 0 0 0 0 name 0 0x80]).
  { unfold w, listing. cbn [srv fs_files filter fst snd]. change (sh_tid share0) with 5. change (5 =? 5) with true.
    change (text_eqb (backslashes [42]) [42]) with true. cbn [andb orb]. unfold expressible, is_str in *. rewrite Hn. reflexivity. }
  destruct (C63_list _ (ref_server FS0) tree0 setup0 accepts0 (fun s => s) (env0 true) w share0 [42] FS0_conforming) as (k & w' & H & _).
  - split; reflexivity.
  - split; reflexivity.
  - rewrite Hlist, len_entries1. cbn [d_filename]. lia.
  - reflexivity.
  - reflexivity.
  - vm_compute. discriminate.
  - intros _. vm_compute. discriminate.
  - exists k, w, w'. split; [split; reflexivity|]. split; [split; reflexivity|]. rewrite Hlist in H. exact H.
Qed.
Print Assumptions C83_any_refuted.
(** "..\..\x" *)
Example C83_ex : is_str [46; 46; 92; 46; 46; 92; 120] /\ utf16_len [46; 46; 92; 46; 46; 92; 120] < 32000 /\ ~ file_name [46; 46; 92; 46; 46; 92; 120].
Proof. split; [reflexivity|]. split; [reflexivity|]. intros (_ & _ & _ & _ & H & _). apply H. cbn. auto. Qed.
(** The names are the names the server has: a server that has only file names sends only those
    (partial). *)
Theorem C83_names_partial : forall Sv (react : Sv -> bytes -> reaction Sv) tree setup accepts abs E w s pattern,
  conforming react (file_service tree setup accepts) abs -> typed_client (cl w) -> idle w ->
  len (write_entries (listing (abs (srv w)) (sh_tid s) (backslashes pattern))) < 65400 ->
  u16 (sh_tid s) -> is_str pattern -> fits_request (use_unicode (cl w)) (FindFirst s pattern) -> room E (cl w) 1 ->
  (forall t p d, In (t, p, d) (fs_files (abs (srv w))) -> file_name p) ->
  exists k w' l, (forall fuel, (k <= fuel)%nat -> run react (list_dir E fuel s pattern) w = Done (Good l) w')
    /\ Forall (fun d => file_name (d_filename d)) l.
Proof.
  intros Sv react tree setup accepts abs E w s pattern Hc H1 H2 H3 H4 H5 H6 H7 Hn.
  destruct (C63_list Sv react tree setup accepts abs E w s pattern Hc H1 H2 H3 H4 H5 H6 H7) as (k & w' & Hr & _).
  eexists k, w', _. split; [exact Hr|]. apply Forall_forall. intros d Hd. unfold listing in Hd. apply in_map_iff in Hd.
  destruct Hd as ([[t p] b] & <- & Hin). apply filter_In in Hin as [Hin _]. exact (Hn t p b Hin).
Qed.
Print Assumptions C83_names_partial.
Example C83_names_ex : forall t p d, In (t, p, d) [(5, [97], [x68]); (5, [98; 46], [])] -> file_name p.
Proof.
  intros t p d [H|[H|[]]]; injection H as <- <- <-; repeat split; try discriminate; cbn; intros H0; repeat (destruct H0 as [H0|H0]; [discriminate H0|]); exact H0.
Qed.
