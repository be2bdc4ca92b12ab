(** * Servers without Unicode: C104 *)
From Verif Require Import Base Text Win Errors Info Common Reply Ntlm Prog Client Spec SpecReply SpecMsg Api SpecCall Flow Sample RefServer
  RunFacts SpecOem OemFacts.
Open Scope N_scope.

(** C104: a server that does not announce Unicode (the client then clears the Unicode flag) finds
    in every request the name the caller gave.  Exactly: it does for tree connects, for no name at
    all, and for names of one letter in delete, rmdir and searches.  (Missing: all other names.) *)
Theorem C104_partial : forall E fuel st, typed_client st -> forall R (c : call R) s f,
  typed c -> use_unicode st = false -> names c s -> plain s -> request (exec E fuel c) st = Some f ->
  exists p words data, f = session_message p /\ smb_parts p words data [] /\ u16_at p 10 = Some 0x4843
  /\ (finds c p words (plain_bytes s) <-> arrives c s).
Proof. exact request_arrives. Qed.
Print Assumptions C104_partial.
(** What it finds, and nothing else: the first letter only in delete, rmdir and searches, no name
    at all in open and in the login. *)
Theorem C104_found : forall E fuel st, typed_client st -> forall R (c : call R) s f,
  typed c -> use_unicode st = false -> names c s -> plain s -> request (exec E fuel c) st = Some f ->
  exists p words data, f = session_message p /\ smb_parts p words data [] /\ u16_at p 10 = Some 0x4843
  /\ forall b, finds c p words b <-> b = plain_bytes (found_name c s).
Proof. exact request_found. Qed.
Print Assumptions C104_found.

Definition oem0 : cifs := mk_cifs default_auth 4356 false 7 3.
Example C104_example : typed_client oem0 /\ typed (Delete share0 [100; 47; 97]) /\ use_unicode oem0 = false
  /\ names (Delete share0 [100; 47; 97]) [100; 92; 97] /\ plain [100; 92; 97]
  /\ (exists f, request (exec (env0 true) 5 (Delete share0 [100; 47; 97])) oem0 = Some f /\ bytes_at f 42 3 = Some [x64; x00; x5c])
  /\ ~ arrives (Delete share0 [100; 47; 97]) [100; 92; 97].
Proof.
  split; [split; vm_compute; reflexivity|]. split; [split; vm_compute; reflexivity|]. split; [reflexivity|].
  split; [repeat constructor; lia|]. split; [repeat constructor; lia|].
  split; [eexists; split; [runs|runs]|]. vm_compute. intros H. now apply H.
Qed.

(** ** such a server, with the files of one directory *)
Fixpoint up_to_zero (b : bytes) : bytes :=
  match b with [] => [] | x :: r => if b2n x =? 0 then [] else x :: up_to_zero r end.
Fixpoint same (a b : bytes) : bool :=
  match a, b with [], [] => true | x :: a, y :: b => (b2n x =? b2n y) && same a b | _, _ => false end.
Definition oem_listing (l : list bytes) : bytes * bytes :=
  write_trans2 (le 2 1 ++ le 2 (len l) ++ le 2 1 ++ le 2 0 ++ le 2 0)
    (flat_map (fun name => let e := le 4 0 ++ zeros 48 ++ le 4 0 ++ le 4 (len name) ++ name in le 4 (4 + len e) ++ e) l).
Definition oem_server (files : list bytes) (f : bytes) : reaction (list bytes) :=
  let p := drop 4 f in
  match u8_at p 4, u16_at p 30 with
  | Some code, Some id =>
    if code =? 0x06 then
      let name := up_to_zero (drop 38 p) in
      if existsb (same name) files then Accept (filter (fun x => negb (same name x)) files) (session_message (message code 0 id [] [])) Open
      else Accept files (session_message (message code 0xc0000034 id [] [])) Open
    else Accept files (session_message (message code 0 id (fst (oem_listing files)) (snd (oem_listing files)))) Open
  | _, _ => Accept files [] Open
  end.
Definition remote (files : list bytes) : world cifs (list bytes) := mk_world oem0 files [] Open [].
(** the names it reads are the ones it finds *)
Lemma up_to_zero_at p o b : oem_at p o b -> up_to_zero (drop o p) = b.
Proof.
  intros (r & -> & H). induction b as [|x b IH]; [reflexivity|]. cbn [app up_to_zero].
  destruct (N.eqb_spec (b2n x) 0) as [E|_].
  - exfalso. apply H. left. destruct x; vm_compute in E; try discriminate E. reflexivity.
  - f_equal. apply IH. intros ?. apply H. now right.
Qed.

(** Asked to delete "foo" this server deletes "f", and the caller learns that all went well. *)
Theorem C104_refuted : exists w',
  run oem_server (exec (env0 true) 400 (Delete share0 [102; 111; 111])) (remote [[x66]; [x66; x6f; x6f]]) = Done (Good tt) w'
  /\ srv w' = [[x66; x6f; x6f]].
Proof. eexists. split; runs. Qed.
Print Assumptions C104_refuted.

(** Its directory listings: a file name of an odd number of letters panics; of an even number it
    comes out as half as many other letters. *)
Theorem C104_entries : forall e s, plain s -> oem_entry e s ->
  (Nat.even (length s) = false -> dir_info_parse e = Panic)
  /\ (forall d, dir_info_parse e = Ok d -> s <> [] -> d_filename d <> s).
Proof. intros e s Hs He. split; [now apply entry_odd|]. intros d Hd Hn. now apply entry_wrong with (e := e). Qed.
Print Assumptions C104_entries.
Theorem C104_changes : forall b o s c, plain s -> s <> [] -> oem_change b o s -> notify_entry b o c -> fst c <> s.
Proof. exact change_wrong. Qed.
Print Assumptions C104_changes.
Theorem C104_listing_refuted :
  (exists w', run oem_server (exec (env0 true) 400 (FindFirst share0 [42])) (remote [[x66; x6f; x6f]]) = Crashed w')
  /\ exists w' v, run oem_server (exec (env0 true) 400 (FindFirst share0 [42])) (remote [[x61; x62]]) = Done (Good v) w'
     /\ map d_filename (ff_info v) = [[0x6261]].
Proof. split; [eexists; runs|]. eexists. eexists. split; runs. Qed.
Print Assumptions C104_listing_refuted.
Example C104_entry_example : let e := le 4 0 ++ zeros 48 ++ le 4 0 ++ le 4 3 ++ [x66; x6f; x6f] in
  plain [102; 111; 111] /\ oem_entry e [102; 111; 111] /\ dir_info_parse e = Panic.
Proof. cbv zeta. split; [repeat constructor; lia|]. split; [split; runs|runs]. Qed.
Example C104_change_example : let b := le 4 0 ++ le 4 1 ++ le 4 2 ++ [x61; x62] in
  plain [97; 98] /\ oem_change b 0 [97; 98] /\ notify_entry b 0 ([0x6261], ADDED).
Proof.
  cbv zeta. split; [repeat constructor; lia|]. split; [split; runs|]. exists 2, [x61; x62]. split; [runs|]. split; [runs|]. split; [runs|].
  exists [0x6261]. split; [|runs]. apply utf16_bmp; [left; reflexivity|constructor].
Qed.
