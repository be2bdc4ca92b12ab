(** * BlameFacts: what is wrong with a reply (C84) *)
From Coq Require Import Permutation Sorted.
From Verif Require Import Base BaseFacts Text Utils Win Errors Info Common Msg Reply Ntlm Prog
  RunFacts Client Spec SpecFacts TextFacts InfoFacts ClientFacts Api MsgFacts SpecReply SpecCrash
  SpecCall ReplyFacts CollectFacts CallFacts FindFacts AnswerFacts TransFacts SpecBlame.
Set Implicit Arguments.
Unset Strict Implicit.
Open Scope N_scope.

(** ** decoders that know one error only *)
Definition only {A} (x : res smb_error A) : Prop := forall e, x = Err e -> e = InvalidData.
Lemma only_ok A (a : A) : only (Ok a). Proof. intros e H. discriminate H. Qed.
Lemma only_panic A : @only A Panic. Proof. intros e H. discriminate H. Qed.
Lemma only_err A : @only A (Err InvalidData). Proof. intros e H. now injection H. Qed.
Lemma only_bind A B (x : res smb_error A) (f : A -> res smb_error B) : only x -> (forall a, only (f a)) -> only (rbind x f).
Proof. intros Hx Hf e H. destruct x as [a|e'|]; cbn [rbind] in H; [now apply (Hf a)|apply Hx; congruence|discriminate H]. Qed.
Lemma only_get k b : only (get_le k b). Proof. unfold get_le. destruct (_ <? _)%nat; [apply only_panic|apply only_ok]. Qed.
Lemma only_advance n b : only (advance n b). Proof. unfold advance. destruct (_ <? _); [apply only_panic|apply only_ok]. Qed.
Lemma only_copy n b : only (copy_to_bytes n b). Proof. unfold copy_to_bytes. destruct (_ <? _); [apply only_panic|apply only_ok]. Qed.
Lemma only_slice a n b : only (slice a n b). Proof. unfold slice. destruct (_ && _); [apply only_ok|apply only_panic]. Qed.
Lemma only_ok_or A (o : option A) : only (ok_or o InvalidData). Proof. destruct o; [apply only_ok|apply only_err]. Qed.
Lemma only_str A (x : res parse_str_error A) : only (map_err of_parse_str_error x).
Proof. destruct x; [apply only_ok|apply only_err|apply only_panic]. Qed.
Lemma only_utf16 A (x : res utf16_error A) : only (map_err of_utf16_error x).
Proof. destruct x; [apply only_ok|apply only_err|apply only_panic]. Qed.
Lemma only_if A (b : bool) (x y : res smb_error A) : only x -> only y -> only (if b then x else y).
Proof. now destruct b. Qed.

Ltac only_tac := repeat first
  [ apply only_get | apply only_advance | apply only_copy | apply only_slice | apply only_ok_or | apply only_str | apply only_utf16
  | apply only_ok | apply only_err | apply only_panic
  | apply only_if | apply only_bind | intros [? ?] | intros ? ].

Lemma only_handle i w d o : only (handle_create (mk_ctx i (drop 4 w) d o)).
Proof. rewrite handle_create_eq. cbv zeta. only_tac. Qed.
Lemma only_read i w d o : only (read_create (mk_ctx i (drop 4 w) d o)).
Proof. rewrite read_create_eq. cbv zeta. only_tac. Qed.
Lemma only_session i w d o : only (session_setup_create (mk_ctx i (drop 4 w) d o)).
Proof. rewrite session_create_eq. cbv zeta. only_tac. Qed.
Lemma only_strings u d : only (strings u d).
Proof. unfold strings. only_tac. Qed.
Lemma only_share i w d o : only (share_create (mk_ctx i (drop 4 w) d o)).
Proof. rewrite share_create_eq. apply only_if; [apply only_panic|]. apply only_bind; [apply only_strings|]. intros [? ?]. apply only_ok. Qed.
Lemma only_info b : only (parse_notify_info b).
Proof. unfold parse_notify_info, get_u32_le. only_tac. Qed.
Lemma only_loop fuel b : forall o acc x, notification_loop fuel b o acc = Some x -> only x.
Proof.
  induction fuel as [|fuel IH]; intros o acc x H; [discriminate H|]. cbn [notification_loop] in H.
  unfold slice_from in H. destruct (o <=? len b); [|injection H as <-; apply only_panic].
  destruct (len (drop o b) =? 0); [injection H as <-; apply only_ok|].
  destruct (len (drop o b) <? 4); [injection H as <-; apply only_err|].
  destruct (@get_u32_le smb_error (drop o b)) as [[n r]|e|] eqn:G.
  - destruct (parse_notify_info r) as [c|e|] eqn:C.
    + destruct (n =? 0); [injection H as <-; apply only_ok|]. eapply IH; eauto.
    + injection H as <-. pose proof (@only_info r e C) as ->. apply only_err.
    + injection H as <-. apply only_panic.
  - injection H as <-. pose proof (@only_get 4 (drop o b) e G) as ->. apply only_err.
  - injection H as <-. apply only_panic.
Qed.
Lemma only_notification s a b : only (notification_parse s a b).
Proof.
  unfold notification_parse. destruct (notification_loop _ _ _ _) as [x|] eqn:H; [|apply only_panic]. eapply only_loop; eauto.
Qed.
Lemma only_blk o n base d : only (blk o n base d).
Proof. unfold blk. only_tac. Qed.
Lemma only_dir e : only (dir_info_parse e).
Proof. rewrite dir_parse_eq. only_tac. Qed.
Lemma only_entries z fuel : forall b acc x, entries_loop z fuel b acc = Some x -> only x.
Proof.
  induction fuel as [|fuel IH]; intros b acc x H; [destruct z; discriminate H|].
  assert (K : forall u d n, match dir_info_parse u with
      | Ok d0 => entries_loop z fuel d (acc ++ [d0]) | Err e => Some (Err e) | Panic => Some Panic end = Some x -> n = 0 -> only x).
  { intros u d n G _. destruct (dir_info_parse u) as [c|e|] eqn:C.
    - eapply IH; eauto.
    - injection G as <-. pose proof (@only_dir u e C) as ->. apply only_err.
    - injection G as <-. apply only_panic. }
  destruct z; cbn [entries_loop find_first_loop find_next_loop] in H.
  - destruct (len b =? 0); [injection H as <-; apply only_ok|].
    destruct (len b <? 4); [injection H as <-; apply only_err|].
    destruct (@get_u32_le smb_error b) as [[n r]|e|] eqn:G.
    + destruct (negb (n =? 0) && (n <? 4)); [injection H as <-; apply only_err|]. cbv zeta in H.
      destruct ((if n =? 0 then len r else n - 4) =? 0); [injection H as <-; apply only_ok|].
      destruct (len r <? (if n =? 0 then len r else n - 4)); [injection H as <-; apply only_err|].
      exact (K _ _ 0 H eq_refl).
    + injection H as <-. pose proof (@only_get 4 b e G) as ->. apply only_err.
    + injection H as <-. apply only_panic.
  - destruct (len b =? 0); [injection H as <-; apply only_ok|].
    destruct (len b <? 4); [injection H as <-; apply only_err|].
    destruct (@get_u32_le smb_error b) as [[n r]|e|] eqn:G.
    + destruct (n <? 4); [injection H as <-; apply only_err|]. cbv zeta in H.
      destruct (n - 4 =? 0); [injection H as <-; apply only_ok|].
      destruct (len r <? n - 4); [injection H as <-; apply only_err|].
      exact (K _ _ 0 H eq_refl).
    + injection H as <-. pose proof (@only_get 4 b e G) as ->. apply only_err.
    + injection H as <-. apply only_panic.
Qed.
Lemma only_batch z b : only (entries_parse z b).
Proof. unfold entries_parse. destruct (entries_loop _ _ _ _) as [x|] eqn:H; [|apply only_panic]. eapply only_entries; eauto. Qed.
Lemma only_find R (c : call R) sub a b : find_sub c = Some sub -> only (sub a b).
Proof.
  destruct c; cbn [find_sub]; intros H; try discriminate H; apply some_inj in H; subst sub.
  - rewrite find_first_eq. apply only_if; [apply only_err|]. apply only_bind; [apply only_batch|]. intros l. only_tac.
  - rewrite find_next_eq. apply only_if; [apply only_err|]. apply only_bind; [apply only_batch|]. intros l. only_tac.
Qed.

(** ** one reply *)
Lemma known_dec x : {In x known_codes} + {~ In x known_codes}.
Proof. apply in_dec. apply N.eq_dec. Qed.
Lemma blame_andx R (c : call R) p words data more (k : bytes -> res smb_error R) e : smb_parts p words data more ->
  andx_code (opcode c) -> opcode c <> 0x72 -> opcode c <> 0xa0 ->
  with_andx true words k = Err e -> only (k (drop 4 words)) -> blames c p e.
Proof.
  intros Hp Hx N1 N2 H Ho. unfold with_andx in H. destruct (N.ltb_spec (len words) 4) as [|Hl]; [discriminate H|].
  destruct (N.eqb_spec (fld 1 words 0) 255) as [E|E].
  - apply Ho in H. subst e. eapply blame_data; [exact Hp| | |].
    + intros _. rewrite u8_fld by lia. now rewrite E.
    + intros C. contradiction.
    + intros C. contradiction.
  - destruct (known_dec (fld 1 words 0)) as [K|K].
    + assert (e = Unsupported AndXChaining) as ->.
      { apply known_codes_iff in K. destruct K as [cm K]. rewrite K in H. congruence. }
      eapply blame_chain; eauto. apply u8_fld. lia.
    + rewrite (cmd_of_code_None K) in H. injection H as <-. eapply blame_code; eauto. apply u8_fld. lia.
Qed.

Lemma blame_transact R (c : call R) i p words data more (sub : bytes -> bytes -> bytes -> res smb_error R) e : smb_parts p words data more ->
  opcode c = 0xa0 -> transact_create sub (mk_ctx i words data (35 + len words)) = Err e ->
  (forall s a b, only (sub s a b)) -> blames c p e.
Proof.
  intros Hp Hc H Ho. rewrite transact_create_eq in H.
  destruct (N.ltb_spec (len words) 36) as [|H36]; [discriminate H|].
  destruct (len words <? 36 + 2 * fld 1 words 35); [discriminate H|].
  assert (Q : forall o, o + 4 <= 36 -> u32_at words o = Some (fld 4 words o)) by (intros o Q; apply u32_fld; lia).
  destruct (N.ltb_spec (fld 4 words 11) (fld 4 words 3)) as [L|L].
  - injection H as <-. eapply blame_part; [exact Hp|exact Hc|exact H36|apply Q; lia|apply Q; lia|apply Q; lia|apply Q; lia|]. now left.
  - destruct (N.ltb_spec (fld 4 words 23) (fld 4 words 7)) as [M|M]; cbn [orb] in H.
    + injection H as <-. eapply blame_part; [exact Hp|exact Hc|exact H36|apply Q; lia|apply Q; lia|apply Q; lia|apply Q; lia|]. now right.
    + assert (O : only (let* a := blk (fld 4 words 15) (fld 4 words 11) (35 + len words) data in
                        let* b := blk (fld 4 words 27) (fld 4 words 23) (35 + len words) data in
                        sub (take (2 * fld 1 words 35) (drop 36 words)) a b)).
      { apply only_bind; [apply only_blk|]. intros a. apply only_bind; [apply only_blk|]. intros b. apply Ho. }
      apply O in H. subst e. eapply blame_data; [exact Hp| | |].
      * rewrite Hc. intros [G|[G|[G|[G|[]]]]]; discriminate G.
      * rewrite Hc. intros G; discriminate G.
      * intros _. do 4 eexists. split; [apply Q; lia|]. split; [apply Q; lia|]. split; [apply Q; lia|]. split; [apply Q; lia|]. auto.
Qed.
Lemma blame_server i p words data more e : smb_parts p words data more ->
  server_setup_create (mk_ctx i words data (35 + len words)) = Err e -> blames Negotiate p e.
Proof.
  intros Hp H. rewrite server_create_eq in H.
  destruct (N.ltb_spec (len words) 17) as [L|L]; [injection H as <-; eapply blame_words; eauto|].
  assert (Q : u16_at words 0 = Some (fld 2 words 0)) by (apply u16_fld; lia).
  destruct (N.eqb_spec (fld 2 words 0) 65535) as [D|D]; [injection H as <-; eapply blame_none; eauto; now rewrite Q, D|].
  destruct (N.leb_spec 1 (fld 2 words 0)) as [D'|D']; [injection H as <-; eapply blame_dialect; eauto; lia|].
  assert (e = InvalidData) as ->.
  { destruct (len words <? 34); [discriminate H|]. destruct (len data <? fld 1 words 33); [|discriminate H]. now injection H. }
  eapply blame_data; [exact Hp| | |].
  - intros [G|[G|[G|[G|[]]]]]; discriminate G.
  - intros _. split; [exact L|]. rewrite Q. f_equal. lia.
  - intros G; discriminate G.
Qed.

Lemma blame_reply R (c : call R) r i p e : reply_of c = Some r -> info_parse p = Ok (i, drop 32 p) ->
  reply_parse r i (drop 32 p) = Err e -> blames c p e.
Proof.
  intros Hr Hi He. pose proof (proj1 (info_head Hi)) as Hl.
  destruct (parse_cases r i Hl) as [(_ & G)|(words & data & more & Hp & G)]; rewrite G in He; [discriminate He|].
  assert (X : r_andx r = true -> andx_code (opcode c) -> opcode c <> 0x72 -> opcode c <> 0xa0 ->
    only (r_create r (mk_ctx i (drop 4 words) data (35 + len words))) -> blames c p e).
  { intros X1 X2 X3 X4 X5. rewrite X1 in He. exact (blame_andx Hp X2 X3 X4 He X5). }
  assert (Y : r_andx r = false -> r_create r (mk_ctx i words data (35 + len words)) = Err e).
  { intros Y. rewrite Y in He. exact He. }
  clear He G.
  destruct c; cbn [reply_of] in Hr; try discriminate Hr; apply some_inj in Hr; subst r.
  - apply X; [reflexivity|now left|discriminate|discriminate|apply only_share].
  - apply X; [reflexivity|now left|discriminate|discriminate|apply only_share].
  - discriminate (Y eq_refl).
  - apply X; [reflexivity|right; now left|discriminate|discriminate|apply only_handle].
  - apply X; [reflexivity|right; now left|discriminate|discriminate|apply only_handle].
  - discriminate (Y eq_refl).
  - apply X; [reflexivity|do 2 right; now left|discriminate|discriminate|apply only_read].
  - discriminate (Y eq_refl).
  - discriminate (Y eq_refl).
  - exact (blame_transact (c := NotifyAbout h mode) Hp eq_refl (Y eq_refl) only_notification).
  - exact (blame_transact (c := Notify h) Hp eq_refl (Y eq_refl) only_notification).
  - exact (blame_server Hp (Y eq_refl)).
  - apply X; [reflexivity|do 3 right; now left|discriminate|discriminate|apply only_session].
  - apply X; [reflexivity|do 3 right; now left|discriminate|discriminate|apply only_session].
Qed.

Lemma blames_fun R (c : call R) p e e' : blames c p e -> blames c p e' -> e = e'.
Proof.
  assert (X1 : opcode c = 0x72 -> ~ andx_code (opcode c)).
  { intros -> [G|[G|[G|[G|[]]]]]; discriminate G. }
  assert (X2 : opcode c = 0xa0 -> ~ andx_code (opcode c)).
  { intros -> [G|[G|[G|[G|[]]]]]; discriminate G. }
  intros H H'. destruct H as [w d r x Hp|w d r x Hp|w d r Hp|w d r Hp|w d r k Hp|w d r tp td np nd Hp|w d r Hp A B C];
  destruct H' as [w' d' r' x' Hp'|w' d' r' x' Hp'|w' d' r' Hp'|w' d' r' Hp'|w' d' r' k' Hp'|w' d' r' tp' td' np' nd' Hp'|w' d' r' Hp' A' B' C'];
  destruct (smb_parts_fun Hp Hp') as (<- & <- & <-); try reflexivity; try (exfalso; tauto);
  try (exfalso; intuition congruence); try (assert (x' = x) by congruence; subst; tauto); try (exfalso; lia).
  all: try (exfalso; destruct (B ltac:(assumption)) as [B1 B2]; congruence || lia).
  all: try (exfalso; destruct (B' ltac:(assumption)) as [B1 B2]; congruence || lia).
  all: first [destruct (C ltac:(assumption)) as (a1 & a2 & a3 & a4 & E1 & E2 & E3 & E4 & L1 & L2)
             |destruct (C' ltac:(assumption)) as (a1 & a2 & a3 & a4 & E1 & E2 & E3 & E4 & L1 & L2)|idtac].
  all: exfalso; first [assert (a1 = tp /\ a2 = td /\ a3 = np /\ a4 = nd) by (repeat split; congruence); lia
             |assert (a1 = tp' /\ a2 = td' /\ a3 = np' /\ a4 = nd') by (repeat split; congruence); lia].
Qed.

(** ** pieces *)
Lemma insert_dup k v m : snd (frag_insert k v m) = existsb (fun e => fst e =? k) m.
Proof. reflexivity. Qed.
Lemma in_nonempty o d ps : In (o, d) (nonempty ps) <-> In (o, d) ps /\ d <> [].
Proof.
  unfold nonempty. rewrite filter_In. cbn [snd]. split; intros [H1 H2]; (split; [exact H1|]).
  - intros ->. discriminate H2.
  - destruct (N.eqb_spec (len d) 0) as [E|E]; [|reflexivity]. apply len_0 in E. contradiction.
Qed.
Lemma dup_iff c ps t o : holds c ps t ->
  (existsb (fun e => fst e =? o) (fragments c) = true <-> exists d', In (o, d') ps /\ d' <> []).
Proof.
  intros H. rewrite existsb_exists. split.
  - intros ([x d] & H1 & H2). cbn [fst] in H2. apply N.eqb_eq in H2. subst x.
    exists d. apply in_nonempty. exact (Permutation_in _ (hold_frag H) H1).
  - intros (d & Hd). apply in_nonempty in Hd. exists (o, d). split; [|apply N.eqb_refl].
    exact (Permutation_in _ (Permutation_sym (hold_frag H)) Hd).
Qed.
Lemma add_wrong c ps t o d t' e : holds c ps t -> ps <> [] -> piece_wrong ps t o d t' e ->
  collector_add c d o t' = Err (Reassemble e).
Proof.
  intros H Hne W. unfold collector_add. rewrite (hold_total H Hne). destruct W as [W|W1 W2 W3].
  - destruct (N.eqb_spec t t') as [E|_]; [congruence|]. reflexivity.
  - subst t'. rewrite N.eqb_refl. cbn [negb rbind]. destruct (N.eqb_spec (len d) 0) as [E|_]; [apply len_0 in E; contradiction|].
    pose proof (proj2 (dup_iff o H) W3) as D. destruct (frag_insert o d (fragments c)) as [m dup] eqn:F.
    rewrite <- (insert_dup o d), F in D. cbn [snd] in D. now rewrite D.
Qed.
Lemma add_right c ps t o d t' : holds c ps t -> ps <> [] -> piece_right ps t o d t' ->
  exists c', collector_add c d o t' = Ok c'.
Proof.
  intros H Hne [-> W]. unfold collector_add. rewrite (hold_total H Hne), N.eqb_refl. cbn [negb rbind].
  destruct (N.eqb_spec (len d) 0) as [E|E]; [eauto|].
  destruct (frag_insert o d (fragments c)) as [m dup] eqn:F. destruct dup; [|eauto]. exfalso.
  assert (D : existsb (fun e => fst e =? o) (fragments c) = true) by (now rewrite <- (insert_dup o d), F).
  apply (dup_iff o H) in D. destruct D as (d' & D1 & D2). destruct W as [->|W]; [now apply E|]. now apply D2, W.
Qed.
Lemma fragment_wrong_add k fs tp td g e : holds2 k fs tp td -> fs <> [] -> fragment_wrong fs tp td g e ->
  collect2_add k g = Err (Reassemble e).
Proof.
  intros H Hne W. unfold collect2_add.
  assert (P0 : parameter_pieces fs <> []) by now rewrite pieces_nil.
  assert (D0 : data_pieces fs <> []) by now rewrite data_nil.
  destruct W as [e W|e R W].
  - now rewrite (add_wrong (hold_p H) P0 W).
  - destruct (add_right (hold_p H) P0 R) as [c' ->]. cbn [rbind]. now rewrite (add_wrong (hold_d H) D0 W).
Qed.
(** either it fits or something is wrong with it *)
Lemma piece_cases ps t o d t' : (exists e, piece_wrong ps t o d t' e) \/ piece_right ps t o d t'.
Proof.
  destruct (N.eq_dec t' t) as [E|E]; [|left; eexists; now apply wrong_total].
  destruct d as [|x d]; [right; split; auto|].
  destruct (existsb (fun e => (fst e =? o) && negb (len (snd e) =? 0)) ps) eqn:X.
  - left. exists (FragmentTwice o). apply wrong_twice; [exact E|discriminate|].
    apply existsb_exists in X. destruct X as ([y d'] & X1 & X2). cbn [fst snd] in X2. apply andb_prop in X2. destruct X2 as [X2 X3].
    apply N.eqb_eq in X2. subst y. exists d'. split; [exact X1|]. intros ->. discriminate X3.
  - right. split; [exact E|]. right. intros d' Hd.
    destruct (N.eqb_spec (len d') 0) as [Z|Z]; [now apply len_0|]. exfalso.
    assert (Y : existsb (fun e => (fst e =? o) && negb (len (snd e) =? 0)) ps = true); [|congruence].
    apply existsb_exists. exists (o, d'). split; [exact Hd|]. cbn [fst snd]. rewrite N.eqb_refl.
    destruct (N.eqb_spec (len d') 0); [contradiction|reflexivity].
Qed.
Lemma fragment_cases fs tp td g : (exists e, fragment_wrong fs tp td g e)
  \/ (piece_right (parameter_pieces fs) tp (f_parameter_offset g) (f_parameter g) (f_parameter_total g)
      /\ piece_right (data_pieces fs) td (f_data_offset g) (f_data g) (f_data_total g)).
Proof.
  destruct (piece_cases (parameter_pieces fs) tp (f_parameter_offset g) (f_parameter g) (f_parameter_total g)) as [[e P]|P].
  - left. exists e. now apply parameter_wrong.
  - destruct (piece_cases (data_pieces fs) td (f_data_offset g) (f_data g) (f_data_total g)) as [[e D]|D]; [|auto].
    left. exists e. now apply data_wrong.
Qed.

(** ** blocks *)
Lemma assemble_wrong l1 b : forall buf o d l2, tiles (len buf) l1 b -> o <> len buf + len b ->
  assemble (l1 ++ (o, d) :: l2) buf = Err (Reassemble (OffsetMismatch o (len buf + len b))).
Proof.
  revert b. induction l1 as [|[x y] l1 IH]; intros b buf o d l2 T N.
  - inversion T; subst. change (len (@nil byte)) with 0 in *. rewrite N.add_0_r in *. cbn [app assemble].
    destruct (N.eqb_spec (len buf) o); [congruence|]. reflexivity.
  - apply tiles_cons_inv in T. destruct T as (-> & b' & -> & T). cbn [app assemble]. rewrite N.eqb_refl. cbn [negb].
    rewrite <- len_app in T. rewrite len_app, N.add_assoc, <- len_app. rewrite len_app, N.add_assoc, <- len_app in N. now apply IH.
Qed.
Lemma assemble_err l : forall buf e, assemble l buf = Err e -> exists l1 o d l2 b, l = l1 ++ (o, d) :: l2
  /\ tiles (len buf) l1 b /\ o <> len buf + len b /\ e = Reassemble (OffsetMismatch o (len buf + len b)).
Proof.
  induction l as [|[o d] l IH]; intros buf e H; cbn [assemble] in H; [discriminate H|].
  destruct (N.eqb_spec (len buf) o) as [E|E]; cbn [negb] in H.
  - destruct (IH _ _ H) as (l1 & o' & d' & l2 & b & -> & T & Hn & ->). rewrite len_app in T.
    exists ((o, d) :: l1), o', d', l2, (d ++ b). split; [reflexivity|].
    rewrite !len_app in *. rewrite !N.add_assoc. split; [subst o; now apply tiles_cons|]. split; [exact Hn|reflexivity].
  - injection H as <-. exists [], o, d, l, []. split; [reflexivity|]. change (len (@nil byte)) with 0. rewrite N.add_0_r.
    split; [constructor|]. split; [congruence|reflexivity].
Qed.
Lemma strong_middle l1 o d l2 : StronglySorted before (l1 ++ (o, d) :: l2) ->
  Forall (fun e => fst e < o) l1 /\ Forall (fun e => o < fst e) l2 /\ StronglySorted before l2.
Proof.
  induction l1 as [|x l1 IH]; cbn [app]; intros H; inversion_clear H as [|? ? H1 H2].
  - split; [constructor|]. split; [exact H2|exact H1].
  - destruct (IH H1) as (A & B & C). split; [|auto]. constructor; [|exact A].
    rewrite Forall_forall in H2. apply (H2 (o, d)). apply in_elt.
Qed.
Lemma strong_join l1 x l2 : StronglySorted before l1 -> StronglySorted before l2 ->
  Forall (fun e => fst e < fst x) l1 -> Forall (fun e => fst x < fst e) l2 -> StronglySorted before (l1 ++ x :: l2).
Proof.
  intros H1 H2 A B. induction H1 as [|y l1 H1 IH F]; cbn [app].
  - constructor; [exact H2|exact B].
  - inversion_clear A as [|? ? A1 A2]. constructor; [now apply IH|]. apply Forall_app. split; [exact F|].
    constructor; [exact A1|]. rewrite Forall_forall in *. intros z Hz. unfold before. specialize (B z Hz). lia.
Qed.
Lemma get_wrong c ps t e : holds c ps t -> ps <> [] -> block_wrong ps t e -> collector_get c = Err (Reassemble e).
Proof.
  intros H Hne W. unfold collector_get. rewrite (hold_total H Hne). cbn [ok_or rbind]. rewrite (holds_len H).
  destruct W as [W|l1 o d l2 b W P T A B N].
  - destruct (N.eqb_spec (size_of ps) t); [contradiction|]. reflexivity.
  - destruct (N.eqb_spec (size_of ps) t); [|contradiction]. cbn [negb].
    assert (F : Forall full (l1 ++ (o, d) :: l2)).
    { rewrite Forall_forall. intros x Hx. pose proof (nonempty_full ps) as F. rewrite Forall_forall in F. apply F. now apply (Permutation_in _ P). }
    assert (Nd : NoDup (map fst (l1 ++ (o, d) :: l2))).
    { eapply Permutation_NoDup; [|exact (hold_nodup H)]. apply Permutation_map. now apply Permutation_sym. }
    assert (Nd2 : NoDup (map fst l2)).
    { rewrite map_app in Nd. cbn [map] in Nd. apply NoDup_remove_1 in Nd. clear -Nd. revert Nd.
      induction (map fst l1) as [|y l IH]; cbn [app]; intros Nd; [exact Nd|]. inversion_clear Nd. auto. }
    assert (sorted (fragments c) = l1 ++ (o, d) :: sorted l2) as ->.
    { apply sorted_unique.
      - apply sorted_strong. eapply Permutation_NoDup; [|exact (hold_nodup H)]. apply Permutation_map. apply Permutation_sym, (hold_frag H).
      - apply strong_join; [|now apply sorted_strong|exact A|].
        + eapply tiles_sorted; [exact T|]. apply Forall_app in F. apply F.
        + cbn [fst]. rewrite Forall_forall in *. intros x Hx. apply B. exact (Permutation_in _ (sorted_perm l2) Hx).
      - eapply perm_trans; [apply sorted_perm|]. eapply perm_trans; [apply (hold_frag H)|]. eapply perm_trans; [apply Permutation_sym, P|].
        apply Permutation_app_head. apply perm_skip. apply Permutation_sym, sorted_perm. }
    exact (@assemble_wrong l1 b [] o d (sorted l2) T N).
Qed.
Lemma get_cases c ps t : holds c ps t -> ps <> [] ->
  (exists e, block_wrong ps t e) \/ exists b, reassembles ps b /\ len b = t.
Proof.
  intros H Hne. destruct (collector_get c) as [b|e|] eqn:G.
  - right. apply (holds_get b H Hne) in G. exists b. tauto.
  - left. unfold collector_get in G. rewrite (hold_total H Hne) in G. cbn [ok_or rbind] in G. rewrite (holds_len H) in G.
    destruct (N.eqb_spec (size_of ps) t) as [E|E]; cbn [negb] in G; [|eexists; now apply wrong_length].
    destruct (assemble_err G) as (l1 & o & d & l2 & b & Hs & T & N & _).
    assert (S : StronglySorted before (sorted (fragments c))).
    { apply sorted_strong. eapply Permutation_NoDup; [|exact (hold_nodup H)]. apply Permutation_map. apply Permutation_sym, (hold_frag H). }
    rewrite Hs in S. destruct (strong_middle S) as (A & B & _). exists (OffsetMismatch o (len b)).
    refine (@wrong_offset ps t l1 o d l2 b E _ T A B N). rewrite <- Hs. eapply perm_trans; [apply sorted_perm|apply (hold_frag H)].
  - now apply collector_get_no_panic in G.
Qed.
Lemma blocks_wrong_get k fs tp td e T (sub : bytes -> bytes -> res smb_error T) : holds2 k fs tp td -> fs <> [] ->
  blocks_wrong fs tp td e -> get_subreply sub k = Err (Reassemble e).
Proof.
  intros H Hne W. unfold get_subreply.
  assert (P0 : parameter_pieces fs <> []) by now rewrite pieces_nil.
  assert (D0 : data_pieces fs <> []) by now rewrite data_nil.
  destruct W as [e W|a e R L W].
  - now rewrite (get_wrong (hold_p H) P0 W).
  - rewrite (proj2 (holds_get a (hold_p H) P0) (conj L R)). cbn [rbind]. now rewrite (get_wrong (hold_d H) D0 W).
Qed.
(** of fragments that agree either the blocks can be put together or something is wrong with one *)
Lemma blocks_cases fs tp td : fs <> [] -> totals fs tp td -> distinct (parameter_pieces fs) -> distinct (data_pieces fs) ->
  (exists e, blocks_wrong fs tp td e) \/ exists a b, split_of fs a b /\ len a = tp /\ len b = td.
Proof.
  intros Hne Ht D1 D2.
  assert (M : forall ps t, ps <> [] -> distinct ps -> holds (mk_collector (nonempty ps) (Some t)) ps t).
  { intros ps t Hps D. constructor; [reflexivity|contradiction|reflexivity|exact D]. }
  assert (P0 : parameter_pieces fs <> []) by now rewrite pieces_nil.
  assert (D0 : data_pieces fs <> []) by now rewrite data_nil.
  destruct (get_cases (M _ tp P0 D1) P0) as [[e W]|(a & Ra & La)]; [left; exists e; now apply parameters_wrong|].
  destruct (get_cases (M _ td D0 D2) D0) as [[e W]|(b & Rb & Lb)]; [left; exists e; eapply datas_wrong; eauto|].
  right. exists a, b. split; [|auto]. split; [exact Hne|]. split; [now rewrite La, Lb|auto].
Qed.

Section Server.
Variable Sv : Type.
Variable react : Sv -> bytes -> reaction Sv.
Notation world := (world cifs Sv).
Notation run := (run react).
Variable E : env.
Variable fuel : nat.

Theorem single_blame R (c : call R) w w1 p rest : single_reply c -> (length (rx w1) < fuel)%nat ->
  answered react E fuel c w w1 p rest -> ~ crashes c p -> (forall v, ~ decodes c p v) ->
  exists e, blames c p e /\ run (exec E fuel c) w = Done (Bad (ESmb e)) (leaving w1 rest).
Proof.
  intros Hs Hf Ha Hc Hd.
  assert (G : exists r, reply_of c = Some r) by (destruct c; cbn in Hs |- *; try contradiction; eauto).
  destruct G as [r Hr]. destruct (answer_run Hr Hf Ha) as (i & Hi & Hrun).
  destruct (reply_parse r i (drop 32 p)) as [v|e|] eqn:Hp.
  - exfalso. apply (reply_ok v Hr Hi) in Hp. now apply Hd in Hp.
  - exists e. split; [eapply blame_reply; eauto|]. exact Hrun.
  - exfalso. apply (reply_panic Hr Hi) in Hp. contradiction.
Qed.

Theorem fragment_blame R (c : call R) w f w1 fs tp td b p g rest e : ~ single_reply c -> (length (rx w1) < fuel)%nat ->
  request (exec E fuel c) (cl w) = Some f -> asked react w f w1 ->
  fragments_arrive (mid (cl w)) (rx w1) fs b -> fs <> [] -> collecting fs tp td ->
  reply_arrives (mid (cl w)) b p rest -> smb_reply p 0x32 0 (mid (cl w)) -> fragment_of p g ->
  fragment_wrong fs tp td g e ->
  run (exec E fuel c) w = Done (Bad (ESmb (Reassemble e))) (leaving w1 rest).
Proof.
  intros Hs Hfuel Hf Ha Hfa Hne Hco Hra Hp Hg Hw. destruct (find_is Hs) as [sub Hsub].
  rewrite (call_asked Hf Ha), (find_after fuel _ Hsub), run_mbind.
  destruct (adds_collecting (pre := []) (holds2_new _ _) Hco) as (k & Hk & Hh). cbn [app] in Hh.
  pose proof (arrive_length Hfa) as Hlen. pose proof (arrives_len Hra) as Hlen2.
  destruct (collect_step react Hk Hfa Hfuel ltac:(lia)) as [n ->]. cbn [collect]. rewrite run_mbind.
  assert (Hg' : (length (rx (leaving w1 b)) < fuel)%nat) by (cbn; lia).
  rewrite (@recv_fragment _ react _ (leaving w1 b) _ _ _ _ Hra Hp Hg Hg'). cbn [gbind obind]. rewrite run_mbind, run_lift.
  rewrite (fragment_wrong_add Hh Hne Hw). reflexivity.
Qed.

(** a message that is no fragment *)
Theorem nofragment_blame R (c : call R) w f w1 fs tp td b p rest : ~ single_reply c -> (length (rx w1) < fuel)%nat ->
  request (exec E fuel c) (cl w) = Some f -> asked react w f w1 ->
  fragments_arrive (mid (cl w)) (rx w1) fs b -> collecting fs tp td ->
  reply_arrives (mid (cl w)) b p rest -> smb_reply p 0x32 0 (mid (cl w)) ->
  ~ crash_fragment p -> (forall g, ~ fragment_of p g) ->
  run (exec E fuel c) w = Done (Bad (ESmb InvalidData)) (leaving w1 rest).
Proof.
  intros Hs Hfuel Hf Ha Hfa Hco Hra Hp Hcr Hno. destruct (find_is Hs) as [sub Hsub].
  rewrite (call_asked Hf Ha), (find_after fuel _ Hsub), run_mbind.
  destruct (adds_collecting (pre := []) (holds2_new _ _) Hco) as (k & Hk & Hh). cbn [app] in Hh.
  pose proof (arrive_length Hfa) as Hlen. pose proof (arrives_len Hra) as Hlen2.
  destruct (collect_step react Hk Hfa Hfuel ltac:(lia)) as [n ->]. cbn [collect]. rewrite run_mbind.
  assert (Hg' : (length (rx (leaving w1 b)) < fuel)%nat) by (cbn; lia).
  destruct (@recv_reply _ react _ r_trans2 _ (leaving w1 b) _ _ _ _ _ Hg' Hra Hp) as (i & Hi & Hc & Hst & ->).
  assert (Hc' : i_cmd i = CTransact2) by (now apply cmd_code_inj). unfold replied. rewrite Hc'. cbn [r_trans2 r_cmd].
  rewrite cmd_eqb_refl. cbn [negb].
  rewrite (proj2 (status_zero Hc' Hst) eq_refl). cbn [negb].
  pose proof (proj1 (info_head Hi)) as Hl.
  destruct (reply_parse r_trans2 i (drop 32 p)) as [v|e|] eqn:Hv.
  - exfalso. apply (fragment_ok i v Hl) in Hv. now apply Hno in Hv.
  - assert (e = InvalidData) as ->; [|reflexivity]. revert e Hv.
    change (only (reply_parse r_trans2 i (drop 32 p))).
    destruct (parse_cases r_trans2 i Hl) as [(_ & ->)|(ws & d & r & _ & ->)]; [apply only_panic|].
    cbn [r_andx r_trans2 with_andx r_create]. rewrite trans2_create_eq. unfold blk0. only_tac.
  - exfalso. apply (fragment_panic i Hl) in Hv. contradiction.
Qed.

Theorem blocks_blame R (c : call R) w f w1 fs g tp td rest e : ~ single_reply c -> (length (rx w1) < fuel)%nat ->
  request (exec E fuel c) (cl w) = Some f -> asked react w f w1 ->
  fragments_arrive (mid (cl w)) (rx w1) (fs ++ [g]) rest -> collecting fs tp td ->
  f_parameter_total g = tp -> f_data_total g = td -> distinct (parameter_pieces (fs ++ [g])) -> distinct (data_pieces (fs ++ [g])) ->
  enough (fs ++ [g]) tp td -> blocks_wrong (fs ++ [g]) tp td e ->
  run (exec E fuel c) w = Done (Bad (ESmb (Reassemble e))) (leaving w1 rest).
Proof.
  intros Hs Hfuel Hf Ha Hfa Hco E1 E2 N1 N2 Hen Hw. destruct (find_is Hs) as [sub Hsub].
  rewrite (call_asked Hf Ha), (find_after fuel _ Hsub), run_mbind.
  destruct (adds_collecting (pre := []) (holds2_new _ _) Hco) as (k & Hk & Hh). cbn [app] in Hh.
  destruct (holds2_add_ok Hh E1 E2 N1 N2) as (k' & d & Hadd).
  destruct (holds2_add Hh Hadd) as (tp' & td' & Hh' & _ & Hd).
  assert (Htt : tp' = tp /\ td' = td).
  { pose proof (hold_t Hh') as T. unfold totals in T. apply Forall_app in T. destruct T as [_ T]. inversion_clear T. destruct H; subst; auto. }
  destruct Htt as [-> ->]. assert (d = true) by (now apply Hd). subst d.
  assert (Hk' : adds collect2_new (fs ++ [g]) k' true).
  { clear -Hk Hadd. remember false as d eqn:Ed. induction Hk; cbn [app]; [now apply adds_last|discriminate Ed|]. econstructor; eauto. }
  pose proof (arrive_length Hfa). rewrite (collect_done react Hk' eq_refl Hfa Hfuel) by lia. cbn [gbind obind]. rewrite run_lift.
  assert (Hne : fs ++ [g] <> []) by now destruct fs.
  rewrite (blocks_wrong_get sub Hh' Hne Hw). reflexivity.
Qed.

Theorem batch_blame R (c : call R) w f w1 fs a b rest : ~ single_reply c -> (length (rx w1) < fuel)%nat ->
  request (exec E fuel c) (cl w) = Some f -> asked react w f w1 ->
  fragments_arrive (mid (cl w)) (rx w1) fs rest -> split_of fs a b -> last_completes fs (len a) (len b) ->
  ~ find_crashes c a b -> (forall v, ~ found_in c a b v) ->
  run (exec E fuel c) w = Done (Bad (ESmb InvalidData)) (leaving w1 rest).
Proof.
  intros Hs Hfuel Hf Ha Hfa Hsp Hl Hcr Hno. destruct (find_is Hs) as [sub Hsub].
  rewrite (find_run Hsub Hfuel Hf Ha Hfa Hsp Hl).
  destruct (sub a b) as [v|e|] eqn:Hv.
  - exfalso. apply (find_ok a b v Hsub) in Hv. now apply Hno in Hv.
  - rewrite (@only_find _ c sub a b Hsub e Hv). reflexivity.
  - exfalso. apply (find_panic a b Hsub) in Hv. contradiction.
Qed.
End Server.
