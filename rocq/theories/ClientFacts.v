(** * ClientFacts: what sending and receiving do, for every server. *)
From Verif Require Import Base BaseFacts Text Utils Win Errors Info Common Msg Reply Ntlm Prog
  RunFacts Client Spec SpecFacts InfoFacts.
Set Implicit Arguments.
Unset Strict Implicit.
Open Scope N_scope.

Definition with_rx {C S} (r : bytes) (w : world C S) : world C S :=
  mk_world (cl w) (srv w) r (tl w) (tx w).
Definition with_cl {C S} (c : C) (w : world C S) : world C S :=
  mk_world c (srv w) (rx w) (tl w) (tx w).

Lemma with_rx_same {C S} (w : world C S) : with_rx (rx w) w = w.
Proof. now destruct w. Qed.

Section Facts.
Variable Sv : Type.
Variable react : Sv -> bytes -> reaction Sv.
Notation world := (world cifs Sv).
Notation run := (run react).

Definition gbind {A B} (o : outcome cifs Sv (ans A)) (f : A -> world -> outcome cifs Sv (ans B))
  : outcome cifs Sv (ans B) :=
  obind o (fun r w => match r with Good a => f a w | Bad e => Done (Bad e) w end).

Lemma run_mbind {A B} (p : M A) (f : A -> M B) w :
  run (mbind p f) w = gbind (run p w) (fun a w => run (f a) w).
Proof.
  unfold mbind, gbind. rewrite run_bind. destruct (run p w) as [[a|e] w'|w'|w'|w']; reflexivity.
Qed.
Lemma run_ret {A} (a : A) w : run (ret a) w = Done (Good a) w.
Proof. reflexivity. Qed.
Lemma run_get w : run get w = Done (Good (cl w)) w.
Proof. reflexivity. Qed.
Lemma run_put c w : run (put c) w = Done (Good tt) (with_cl c w).
Proof. reflexivity. Qed.
Definition lifted {E A} (f : E -> error) (r : res E A) (w : world) : outcome cifs Sv (ans A) :=
  match r with Ok a => Done (Good a) w | Err e => Done (Bad (f e)) w | Panic => Crashed w end.
Lemma run_lift {E A} (f : E -> error) (r : res E A) w : run (lift f r) w = lifted f r w.
Proof. destruct r; reflexivity. Qed.

(** ** receiving *)
(** end of the stream inside (or before) a frame *)
Definition short_outcome {A} (w : world) : outcome cifs Sv (ans A) :=
  match tl w with
  | Open => Blocked (with_rx [] w)
  | Closed => Done (Bad (ENetBios (if len (rx w) <? 4 then IoError IoUnexpectedEof else UnexpectedEOF)))
                (with_rx [] w)
  | Broken e => Done (Bad (ENetBios (IoError (IoOther e)))) (with_rx [] w)
  end.

Lemma unbe4 x y z : unbe [x00; x; y; z] = b2n x * 65536 + b2n y * 256 + b2n z.
Proof. clear react. unfold unbe. cbn [rev app unle]. change (b2n x00) with 0. lia. Qed.


Lemma run_nb_recv w : run nb_recv w =
  match next_frame (rx w) with
  | NFrame ty p rest => lifted ENetBios (frame_new ty p) (with_rx rest w)
  | NTooBig rest => Done (Bad (ENetBios FrameTooBig)) (with_rx rest w)
  | NShort => short_outcome w
  end.
Proof.
  unfold nb_recv, read_std, read_exactly, short_outcome.
  destruct w as [c s b t x].
  destruct b as [|b0 [|b1 [|b2 [|b3 r]]]];
    try (cbn; destruct t; reflexivity).
  cbn [rx next_frame].
  rewrite run_mbind. cbn [Prog.run rx].
  rewrite leb_true by (autorewrite with len; lia).
  cbn [gbind obind cl srv tl tx].
  change (take 1 (b0 :: b1 :: b2 :: b3 :: r)) with [b0].
  change (drop 1 (b0 :: b1 :: b2 :: b3 :: r)) with (b1 :: b2 :: b3 :: r).
  cbn [Prog.run ret gbind obind]. rewrite run_mbind. cbn [Prog.run rx].
  rewrite leb_true by (autorewrite with len; lia).
  cbn [gbind obind cl srv tl tx].
  change (take 3 (b1 :: b2 :: b3 :: r)) with [b1; b2; b3].
  change (drop 3 (b1 :: b2 :: b3 :: r)) with r.
  cbn [Prog.run ret gbind obind].
  change (unbe (x00 :: [b1; b2; b3])) with (unbe [x00; b1; b2; b3]).
  rewrite unbe4. change MAX_FRAME_LENGTH with NB_MAX.
  set (n := b2n b1 * 65536 + b2n b2 * 256 + b2n b3).
  destruct (NB_MAX <? n); [reflexivity|].
  rewrite run_mbind. cbn [Prog.run rx].
  destruct (N.leb_spec n (len r)).
  - cbn [Prog.run ret gbind obind cl srv tl tx]. rewrite run_lift.
    replace (unle [b0]) with (b2n b0); [reflexivity|]. cbn [unle]. lia.
  - cbn [tl]. destruct t; cbn [Prog.run fail gbind obind with_rx cl srv tl tx rx]; try reflexivity.
    destruct (N.ltb_spec (len (b0 :: b1 :: b2 :: b3 :: r)) 4) as [Hl|]; [|reflexivity].
    autorewrite with len in Hl. lia.
Qed.

(** what the incoming bytes hold for a receiver waiting for [id] *)
Inductive scan :=
| ScReply (i : info) (p rest : bytes)   (* payload of the matching reply *)
| ScSmbError (e : smb_error) (rest : bytes)
| ScNbError (e : nb_error) (rest : bytes)
| ScShort (lft : bytes).

Inductive scans (id : N) : bytes -> scan -> Prop :=
| sc_short b : next_frame b = NShort -> scans id b (ScShort b)
| sc_big b rest : next_frame b = NTooBig rest -> scans id b (ScNbError FrameTooBig rest)
| sc_bad b ty p rest e : next_frame b = NFrame ty p rest -> frame_new ty p = Err e ->
    scans id b (ScNbError e rest)
| sc_keep b ty p rest r : next_frame b = NFrame ty p rest -> frame_new ty p = Ok FKeepalive ->
    scans id rest r -> scans id b r
| sc_other b ty p rest f : next_frame b = NFrame ty p rest -> frame_new ty p = Ok f ->
    (forall m, f <> FMessage m) -> f <> FKeepalive -> scans id b (ScNbError UnexpectedFrame rest)
| sc_smb b ty p rest m e : next_frame b = NFrame ty p rest -> frame_new ty p = Ok (FMessage m) ->
    info_parse m = Err e -> scans id b (ScSmbError e rest)
| sc_reply b ty p rest m i body : next_frame b = NFrame ty p rest ->
    frame_new ty p = Ok (FMessage m) -> info_parse m = Ok (i, body) -> i_mid i = id ->
    scans id b (ScReply i m rest)
| sc_stale b ty p rest m i body r : next_frame b = NFrame ty p rest ->
    frame_new ty p = Ok (FMessage m) -> info_parse m = Ok (i, body) -> i_mid i <> id ->
    scans id rest r -> scans id b r.

Lemma frame_new_no_panic ty p : frame_new ty p <> Panic.
Proof.
  unfold frame_new. repeat match goal with |- (if ?x then _ else _) <> _ => destruct x end; try easy.
  destruct p as [|? [|? ?]]; easy.
Qed.
Lemma frame_new_message ty p m : frame_new ty p = Ok (FMessage m) -> ty = 0 /\ m = p.
Proof.
  unfold frame_new. repeat match goal with |- (if ?x then _ else _) = _ -> _ => destruct x eqn:? end; try easy.
  - intros [= <-]. split; [now apply N.eqb_eq|reflexivity].
  - destruct p as [|? [|? ?]]; easy.
Qed.
Lemma frame_new_keepalive ty p : frame_new ty p = Ok FKeepalive -> ty = 0x85 /\ p = [].
Proof.
  unfold frame_new. repeat match goal with |- (if ?x then _ else _) = _ -> _ => destruct x eqn:? end; try easy.
  - destruct p as [|? [|? ?]]; easy.
  - intros _. split; [now apply N.eqb_eq|]. apply len_0. destruct (N.eqb_spec (len p) 0); easy.
Qed.

Lemma next_frame_smaller b ty p rest : next_frame b = NFrame ty p rest -> (length rest < length b)%nat.
Proof. clear react.
  intros H. apply next_frame_inv in H. destruct H as [-> _]. rewrite app_length. cbn. lia.
Qed.

Lemma scans_total id b : exists r, scans id b r.
Proof. clear react.
  assert (G : forall n b, (length b <= n)%nat -> exists r, scans id b r).
  { clear b. induction n as [|n IH]; intros b Hb.
    - destruct b; [|cbn in Hb; lia]. exists (ScShort []). now apply sc_short.
    - destruct (next_frame b) as [ty p rest|rest|] eqn:Hf.
      + pose proof (next_frame_smaller Hf).
        destruct (frame_new ty p) as [f|e|] eqn:Hn.
        * destruct f as [m|m| | | |];
            try (eexists; eapply sc_other; [exact Hf|exact Hn|easy|easy]).
          -- destruct (info_parse m) as [[i body]|e|] eqn:Hi.
             ++ destruct (N.eq_dec (i_mid i) id).
                ** eexists. eapply sc_reply; eauto.
                ** destruct (IH rest) as [r Hr]; [lia|]. exists r. eapply sc_stale; eauto.
             ++ eexists. eapply sc_smb; eauto.
             ++ now apply info_parse_no_panic in Hi.
          -- destruct (IH rest) as [r Hr]; [lia|]. exists r. eapply sc_keep; eauto.
        * eexists. eapply sc_bad; eauto.
        * now apply frame_new_no_panic in Hn.
      + eexists. eapply sc_big; eauto.
      + eexists. eapply sc_short; eauto. }
  apply (G (length b)). lia.
Qed.


Definition scanned (w : world) (r : scan) : outcome cifs Sv (ans (info * bytes)) :=
  match r with
  | ScReply i p rest => Done (Good (i, drop 32 p)) (with_rx rest w)
  | ScSmbError e rest => Done (Bad (ESmb e)) (with_rx rest w)
  | ScNbError e rest => Done (Bad (ENetBios e)) (with_rx rest w)
  | ScShort lft => short_outcome (with_rx lft w)
  end.

Definition frame_cont (f g : nat) (id : N) (frame : bytes) : M (info * bytes) :=
  do! (i, body) := lift ESmb (info_parse frame) in
  if i_mid i =? id then ret (i, body) else recv_frame f g id.

Lemma run_recv_message g w : run (recv_message (S g)) w =
  match next_frame (rx w) with
  | NFrame ty p rest =>
    match frame_new ty p with
    | Ok (FMessage m) => Done (Good m) (with_rx rest w)
    | Ok FKeepalive => run (recv_message g) (with_rx rest w)
    | Ok _ => Done (Bad (ENetBios UnexpectedFrame)) (with_rx rest w)
    | Err e => Done (Bad (ENetBios e)) (with_rx rest w)
    | Panic => Crashed (with_rx rest w)
    end
  | NTooBig rest => Done (Bad (ENetBios FrameTooBig)) (with_rx rest w)
  | NShort => short_outcome w
  end.
Proof.
  cbn [recv_message]. rewrite run_mbind, run_nb_recv.
  destruct (next_frame (rx w)) as [ty p rest|rest|].
  - unfold lifted. destruct (frame_new ty p) as [[m|m| |c| |]|e|]; reflexivity.
  - reflexivity.
  - unfold short_outcome. destruct (tl w); reflexivity.
Qed.

Lemma run_frame_cont id r b : scans id b r -> forall w f g g',
  rx w = b -> (length b <= f)%nat -> (length b < g)%nat -> (length b < g')%nat ->
  run (mbind (recv_message g') (frame_cont f g id)) w = scanned w r.
Proof.
  induction 1 as [b Hb|b rest Hb|b ty p rest e Hb Hn|b ty p rest r Hb Hn Hr IH
    |b ty p rest fr Hb Hn Hm Hk|b ty p rest m e Hb Hn Hi|b ty p rest m i body Hb Hn Hi Hid
    |b ty p rest m i body r Hb Hn Hi Hid Hr IH];
    intros w f g g' Hw Hf Hg Hg'; destruct g' as [|g']; try lia;
    rewrite run_mbind, run_recv_message, Hw, Hb.
  - unfold scanned. rewrite <- Hw, with_rx_same. unfold short_outcome. destruct (tl w); reflexivity.
  - reflexivity.
  - rewrite Hn. reflexivity.
  - rewrite Hn. pose proof (next_frame_smaller Hb).
    rewrite <- run_mbind, IH by (cbn; try lia; reflexivity).
    destruct r; reflexivity.
  - rewrite Hn. destruct fr as [m|m| | | |]; try reflexivity; [now destruct (Hm m)|now destruct Hk].
  - rewrite Hn. cbn [gbind obind]. unfold frame_cont. rewrite run_mbind, run_lift, Hi. reflexivity.
  - rewrite Hn. cbn [gbind obind]. unfold frame_cont. rewrite run_mbind, run_lift, Hi.
    cbn [lifted gbind obind]. rewrite Hid, N.eqb_refl.
    apply info_parse_ok_fields in Hi. destruct Hi as (_ & -> & _). reflexivity.
  - rewrite Hn. cbn [gbind obind]. unfold frame_cont. rewrite run_mbind, run_lift, Hi.
    cbn [lifted gbind obind]. destruct (N.eqb_spec (i_mid i) id); [easy|].
    pose proof (next_frame_smaller Hb). destruct f as [|f]; [lia|].
    change (recv_frame (S f) g id) with (mbind (recv_message g) (frame_cont f g id)).
    rewrite IH by (cbn; try lia; reflexivity). destruct r; reflexivity.
Qed.

Lemma run_recv_frame id w r f g : scans id (rx w) r ->
  (length (rx w) < f)%nat -> (length (rx w) < g)%nat ->
  run (recv_frame f g id) w = scanned w r.
Proof.
  intros H Hf Hg. destruct f as [|f]; [lia|].
  change (recv_frame (S f) g id) with (mbind (recv_message g) (frame_cont f g id)).
  apply run_frame_cont with (b := rx w); auto; lia.
Qed.

(** ** fuel *)
Lemma ple_mbind {A B} (p q : M A) (f g : A -> M B) :
  ple p q -> (forall a, ple (f a) (g a)) -> ple (mbind p f) (mbind q g).
Proof. clear react.
  intros H Hf. apply ple_bind; [exact H|]. intros [a|e]; [apply Hf|apply ple_refl].
Qed.
Lemma ple_if {A} (b : bool) (p q p' q' : M A) : ple p p' -> ple q q' ->
  ple (if b then p else q) (if b then p' else q').
Proof. clear react. now destruct b. Qed.

Lemma recv_message_mono f f' : (f <= f')%nat -> ple (recv_message f) (recv_message f').
Proof. clear react.
  revert f'; induction f as [|f IH]; intros f' H; cbn [recv_message]; [constructor|].
  destruct f' as [|f']; [lia|]. cbn [recv_message].
  apply ple_mbind; [apply ple_refl|]. intros [m|m| | | |]; try apply ple_refl. apply IH. lia.
Qed.
Lemma recv_frame_mono f f' g g' id : (f <= f')%nat -> (g <= g')%nat ->
  ple (recv_frame f g id) (recv_frame f' g' id).
Proof. clear react.
  revert f'; induction f as [|f IH]; intros f' H Hg; cbn [recv_frame]; [constructor|].
  destruct f' as [|f']; [lia|]. cbn [recv_frame].
  apply ple_mbind; [now apply recv_message_mono|]. intros m.
  apply ple_mbind; [apply ple_refl|]. intros [i body]. apply ple_if; [apply ple_refl|]. apply IH; lia.
Qed.
Lemma recv_mono {R} (r : reply R) f f' id : (f <= f')%nat -> ple (recv f r id) (recv f' r id).
Proof. clear react.
  intros H. unfold recv. apply ple_mbind; [now apply recv_frame_mono|].
  intros [i body]. apply ple_refl.
Qed.

Definition starved {A} (o : outcome cifs Sv A) : Prop := exists w, o = Starved w.

(** any receive that is not cut off by the model's bound is described by [scans] *)
Lemma run_recv_frame_any id w f g :
  starved (run (recv_frame f g id) w)
  \/ exists r, scans id (rx w) r /\ run (recv_frame f g id) w = scanned w r.
Proof.
  destruct (run (recv_frame f g id) w) as [a w'|w'|w'|w'] eqn:E;
    try (left; now exists w'); right;
    (destruct (scans_total id (rx w)) as [r Hr]; exists r; split; [exact Hr|];
     rewrite <- E; symmetry;
     rewrite <- (@run_recv_frame id w r (f + S (length (rx w))) (g + S (length (rx w))) Hr ltac:(lia) ltac:(lia));
     apply ple_run; [apply recv_frame_mono; lia|intros w'' Hw; congruence]).
Qed.

(** ** a complete reply: status check and body *)
Definition replied {R} (r : reply R) (i : info) (p : bytes) (w : world) : outcome cifs Sv (ans R) :=
  if negb (cmd_eqb (i_cmd i) (r_cmd r)) then Done (Bad (UnexpectedReply (r_cmd r) (i_cmd i))) w
  else if negb (status_ok i) then Done (Bad (ServerError (i_status i))) w
  else lifted ESmb (reply_parse r i (drop 32 p)) w.

Definition received {R} (r : reply R) (w : world) (sc : scan) : outcome cifs Sv (ans R) :=
  match sc with
  | ScReply i p rest => replied r i p (with_rx rest w)
  | ScSmbError e rest => Done (Bad (ESmb e)) (with_rx rest w)
  | ScNbError e rest => Done (Bad (ENetBios e)) (with_rx rest w)
  | ScShort lft => short_outcome (with_rx lft w)
  end.

Lemma run_recv_scanned {R} (r : reply R) id w f sc :
  run (recv_frame f f id) w = scanned w sc -> run (recv f r id) w = received r w sc.
Proof.
  intros H. unfold recv. rewrite run_mbind, H.
  destruct sc as [i p rest|e rest|e rest|lft]; cbn [scanned gbind obind received]; try reflexivity.
  - unfold replied. destruct (negb (cmd_eqb (i_cmd i) (r_cmd r))); [reflexivity|].
    destruct (negb (status_ok i)); [reflexivity|]. apply run_lift.
  - unfold short_outcome. destruct (tl (with_rx lft w)); reflexivity.
Qed.
Lemma run_recv {R} (r : reply R) id w f sc : scans id (rx w) sc -> (length (rx w) < f)%nat ->
  run (recv f r id) w = received r w sc.
Proof. intros H Hf. apply run_recv_scanned. now apply run_recv_frame. Qed.

Lemma run_recv_any {R} (r : reply R) id w f :
  starved (run (recv f r id) w)
  \/ exists sc, scans id (rx w) sc /\ run (recv f r id) w = received r w sc.
Proof.
  destruct (@run_recv_frame_any id w f f) as [[w' H]|(sc & Hs & H)].
  - left. exists w'. unfold recv. now rewrite run_mbind, H.
  - right. exists sc. split; [exact Hs|]. now apply run_recv_scanned.
Qed.

(** ** sending *)
Section Env.
Variable E : env.

Definition out_info (c : cifs) (m : msg) : info :=
  m_fix m (mk_info (m_cmd m) (Known SUCCESS) Flags1_default
             (set_flag Flags2_default F2_UNICODE (use_unicode c)) 0xfeff 0xffff (uid c) (mid c)).
Definition smb_out (c : cifs) (m : msg) : res smb_error bytes :=
  let* body := msg_write m (out_info c m) 32 in Ok (info_write (out_info c m) ++ body).

Definition mid_panics (c : cifs) : bool := (2 ^ 16 <=? mid c + 1) && overflow_checks E.
Definition bump (c : cifs) : cifs := set_mid ((mid c + 1) mod 2 ^ 16) c.

(** the world after the peer reacted to the write of [b] *)
Definition wrote (b : bytes) (w : world) (k : bool) : world :=
  match react (srv w) b with
  | Accept s inc t =>
    mk_world (cl w) s (fst (deliver (tl w) (rx w) inc t)) (snd (deliver (tl w) (rx w) inc t)) (tx w ++ [b])
  | Refuse s n e inc t =>
    mk_world (cl w) s (fst (deliver (tl w) (rx w) inc t)) (snd (deliver (tl w) (rx w) inc t)) (tx w ++ [take n b])
  end.

Definition sent (c : cifs) (m : msg) (w : world) : outcome cifs Sv (ans N) :=
  if mid_panics c then Crashed w else
  let w1 := with_cl (bump c) w in
  match smb_out c m with
  | Err e => Done (Bad (ESmb e)) w1
  | Panic => Crashed w1
  | Ok b =>
    if NB_MAX <? len b then Done (Bad (ENetBios InvalidFrame)) w1 else
    match react (srv w) (session_message b) with
    | Accept s inc t =>
      Done (Good (mid c)) (mk_world (bump c) s (fst (deliver (tl w) (rx w) inc t))
         (snd (deliver (tl w) (rx w) inc t)) (tx w ++ [session_message b]))
    | Refuse s n e inc t =>
      Done (Bad (ENetBios (IoError (IoOther e))))
        (mk_world (bump c) s (fst (deliver (tl w) (rx w) inc t))
         (snd (deliver (tl w) (rx w) inc t)) (tx w ++ [take n (session_message b)]))
    end
  end.

Lemma frame_encode_message b : frame_encode (FMessage b) =
  if NB_MAX <? len b then Err InvalidFrame else Ok (session_message b).
Proof. clear react.
  unfold frame_encode. change MAX_FRAME_LENGTH with NB_MAX.
  destruct (N.ltb_spec NB_MAX (len b)) as [|H]; [reflexivity|].
  unfold NB_MAX in H. rewrite try_into_small by (cbn; lia). cbn [rbind].
  unfold session_message. rewrite nb_frame_le by lia. reflexivity.
Qed.

Lemma run_send m w : run (send E m) w = sent (cl w) m w.
Proof.
  unfold send, sent. rewrite run_mbind, run_get. cbn [gbind obind].
  fold (mid_panics (cl w)). destruct (mid_panics (cl w)); [reflexivity|].
  rewrite run_mbind, run_put. cbn [gbind obind info_default i_cmd i_status i_flags1 i_flags2 i_pid i_tid].
  fold (out_info (cl w) m). fold (bump (cl w)).
  rewrite len_info_write. rewrite run_mbind, run_lift. unfold smb_out.
  destruct (msg_write m (out_info (cl w) m) 32) as [body|e|]; cbn [lifted gbind obind rbind]; try reflexivity.
  rewrite run_mbind. unfold send_message, nb_send. rewrite run_mbind, run_lift, frame_encode_message.
  destruct (NB_MAX <? len (info_write (out_info (cl w) m) ++ body)); [reflexivity|].
  cbn [lifted gbind obind write_exactly Prog.run with_cl srv rx tl tx cl].
  destruct (react (srv w) (session_message (info_write (out_info (cl w) m) ++ body))) as [s inc t|s n e inc t];
    destruct (deliver (tl w) (rx w) inc t); reflexivity.
Qed.


End Env.
End Facts.
