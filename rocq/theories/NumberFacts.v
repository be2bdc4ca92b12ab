(** * NumberFacts: the numbers in messages can be read back (C68) *)
From Coq Require Import String Ascii Decimal Hexadecimal DecimalN HexadecimalN.
From Verif Require Import Base Text Win Errors Display BaseFacts InfoFacts DisplayFacts SpecNumber.
Open Scope N_scope.
Set Implicit Arguments.
Unset Strict Implicit.

Lemma numeral_step base t n c v r m : numeral base t n -> digit base c v ->
  (numeral base (t ++ [c]) (n * base + v) -> numeral base ((t ++ [c]) ++ r) m) -> numeral base (t ++ c :: r) m.
Proof. intros H1 H2 H3. replace (t ++ c :: r) with ((t ++ [c]) ++ r) by (rewrite <- app_assoc; reflexivity). apply H3. now apply num_more. Qed.
Ltac digits := split; [lia|first [left; lia|right; lia]].
Lemma dec_acc d : forall t p, numeral 10 t (N.pos p) -> numeral 10 (t ++ decimal d) (N.pos (Pos.of_uint_acc d p)).
Proof.
  induction d; intros t p H; cbn [decimal Pos.of_uint_acc]; [rewrite app_nil_r; exact H|..];
    match goal with |- numeral _ (t ++ ?c :: _) _ => apply (@numeral_step 10 t (N.pos p) c (c - 48)); [exact H|digits|] end; intros K; apply IHd;
    match type of K with numeral _ _ ?x => match goal with |- numeral _ _ ?y => replace y with x by lia end end; exact K.
Qed.
Lemma dec_zero d : forall t, numeral 10 t 0 -> numeral 10 (t ++ decimal d) (N.of_uint d).
Proof.
  unfold N.of_uint. induction d; intros t H; cbn [decimal Pos.of_uint]; [rewrite app_nil_r; exact H|..];
    match goal with |- numeral _ (t ++ ?c :: _) _ => apply (@numeral_step 10 t 0 c (c - 48)); [exact H|digits|] end; intros K; cbn in K;
    first [apply IHd; exact K|apply dec_acc; exact K].
Qed.
Lemma dec_numeral d : d <> Decimal.Nil -> numeral 10 (decimal d) (N.of_uint d).
Proof.
  intros Hd. destruct d; [contradiction|..]; unfold N.of_uint; cbn [decimal Pos.of_uint];
    match goal with |- numeral _ (?c :: ?r) _ => change (c :: r) with ([c] ++ r); pose proof (@num_one 10 c (c - 48)) as K; cbn in K;
      assert (K' := K ltac:(digits)) end; first [apply (@dec_zero d); exact K'|apply dec_acc; exact K'].
Qed.
Lemma show_numeral n : numeral 10 (show n) n.
Proof.
  unfold show. rewrite <- (DecimalN.Unsigned.of_to n) at 2. apply dec_numeral. destruct n as [|p]; [discriminate|].
  cbn [N.to_uint]. apply DecimalPos.Unsigned.to_uint_nonnil.
Qed.
Lemma hex_acc d : forall t p, numeral 16 t (N.pos p) -> numeral 16 (t ++ hexadecimal d) (N.pos (Pos.of_hex_uint_acc d p)).
Proof.
  induction d; intros t p H; cbn [hexadecimal Pos.of_hex_uint_acc]; [rewrite app_nil_r; exact H|..];
    match goal with |- numeral _ (t ++ ?c :: _) _ => first
      [apply (@numeral_step 16 t (N.pos p) c (c - 48)); [exact H|digits|]|apply (@numeral_step 16 t (N.pos p) c (c - 87)); [exact H|digits|]] end; intros K; apply IHd;
    match type of K with numeral _ _ ?x => match goal with |- numeral _ _ ?y => replace y with x by lia end end; exact K.
Qed.
Lemma hex_zero d : forall t, numeral 16 t 0 -> numeral 16 (t ++ hexadecimal d) (N.of_hex_uint d).
Proof.
  unfold N.of_hex_uint. induction d; intros t H; cbn [hexadecimal Pos.of_hex_uint]; [rewrite app_nil_r; exact H|..];
    match goal with |- numeral _ (t ++ ?c :: _) _ => first
      [apply (@numeral_step 16 t 0 c (c - 48)); [exact H|digits|]|apply (@numeral_step 16 t 0 c (c - 87)); [exact H|digits|]] end; intros K; cbn in K;
    first [apply IHd; exact K|apply hex_acc; exact K].
Qed.
Lemma hex_numeral d : d <> Nil -> numeral 16 (hexadecimal d) (N.of_hex_uint d).
Proof.
  intros Hd. destruct d; [contradiction|..]; unfold N.of_hex_uint; cbn [hexadecimal Pos.of_hex_uint];
    match goal with |- numeral _ (?c :: ?r) _ => change (c :: r) with ([c] ++ r);
      let K := fresh in first [pose proof (@num_one 16 c (c - 48) ltac:(digits)) as K|pose proof (@num_one 16 c (c - 87) ltac:(digits)) as K]; cbn in K;
      first [apply (@hex_zero d); exact K|apply hex_acc; exact K] end.
Qed.
Lemma show_hex2_numeral n : numeral 16 (show_hex2 n) n /\ 2 <= len (show_hex2 n).
Proof.
  unfold show_hex2. assert (Hn : N.to_hex_uint n <> Nil).
  { destruct n as [|p]; [discriminate|]. cbn [N.to_hex_uint]. apply HexadecimalPos.Unsigned.to_uint_nonnil. }
  split.
  - cbv zeta. pose proof (padded (N.to_hex_uint n)) as Hp. rewrite HexadecimalN.Unsigned.of_to in Hp.
    set (d := match Hexadecimal.nb_digits (N.to_hex_uint n) with 1%nat => D0 (N.to_hex_uint n) | _ => N.to_hex_uint n end) in *.
    assert (K : numeral 16 (hexadecimal d) (N.of_hex_uint d)); [|rewrite Hp in K; exact K]. apply hex_numeral.
    unfold d. destruct (Hexadecimal.nb_digits _) as [|[|k]]; [exact Hn|discriminate|exact Hn].
  - assert (L : forall d, len (hexadecimal d) = N.of_nat (Hexadecimal.nb_digits d)).
    { unfold len. induction d; cbn [hexadecimal Hexadecimal.nb_digits List.length]; try reflexivity; lia. }
    rewrite L. destruct (Hexadecimal.nb_digits (N.to_hex_uint n)) as [|[|k]] eqn:Hk; cbn [Hexadecimal.nb_digits]; try lia.
    destruct (N.to_hex_uint n); try discriminate Hk. contradiction.
Qed.
Lemma message_numbers io_text :
  (exists a b, forall st, (exists x, status_of_code st = Known x)
     \/ exists t, display io_text (ServerError (status_of_code st)) = a ++ t ++ b /\ numeral 16 t st /\ 2 <= len t)
  /\ (exists a, forall n, exists t, display io_text (ENetBios (CreateSession n)) = a ++ t /\ numeral 16 t n /\ 2 <= len t)
  /\ (exists a, forall n, exists t, display io_text (ENetBios (InvalidFrameType n)) = a ++ t /\ numeral 16 t n /\ 2 <= len t)
  /\ (exists a, forall n, exists t, display io_text (ESmb (InvalidCommand n)) = a ++ t /\ numeral 16 t n /\ 2 <= len t)
  /\ (exists a b, forall n, exists t, display io_text (ESmb (Reassemble (FragmentTwice n))) = a ++ t ++ b /\ numeral 10 t n)
  /\ forall two, In two [TotalChanged; LengthMismatch; OffsetMismatch] ->
     exists a b, forall n m, exists t u, display io_text (ESmb (Reassemble (two n m))) = a ++ t ++ b ++ u /\ numeral 10 t n /\ numeral 10 u m.
Proof.
  split; [|split; [|split; [|split; [|split]]]].
  - exists (lit "server error: " ++ lit "Unknown (")%list, (lit ")"). intros st. pose proof (status_code_of st) as Hs.
    destruct (status_of_code st) as [x|x]; [left; eauto|right]. cbn [status_code] in Hs. subst x.
    exists (show_hex2 st). split; [reflexivity|apply show_hex2_numeral].
  - exists (lit "NetBios error: " ++ lit "can't create NBT session: error code 0x")%list. intros n. exists (show_hex2 n). split; [reflexivity|apply show_hex2_numeral].
  - exists (lit "NetBios error: " ++ lit "invalid NetBIOS message type: 0x")%list. intros n. exists (show_hex2 n). split; [reflexivity|apply show_hex2_numeral].
  - exists (lit "protocol error: " ++ lit "invalid command: ")%list. intros n. exists (show_hex2 n). split; [reflexivity|apply show_hex2_numeral].
  - eexists (lit "protocol error: " ++ lit "error reassembling transact2 reply: " ++ lit "got fragment at offset ")%list, _. intros n. exists (show n).
    split; [reflexivity|apply show_numeral].
  - intros two [<-|[<-|[<-|[]]]].
    + eexists (lit "protocol error: " ++ lit "error reassembling transact2 reply: " ++ lit "server changed it's mind about total packet size: ")%list, _.
      intros n m. exists (show n), (show m). split; [reflexivity|split; apply show_numeral].
    + eexists (lit "protocol error: " ++ lit "error reassembling transact2 reply: " ++ lit "length does not match, want ")%list, _.
      intros n m. exists (show n), (show m). split; [reflexivity|split; apply show_numeral].
    + eexists (lit "protocol error: " ++ lit "error reassembling transact2 reply: " ++ lit "offset mismatch, got: ")%list, _.
      intros n m. exists (show n), (show m). split; [reflexivity|split; apply show_numeral].
Qed.
