(** * TextFacts: UTF-8, UTF-16, strings. *)
From Verif Require Import Base BaseFacts Text Spec SpecFacts.
Set Implicit Arguments.
Unset Strict Implicit.
Open Scope N_scope.

Lemma scalar_char c : scalar c = true <-> char c.
Proof. unfold scalar, char. lia. Qed.
Lemma is_text_str s : is_text s = true <-> str s.
Proof.
  unfold is_text, str. rewrite forallb_forall, Forall_forall.
  split; intros H x Hx; apply scalar_char; auto.
Qed.
Lemma is_text_app a b : is_text (a ++ b) = is_text a && is_text b.
Proof. apply forallb_app. Qed.

(** ** UTF-16 *)
Lemma utf16_cons c s : utf16 (c :: s) = utf16_char c ++ utf16 s.
Proof. reflexivity. Qed.

Lemma pair_split c : 0x10000 <= c < 0x110000 ->
  0xD800 <= 0xD800 + (c - 0x10000) / 1024 < 0xDC00
  /\ 0xDC00 <= 0xDC00 + (c - 0x10000) mod 1024 < 0xE000
  /\ pair_value (0xD800 + (c - 0x10000) / 1024) (0xDC00 + (c - 0x10000) mod 1024) = c.
Proof. intros H. unfold pair_value. lia. Qed.

Lemma utf16_of_utf16 s : str s -> utf16_of s (utf16 s).
Proof.
  induction 1 as [|c s Hc Hs IH]; [constructor|].
  rewrite utf16_cons. unfold utf16_char. destruct (N.ltb_spec c 0x10000).
  - cbn [app]. apply utf16_bmp; [unfold char in Hc; lia|exact IH].
  - cbn [app]. destruct (@pair_split c) as (H1 & H2 & H3); [unfold char in Hc; lia|].
    apply utf16_pair; easy.
Qed.
Lemma utf16_of_inv s u : utf16_of s u -> str s /\ u = utf16 s.
Proof.
  induction 1 as [|c s u Hc Hs IH|c h l s u Hh Hl Hc Hs IH].
  - split; [constructor|reflexivity].
  - destruct IH as [IH1 ->]. split; [constructor; [unfold char; lia|easy]|].
    rewrite utf16_cons. unfold utf16_char. destruct (N.ltb_spec c 0x10000); [reflexivity|lia].
  - destruct IH as [IH1 ->]. split; [constructor; [unfold char; lia|easy]|].
    rewrite utf16_cons. unfold utf16_char. destruct (N.ltb_spec c 0x10000); [lia|].
    cbn [app]. f_equal; [lia|]. f_equal. lia.
Qed.

Lemma utf16_unit_range s : str s -> Forall (fun x => x < 65536) (utf16 s).
Proof.
  induction 1 as [|c s Hc Hs IH]; [constructor|].
  rewrite utf16_cons. unfold utf16_char. destruct (N.ltb_spec c 0x10000); cbn [app].
  - constructor; [lia|exact IH].
  - unfold char in Hc. constructor; [lia|]. constructor; [lia|exact IH].
Qed.

Lemma decode_utf16_sound u : forall s, decode_utf16 u = Some s -> Forall (fun x => x < 65536) u -> utf16_of s u.
Proof.
  assert (G : forall n u s, (length u <= n)%nat -> decode_utf16 u = Some s -> Forall (fun x => x < 65536) u -> utf16_of s u).
  { clear u. induction n as [|n IH]; intros u s Hl H Hu.
    - destruct u; [|cbn in Hl; lia]. injection H as <-. constructor.
    - destruct u as [|x t]; [injection H as <-; constructor|].
      inversion_clear Hu. cbn [decode_utf16 length] in *.
      destruct (is_high x) eqn:Hx.
      + destruct t as [|y t]; [easy|]. destruct (is_low y) eqn:Hy; [|easy].
        destruct (decode_utf16 t) as [r|] eqn:Hr; [|easy]. injection H as <-.
        inversion_clear H1. unfold is_high, is_low in *.
        apply utf16_pair; [lia|lia|reflexivity|]. apply IH; auto. cbn in Hl. lia.
      + destruct (is_low x) eqn:Hlo; [easy|].
        destruct (decode_utf16 t) as [r|] eqn:Hr; [|easy]. injection H as <-.
        unfold is_high, is_low in *. apply utf16_bmp; [lia|]. apply IH; auto. lia. }
  intros s. now apply (G (length u)).
Qed.
Lemma decode_utf16_complete s u : utf16_of s u -> decode_utf16 u = Some s.
Proof.
  induction 1 as [|c s u Hc Hs IH|c h l s u Hh Hl Hc Hs IH]; cbn [decode_utf16]; [reflexivity| |].
  - unfold is_high, is_low.
    destruct ((0xD800 <=? c) && (c <? 0xDC00)) eqn:E1; [lia|].
    destruct ((0xDC00 <=? c) && (c <? 0xE000)) eqn:E2; [lia|]. now rewrite IH.
  - unfold is_high, is_low.
    destruct ((0xD800 <=? h) && (h <? 0xDC00)) eqn:E1; [|lia].
    destruct ((0xDC00 <=? l) && (l <? 0xE000)) eqn:E2; [|lia]. rewrite IH. cbn. now rewrite Hc.
Qed.

(** ** UTF-16LE bytes *)
Lemma flat_map_le2 u : flat_map (le 2) u = units_le u.
Proof. induction u as [|x u IH]; [reflexivity|]. cbn [flat_map units_le]. rewrite IH. reflexivity. Qed.
Lemma encode_utf16le_units s : encode_utf16le s = units_le (utf16 s).
Proof. unfold encode_utf16le. apply flat_map_le2. Qed.
Lemma len_units_le u : len (units_le u) = 2 * len u.
Proof. induction u as [|x u IH]; [reflexivity|]. cbn [units_le]. rewrite !len_cons, IH. lia. Qed.
#[global] Hint Rewrite len_units_le : len.

(** every byte string is code units plus at most one byte *)
Lemma units_of_bytes : forall b : bytes, exists u o, b = units_le u ++ o
  /\ (o = [] \/ exists x, o = [x]) /\ Forall (fun x => x < 65536) u.
Proof.
  assert (G : forall n (b : bytes), (length b <= n)%nat -> exists u o, b = units_le u ++ o
    /\ (o = [] \/ exists x, o = [x]) /\ Forall (fun x => x < 65536) u).
  { induction n as [|n IH]; intros b Hb.
    - destruct b; [|cbn in Hb; lia]. exists [], []. cbn; auto.
    - destruct b as [|x [|y t]].
      + exists [], []. cbn; auto.
      + exists [], [x]. cbn; eauto.
      + destruct (IH t) as (u & o & -> & Ho & Hu); [cbn in Hb; lia|].
        exists (b2n x + 256 * b2n y :: u), o. pose proof (b2n_lt x). pose proof (b2n_lt y).
        split; [|split; [exact Ho|constructor; [lia|exact Hu]]].
        cbn [units_le app]. f_equal; [|f_equal]; apply b2n_inj; rewrite b2n_n2b; lia. }
  intros b. now apply (G (length b)).
Qed.
Lemma units_le_inj a b : Forall (fun x => x < 65536) a -> Forall (fun x => x < 65536) b ->
  units_le a = units_le b -> a = b.
Proof.
  revert b; induction a as [|x a IH]; intros [|y b] Ha Hb; cbn [units_le]; try easy.
  inversion_clear Ha. inversion_clear Hb. intros [= H3 H4 H5].
  f_equal; [|now apply IH].
  apply (f_equal b2n) in H3, H4. rewrite !b2n_n2b in H3, H4. lia.
Qed.

Lemma u16_of_unit x : x < 65536 -> u16_of (n2b x) (n2b (x / 256)) = x.
Proof. intros. unfold u16_of. rewrite !b2n_n2b. lia. Qed.

Lemma decode_utf16le_units u : Forall (fun x => x < 65536) u ->
  decode_utf16le (units_le u) =
  match decode_utf16 u with Some s => Ok s | None => Err DecodeUtf16Error end.
Proof.
  assert (G : forall n u, (length u <= n)%nat -> Forall (fun x => x < 65536) u ->
    decode_utf16le (units_le u) = match decode_utf16 u with Some s => Ok s | None => Err DecodeUtf16Error end).
  { clear u. induction n as [|n IH]; intros u Hl Hu.
    - destruct u; [reflexivity|cbn in Hl; lia].
    - destruct u as [|x t]; [reflexivity|]. inversion_clear Hu. cbn [units_le decode_utf16le decode_utf16 length] in *.
      rewrite u16_of_unit by easy. destruct (is_high x).
      + destruct t as [|y t]; [reflexivity|]. inversion_clear H0. cbn [units_le].
        rewrite u16_of_unit by easy. destruct (is_low y); [|reflexivity].
        rewrite IH; [|cbn in Hl; lia|easy]. destruct (decode_utf16 t); reflexivity.
      + destruct (is_low x); [reflexivity|]. rewrite IH; [|lia|easy]. destruct (decode_utf16 t); reflexivity. }
  now apply (G (length u)).
Qed.

(** what precedes the odd byte: valid text, possibly followed by one high surrogate *)
Definition waiting (u : list N) : Prop :=
  exists s h, utf16_of s (firstn (length u - length h) u) /\ u = firstn (length u - length h) u ++ h
  /\ (h = [] \/ exists x, h = [x] /\ 0xD800 <= x < 0xDC00).
Lemma waiting_alt u : waiting u <-> exists s v h, utf16_of s v /\ u = v ++ h
  /\ (h = [] \/ exists x, h = [x] /\ 0xD800 <= x < 0xDC00).
Proof.
  split.
  - intros (s & h & H1 & H2 & H3). eauto 8.
  - intros (s & v & h & H1 & -> & H3). exists s, h.
    rewrite app_length, Nat.add_sub, firstn_app, Nat.sub_diag, firstn_O, app_nil_r, firstn_all. auto.
Qed.

Lemma decode_utf16le_odd_cases u x : Forall (fun x => x < 65536) u ->
  (waiting u /\ decode_utf16le (units_le u ++ [x]) = Panic)
  \/ (~ waiting u /\ decode_utf16le (units_le u ++ [x]) = Err DecodeUtf16Error).
Proof.
  assert (G : forall n u, (length u <= n)%nat -> Forall (fun x => x < 65536) u ->
    (waiting u /\ decode_utf16le (units_le u ++ [x]) = Panic)
    \/ (~ waiting u /\ decode_utf16le (units_le u ++ [x]) = Err DecodeUtf16Error)).
  { clear u. induction n as [|n IH]; intros u Hl Hu.
    - destruct u; [|cbn in Hl; lia]. left. split; [|reflexivity].
      apply waiting_alt. exists [], [], []. repeat split; auto. constructor.
    - destruct u as [|a t].
      { left. split; [|reflexivity]. apply waiting_alt. exists [], [], []. repeat split; auto. constructor. }
      inversion_clear Hu. cbn [units_le app decode_utf16le length] in *.
      rewrite u16_of_unit by easy. destruct (is_high a) eqn:Ha.
      + destruct t as [|b t].
        { left. cbn [units_le app]. split; [|reflexivity]. apply waiting_alt. exists [], [], [a].
          repeat split; [constructor|]. right. exists a. unfold is_high in Ha. split; [easy|lia]. }
        inversion_clear H0. cbn [units_le app]. rewrite u16_of_unit by easy.
        destruct (is_low b) eqn:Hb.
        * destruct (IH t) as [[H3 H4]|[H3 H4]]; [cbn in Hl; lia|easy| |].
          -- left. rewrite H4. split; [|reflexivity]. apply waiting_alt in H3.
             destruct H3 as (s & v & h & K1 & -> & K3). apply waiting_alt.
             exists (pair_value a b :: s), (a :: b :: v), h. unfold is_high, is_low in *.
             split; [apply utf16_pair; try lia; [reflexivity|exact K1]|]. auto.
          -- right. rewrite H4. split; [|reflexivity]. intros Hw. apply H3.
             apply waiting_alt in Hw. destruct Hw as (s & v & h & K1 & K2 & K3). apply waiting_alt.
             unfold is_high, is_low in *.
             inversion K1; subst; cbn [app] in *.
             ++ destruct K3 as [->|(y & -> & ?)]; [easy|]. discriminate K2.
             ++ injection K2 as -> Kt. lia.
             ++ injection K2 as -> -> ->. eauto 8.
        * right. split; [|reflexivity]. intros Hw. apply waiting_alt in Hw.
          destruct Hw as (s & v & h & K1 & K2 & K3). unfold is_high, is_low in *.
          inversion K1; subst; cbn [app] in *.
          -- destruct K3 as [->|(y & -> & ?)]; easy.
          -- injection K2 as -> Kt. lia.
          -- injection K2 as -> -> ->. lia.
      + destruct (is_low a) eqn:Hb.
        * right. split; [|reflexivity]. intros Hw. apply waiting_alt in Hw.
          destruct Hw as (s & v & h & K1 & K2 & K3). unfold is_high, is_low in *.
          inversion K1; subst; cbn [app] in *.
          -- destruct K3 as [->|(y & -> & ?)]; [easy|]. injection K2 as <- ->. lia.
          -- injection K2 as -> Kt. lia.
          -- injection K2 as -> Kt. lia.
        * destruct (IH t) as [[H3 H4]|[H3 H4]]; [lia|easy| |].
          -- left. rewrite H4. split; [|reflexivity]. apply waiting_alt in H3.
             destruct H3 as (s & v & h & K1 & -> & K3). apply waiting_alt.
             exists (a :: s), (a :: v), h. unfold is_high, is_low in *.
             split; [apply utf16_bmp; [lia|exact K1]|]. auto.
          -- right. rewrite H4. split; [|reflexivity]. intros Hw. apply H3.
             apply waiting_alt in Hw. destruct Hw as (s & v & h & K1 & K2 & K3). apply waiting_alt.
             unfold is_high, is_low in *.
             inversion K1; subst; cbn [app] in *.
             ++ destruct K3 as [->|(y & -> & ?)]; [easy|]. injection K2 as <- ->. lia.
             ++ injection K2 as -> ->. eauto 8.
             ++ injection K2 as -> Kt. lia. }
  intros Hu. now apply (G (length u)).
Qed.
Lemma decode_utf16le_odd u x : Forall (fun x => x < 65536) u ->
  (waiting u -> decode_utf16le (units_le u ++ [x]) = Panic)
  /\ (~ waiting u -> decode_utf16le (units_le u ++ [x]) = Err DecodeUtf16Error).
Proof. intros Hu. destruct (decode_utf16le_odd_cases x Hu) as [[H1 H2]|[H1 H2]]; split; tauto. Qed.

Lemma decode_encode_utf16le s : str s -> decode_utf16le (encode_utf16le s) = Ok s.
Proof.
  intros H. rewrite encode_utf16le_units, decode_utf16le_units by now apply utf16_unit_range.
  now rewrite (decode_utf16_complete (utf16_of_utf16 H)).
Qed.

(** exactly the UTF-16LE encodings are decoded *)
Lemma decode_utf16le_ok b s : decode_utf16le b = Ok s <-> utf16le_of s b.
Proof.
  destruct (units_of_bytes b) as (u & o & -> & [->|[x ->]] & Hu).
  - rewrite app_nil_r, decode_utf16le_units by exact Hu. split.
    + destruct (decode_utf16 u) as [s'|] eqn:E; [|easy]. intros [= ->].
      exists u. split; [now apply decode_utf16_sound|reflexivity].
    + intros (v & Hv & He). pose proof (utf16_of_inv Hv) as [Hs ->].
      apply units_le_inj in He; [|easy|now apply utf16_unit_range]. subst u.
      now rewrite (decode_utf16_complete Hv).
  - destruct (decode_utf16le_odd x Hu) as [H1 H2]. split.
    + intros H. exfalso.
      assert (~ waiting u) as Hn by (intros Hw; rewrite H1 in H; easy). rewrite H2 in H; easy.
    + intros (v & Hv & He). exfalso.
      apply (f_equal len) in He. rewrite len_app, !len_units_le in He. cbn in He. lia.
Qed.
Lemma decode_utf16le_panic0 b : decode_utf16le b = Panic <->
  exists u x, b = units_le u ++ [x] /\ Forall (fun x => x < 65536) u /\ waiting u.
Proof.
  destruct (units_of_bytes b) as (u & o & -> & [->|[x ->]] & Hu).
  - rewrite app_nil_r. rewrite decode_utf16le_units by exact Hu. split.
    + now destruct (decode_utf16 u).
    + intros (v & x & He & _). apply (f_equal len) in He.
      rewrite len_app, !len_units_le in He. cbn in He. lia.
  - destruct (decode_utf16le_odd x Hu) as [H1 H2]. split.
    + intros H. exists u, x. repeat split; try easy.
      destruct (decode_utf16le_odd_cases x Hu) as [[H3 H4]|[H3 H4]]; [exact H3|congruence].
    + intros (v & y & He & Hv & Hw). apply app_inj_tail in He. destruct He as [He ->].
      apply units_le_inj in He; try easy. subst. now apply H1.
Qed.

Lemma decode_utf16le_panic b : decode_utf16le b = Panic <-> cut_utf16 b.
Proof.
  rewrite decode_utf16le_panic0. unfold cut_utf16. split.
  - intros (u & x & -> & Hu & Hw). apply waiting_alt in Hw. destruct Hw as (s & v & h & H1 & -> & H3).
    eauto 8.
  - intros (s & u & h & x & H1 & H2 & ->). exists (u ++ h), x. split; [reflexivity|]. split.
    + apply Forall_app. pose proof (utf16_of_inv H1) as [Hs ->]. split; [now apply utf16_unit_range|].
      destruct H2 as [->|(y & -> & Hy)]; constructor; [lia|constructor].
    + apply waiting_alt. eauto 8.
Qed.

Lemma len_encode_utf16le s : len (encode_utf16le s) = 2 * len (utf16 s).
Proof. rewrite encode_utf16le_units. apply len_units_le. Qed.
Lemma len_encode_utf16le_0 s : len (encode_utf16le_0 s) = 2 * len (utf16 s) + 2.
Proof. unfold encode_utf16le_0. rewrite len_app, len_encode_utf16le. reflexivity. Qed.
#[global] Hint Rewrite len_encode_utf16le len_encode_utf16le_0 : len.
Lemma utf16le_encode s : str s -> utf16le_of s (encode_utf16le s).
Proof. intros H. exists (utf16 s). split; [now apply utf16_of_utf16|apply encode_utf16le_units]. Qed.
Lemma utf16le_of_encode s b : utf16le_of s b -> b = encode_utf16le s /\ str s.
Proof.
  intros (u & H & ->). apply utf16_of_inv in H. destruct H as [H ->].
  split; [now rewrite encode_utf16le_units|exact H].
Qed.

(** ** UTF-8 *)
Lemma utf8_of_utf8 s : str s -> utf8_of s (utf8 s).
Proof.
  induction 1 as [|c s Hc Hs IH]; [constructor|].
  unfold utf8 in *. cbn [flat_map]. unfold utf8_char.
  destruct (N.ltb_spec c 0x80); [now apply utf8_1|].
  destruct (N.ltb_spec c 0x800); [now apply utf8_2|].
  destruct (N.ltb_spec c 0x10000); [now apply utf8_3|].
  apply utf8_4; [unfold char in Hc; lia|easy].
Qed.
Lemma utf8_of_inv s b : utf8_of s b -> str s /\ b = utf8 s.
Proof.
  unfold utf8. induction 1 as [|c s b Hc Hs IH|c s b Hc Hs IH|c s b Hc Hk Hs IH|c s b Hc Hs IH];
    [split; [constructor|reflexivity]| | | |]; destruct IH as [IH1 ->];
    (split; [constructor; [unfold char in *; lia|easy]|]); cbn [flat_map]; unfold utf8_char.
  - destruct (N.ltb_spec c 0x80); [reflexivity|lia].
  - destruct (N.ltb_spec c 0x80); [lia|]. destruct (N.ltb_spec c 0x800); [reflexivity|lia].
  - destruct (N.ltb_spec c 0x80); [lia|]. destruct (N.ltb_spec c 0x800); [lia|].
    destruct (N.ltb_spec c 0x10000); [reflexivity|lia].
  - destruct (N.ltb_spec c 0x80); [lia|]. destruct (N.ltb_spec c 0x800); [lia|].
    destruct (N.ltb_spec c 0x10000); [lia|reflexivity].
Qed.

Lemma is_cont_n2b v : is_cont (n2b (0x80 + v mod 64)) = true.
Proof. unfold is_cont. rewrite b2n_n2b. lia. Qed.
Lemma cont_n2b v : cont (n2b (0x80 + v mod 64)) = v mod 64.
Proof. unfold cont. rewrite b2n_n2b. lia. Qed.

Lemma utf8_decode_complete s b : utf8_of s b -> utf8_decode b = Some s.
Proof.
  induction 1 as [|c s b Hc Hs IH|c s b Hc Hs IH|c s b Hc Hk Hs IH|c s b Hc Hs IH]; [reflexivity| | | |];
    cbn [utf8_decode]; rewrite ?is_cont_n2b, ?cont_n2b, IH, b2n_n2b; cbn [andb].
  - rewrite N.mod_small by lia. destruct (N.ltb_spec c 0x80); [reflexivity|lia].
  - replace ((0xC0 + c / 64) mod 256) with (0xC0 + c / 64) by lia.
    destruct (N.ltb_spec (0xC0 + c / 64) 0x80); [lia|].
    destruct ((0xC2 <=? 0xC0 + c / 64) && (0xC0 + c / 64 <? 0xE0)) eqn:E; [|lia].
    cbn. do 2 f_equal. lia.
  - replace ((0xE0 + c / 4096) mod 256) with (0xE0 + c / 4096) by lia.
    destruct (N.ltb_spec (0xE0 + c / 4096) 0x80); [lia|].
    destruct ((0xC2 <=? 0xE0 + c / 4096) && (0xE0 + c / 4096 <? 0xE0)) eqn:E; [lia|].
    destruct ((0xE0 <=? 0xE0 + c / 4096) && (0xE0 + c / 4096 <? 0xF0)) eqn:E'; [|lia].
    replace ((0xE0 + c / 4096 - 0xE0) * 4096 + c / 64 mod 64 * 64 + c mod 64) with c by lia.
    rewrite (proj2 (scalar_char c) Hk). destruct (N.leb_spec 0x800 c); [reflexivity|lia].
  - replace ((0xF0 + c / 262144) mod 256) with (0xF0 + c / 262144) by lia.
    destruct (N.ltb_spec (0xF0 + c / 262144) 0x80); [lia|].
    destruct ((0xC2 <=? 0xF0 + c / 262144) && (0xF0 + c / 262144 <? 0xE0)) eqn:E; [lia|].
    destruct ((0xE0 <=? 0xF0 + c / 262144) && (0xF0 + c / 262144 <? 0xF0)) eqn:E'; [lia|].
    destruct ((0xF0 <=? 0xF0 + c / 262144) && (0xF0 + c / 262144 <? 0xF8)) eqn:E''; [|lia].
    replace ((0xF0 + c / 262144 - 0xF0) * 262144 + c / 4096 mod 64 * 4096 + c / 64 mod 64 * 64 + c mod 64)
      with c by lia.
    rewrite (proj2 (scalar_char c)) by (unfold char; lia).
    destruct (N.leb_spec 0x10000 c); [reflexivity|lia].
Qed.

Lemma utf8_decode_sound b : forall s, utf8_decode b = Some s -> utf8_of s b.
Proof.
  assert (G : forall n b s, (length b <= n)%nat -> utf8_decode b = Some s -> utf8_of s b).
  { clear b. induction n as [|n IH]; intros b s Hl H.
    - destruct b; [|cbn in Hl; lia]. injection H as <-. constructor.
    - destruct b as [|b0 t]; [injection H as <-; constructor|].
      cbn [utf8_decode length] in *. pose proof (b2n_lt b0).
      destruct (N.ltb_spec (b2n b0) 0x80).
      { destruct (utf8_decode t) as [r|] eqn:Hr; [|easy]. injection H as <-.
        rewrite <- (n2b_b2n b0) at 2. apply utf8_1; [easy|]. apply IH; [lia|easy]. }
      destruct ((0xC2 <=? b2n b0) && (b2n b0 <? 0xE0)) eqn:E2.
      { destruct t as [|b1 t]; [easy|]. unfold is_cont, cont in *. pose proof (b2n_lt b1).
        destruct ((0x80 <=? b2n b1) && (b2n b1 <? 0xC0)) eqn:C1; [|easy].
        destruct (utf8_decode t) as [r|] eqn:Hr; [|easy]. injection H as <-.
        set (c := (b2n b0 - 0xC0) * 64 + (b2n b1 - 0x80)).
        replace b0 with (n2b (0xC0 + c / 64)) by (apply b2n_inj; rewrite b2n_n2b; unfold c; lia).
        replace b1 with (n2b (0x80 + c mod 64)) by (apply b2n_inj; rewrite b2n_n2b; unfold c; lia).
        apply utf8_2; [unfold c; lia|]. apply IH; [cbn in Hl; lia|easy]. }
      destruct ((0xE0 <=? b2n b0) && (b2n b0 <? 0xF0)) eqn:E3.
      { destruct t as [|b1 [|b2 t]]; try easy. unfold is_cont, cont in *.
        set (c := (b2n b0 - 0xE0) * 4096 + (b2n b1 - 0x80) * 64 + (b2n b2 - 0x80)) in *.
        destruct ((0x80 <=? b2n b1) && (b2n b1 <? 0xC0)) eqn:C1; [|easy].
        destruct ((0x80 <=? b2n b2) && (b2n b2 <? 0xC0)) eqn:C2; [|easy]. cbn [andb] in H.
        destruct (N.leb_spec 0x800 c); [|easy]. cbn [andb] in H.
        destruct (scalar c) eqn:Hsc; [|easy]. apply scalar_char in Hsc.
        destruct (utf8_decode t) as [r|] eqn:Hr; [|easy]. injection H as <-.
        replace b0 with (n2b (0xE0 + c / 4096)) by (apply b2n_inj; rewrite b2n_n2b; unfold c; lia).
        replace b1 with (n2b (0x80 + c / 64 mod 64)) by (apply b2n_inj; rewrite b2n_n2b; unfold c; lia).
        replace b2 with (n2b (0x80 + c mod 64)) by (apply b2n_inj; rewrite b2n_n2b; unfold c; lia).
        apply utf8_3; [unfold c in *; lia|easy|]. apply IH; [cbn in Hl; lia|easy]. }
      destruct ((0xF0 <=? b2n b0) && (b2n b0 <? 0xF8)) eqn:E4; [|easy].
      destruct t as [|b1 [|b2 [|b3 t]]]; try easy. unfold is_cont, cont in *.
      set (c := (b2n b0 - 0xF0) * 262144 + (b2n b1 - 0x80) * 4096 + (b2n b2 - 0x80) * 64 + (b2n b3 - 0x80)) in *.
      destruct ((0x80 <=? b2n b1) && (b2n b1 <? 0xC0)) eqn:C1; [|easy].
      destruct ((0x80 <=? b2n b2) && (b2n b2 <? 0xC0)) eqn:C2; [|easy].
      destruct ((0x80 <=? b2n b3) && (b2n b3 <? 0xC0)) eqn:C3; [|easy]. cbn [andb] in H.
      destruct (N.leb_spec 0x10000 c); [|easy]. cbn [andb] in H.
      destruct (scalar c) eqn:Hsc; [|easy]. apply scalar_char in Hsc.
      destruct (utf8_decode t) as [r|] eqn:Hr; [|easy]. injection H as <-.
      replace b0 with (n2b (0xF0 + c / 262144)) by (apply b2n_inj; rewrite b2n_n2b; unfold c; lia).
      replace b1 with (n2b (0x80 + c / 4096 mod 64)) by (apply b2n_inj; rewrite b2n_n2b; unfold c; lia).
      replace b2 with (n2b (0x80 + c / 64 mod 64)) by (apply b2n_inj; rewrite b2n_n2b; unfold c; lia).
      replace b3 with (n2b (0x80 + c mod 64)) by (apply b2n_inj; rewrite b2n_n2b; unfold c; lia).
      apply utf8_4; [unfold char in *; lia|]. apply IH; [cbn in Hl; lia|easy]. }
  intros s. now apply (G (length b)).
Qed.
Lemma utf8_decode_iff b s : utf8_decode b = Some s <-> utf8_of s b.
Proof. split; [apply utf8_decode_sound|apply utf8_decode_complete]. Qed.

(** ** zero-terminated strings *)
Lemma split_str_0_iff b d r : split_str_0 b = Some (d, r) <-> b = d ++ x00 :: r /\ ~ In x00 d.
Proof.
  revert d r; induction b as [|c t IH]; intros d r; cbn [split_str_0].
  - split; [easy|]. intros [H _]. now destruct d.
  - destruct (N.eqb_spec (b2n c) 0) as [Hc|Hc].
    + assert (c = x00) as -> by now apply b2n_inj.
      split.
      * intros [= <- <-]. split; [reflexivity|easy].
      * intros [H Hn]. destruct d as [|y d]; cbn [app] in H; [now injection H as ->|].
        injection H as <- _. destruct Hn. now left.
    + assert (Hx : c <> x00) by (intros ->; now apply Hc).
      destruct (split_str_0 t) as [[d' r']|] eqn:E.
      * pose proof (proj1 (IH d' r') eq_refl) as [-> Hn]. split.
        -- intros [= <- <-]. split; [reflexivity|]. intros [H|H]; auto.
        -- intros [H Hn2]. destruct d as [|y d]; cbn [app] in H; [injection H as ->; easy|].
           injection H as <- Ht. assert (Some (d', r') = Some (d, r)) as [= -> ->].
           { rewrite <- (proj2 (IH d r)); [reflexivity|]. split; [exact Ht|]. intros Hi. apply Hn2. now right. }
           reflexivity.
      * split; [easy|]. intros [H Hn2]. destruct d as [|y d]; cbn [app] in H; [injection H as ->; easy|].
        injection H as <- Ht. enough (None = Some (d, r)) by easy.
        apply IH. split; [exact Ht|]. intros Hi. apply Hn2. now right.
Qed.

Lemma u16_of_bound x y : u16_of x y < 65536.
Proof. unfold u16_of. pose proof (b2n_lt x). pose proof (b2n_lt y). lia. Qed.
Lemma u16_of_bytes x y : n2b (u16_of x y) = x /\ n2b (u16_of x y / 256) = y.
Proof.
  unfold u16_of. pose proof (b2n_lt x). pose proof (b2n_lt y).
  split; apply b2n_inj; rewrite b2n_n2b; lia.
Qed.

Definition units_nz (u : list N) : Prop := Forall (fun x => 0 < x < 65536) u.
Lemma split_utf16_0_iff b u r : split_utf16_0 b = Some (u, r) <->
  b = units_le u ++ [x00; x00] ++ r /\ units_nz u.
Proof.
  assert (G : forall n b u r, (length b <= n)%nat -> (split_utf16_0 b = Some (u, r) <->
     b = units_le u ++ [x00; x00] ++ r /\ units_nz u)).
  { clear b u r. induction n as [|n IH]; intros b u r Hl.
    - destruct b; [|cbn in Hl; lia]. split; [easy|]. intros [H _]. destruct u; easy.
    - destruct b as [|x [|y t]]; cbn [split_utf16_0].
      + split; [easy|]. intros [H _]. destruct u; easy.
      + split; [easy|]. intros [H _]. destruct u; easy.
      + pose proof (u16_of_bound x y) as Hb. pose proof (u16_of_bytes x y) as [Hx Hy].
        destruct (N.eqb_spec (u16_of x y) 0) as [Hz|Hz].
        * rewrite Hz in Hx, Hy. cbn in Hx, Hy. subst x y. split.
          -- intros [= <- <-]. split; [reflexivity|constructor].
          -- intros [H Hu]. destruct u as [|v u]; cbn [units_le app] in H; [now injection H as ->|].
             injection H as H1 H2 _. inversion_clear Hu.
             apply (f_equal b2n) in H1, H2. rewrite !b2n_n2b in H1, H2.
             exfalso. lia.
        * cbn in Hl. split.
          -- destruct (split_utf16_0 t) as [[d r']|] eqn:E; [|easy]. intros [= <- <-].
             apply IH in E; [|lia]. destruct E as [-> Hu]. cbn [units_le app]. rewrite Hx, Hy.
             split; [reflexivity|]. constructor; [lia|exact Hu].
          -- intros [H Hu]. destruct u as [|v u]; cbn [units_le app] in H.
             { injection H as -> -> _. now destruct Hz. }
             injection H as H1 H2 H3. inversion_clear Hu.
             rewrite (proj2 (IH t u r ltac:(lia))) by easy. do 3 f_equal.
             unfold u16_of. subst x y. rewrite !b2n_n2b. lia. }
  now apply (G (length b)).
Qed.

Lemma utf16_nz s : str s -> ~ In 0 s -> units_nz (utf16 s).
Proof.
  induction 1 as [|c s Hc Hs IH]; intros Hn; [constructor|].
  assert (c <> 0 /\ ~ In 0 s) as [Hc0 Hn'] by (split; intros ?; apply Hn; [now left|now right]).
  rewrite utf16_cons. unfold utf16_char, char in *. destruct (N.ltb_spec c 0x10000); cbn [app].
  - constructor; [lia|now apply IH].
  - constructor; [lia|]. constructor; [lia|now apply IH].
Qed.
Lemma utf16_nz_inv s : str s -> units_nz (utf16 s) -> ~ In 0 s.
Proof.
  induction 1 as [|c s Hc Hs IH]; intros Hn Hi; [destruct Hi|].
  rewrite utf16_cons in Hn. apply Forall_app in Hn. destruct Hn as [Hn1 Hn2].
  destruct Hi as [->|Hi]; [|now apply IH]. cbn in Hn1. inversion_clear Hn1. lia.
Qed.

(** [parse_str_0] *)
Lemma parse_str_0_ok b s r : parse_str_0 b = Ok (s, r) <->
  exists d, b = d ++ x00 :: r /\ ~ In x00 d /\ utf8_of s d.
Proof.
  unfold parse_str_0. destruct (split_str_0 b) as [[d r']|] eqn:E.
  - pose proof (proj1 (split_str_0_iff _ _ _) E) as [-> Hn].
    destruct (utf8_decode d) as [s'|] eqn:Ed.
    + split.
      * intros [= <- <-]. exists d. repeat split; auto. now apply utf8_decode_iff.
      * intros (d2 & H1 & H2 & H3).
        assert (split_str_0 (d ++ x00 :: r') = Some (d2, r)) as E2 by now apply split_str_0_iff.
        rewrite E in E2. injection E2 as -> ->. apply utf8_decode_iff in H3. congruence.
    + split; [easy|]. intros (d2 & H1 & H2 & H3).
      assert (split_str_0 (d ++ x00 :: r') = Some (d2, r)) as E2 by now apply split_str_0_iff.
      rewrite E in E2. injection E2 as -> ->. apply utf8_decode_iff in H3. congruence.
  - split; [easy|]. intros (d2 & H1 & H2 & H3).
    assert (split_str_0 b = Some (d2, r)) as E2 by now apply split_str_0_iff. congruence.
Qed.
Lemma parse_str_0_no_panic b : parse_str_0 b <> Panic.
Proof. unfold parse_str_0. destruct (split_str_0 b) as [[d r]|]; [|easy]. now destruct (utf8_decode d). Qed.

Lemma parse_str_0_missing b : parse_str_0 b = Err MissingTermination <-> ~ In x00 b.
Proof.
  unfold parse_str_0. destruct (split_str_0 b) as [[d r]|] eqn:E.
  - apply split_str_0_iff in E. destruct E as [-> _]. split; [destruct (utf8_decode d); discriminate|].
    intros H. destruct H. apply in_or_app. right. now left.
  - split; [|reflexivity]. intros _ H. apply in_split in H. destruct H as (d & r & ->).
    revert E. clear. induction d as [|c d IH]; [discriminate|]. cbn [app split_str_0].
    destruct (b2n c =? 0); [discriminate|]. destruct (split_str_0 (d ++ x00 :: r)) as [[]|]; [discriminate|]. exact IH.
Qed.
Lemma split_utf16_0_none b : split_utf16_0 b = None <-> ~ terminated16 b.
Proof.
  assert (G : forall n b, (length b <= n)%nat -> (split_utf16_0 b = None <-> ~ terminated16 b)).
  { clear b. induction n as [|n IH]; intros b Hl.
    - destruct b; [|cbn in Hl; lia]. split; [|reflexivity]. intros _ (d & r & H & _). now destruct d.
    - destruct b as [|x [|y t]]; cbn [split_utf16_0].
      + split; [|reflexivity]. intros _ (d & r & H & _). now destruct d.
      + split; [|reflexivity]. intros _ (d & r & H & _). destruct d as [|? [|]]; discriminate H.
      + pose proof (u16_of_bytes x y) as [Hx Hy]. cbn in Hl. destruct (N.eqb_spec (u16_of x y) 0) as [Hz|Hz].
        * rewrite Hz in Hx, Hy. cbn in Hx, Hy. subst x y. split; [discriminate|]. intros H. destruct H.
          exists [], t. split; reflexivity.
        * assert (IHt := IH t ltac:(lia)). assert (T : terminated16 (x :: y :: t) <-> terminated16 t).
          { split; intros (d & r & H & He).
            - destruct d as [|p [|q d]]; cbn [app] in H.
              + injection H as -> -> _. now destruct Hz.
              + discriminate He.
              + injection H as _ _ ->. exists d, r. split; [reflexivity|exact He].
            - subst t. exists (x :: y :: d), r. split; [reflexivity|exact He]. }
          rewrite T, <- IHt. destruct (split_utf16_0 t) as [[]|]; [|reflexivity]. split; discriminate. }
  now apply (G (length b)).
Qed.
Lemma parse_utf16le_0_missing b : parse_utf16le_0 b = Err MissingTermination <-> ~ terminated16 b.
Proof.
  rewrite <- split_utf16_0_none. unfold parse_utf16le_0. destruct (split_utf16_0 b) as [[u r]|]; [|split; reflexivity].
  destruct (decode_utf16 u); split; discriminate.
Qed.

Lemma parse_utf16le_0_ok b s r : parse_utf16le_0 b = Ok (s, r) <->
  exists d, b = d ++ [x00; x00] ++ r /\ utf16le_of s d /\ ~ In 0 s.
Proof.
  unfold parse_utf16le_0. split.
  - destruct (split_utf16_0 b) as [[u r']|] eqn:E; [|easy].
    destruct (decode_utf16 u) as [s'|] eqn:Ed; [|easy]. intros [= <- <-].
    apply split_utf16_0_iff in E. destruct E as [-> Hu].
    assert (Hu' : Forall (fun x => x < 65536) u).
    { eapply Forall_impl; [|exact Hu]. cbn. lia. }
    apply decode_utf16_sound in Ed; [|exact Hu'].
    exists (units_le u). split; [reflexivity|]. split; [now exists u|].
    apply utf16_of_inv in Ed. destruct Ed as [Hs ->]. now apply utf16_nz_inv.
  - intros (d & -> & (u & Hu & ->) & Hn). pose proof (utf16_of_inv Hu) as [Hs ->].
    rewrite (proj2 (split_utf16_0_iff _ (utf16 s) r)) by (split; [reflexivity|now apply utf16_nz]).
    now rewrite (decode_utf16_complete Hu).
Qed.
Lemma parse_utf16le_0_no_panic b : parse_utf16le_0 b <> Panic.
Proof. unfold parse_utf16le_0. destruct (split_utf16_0 b) as [[d r]|]; [|easy]. now destruct (decode_utf16 d). Qed.

(** ** paths *)
Lemma sanitize_windows p : windows_path p (sanitize_path p).
Proof.
  unfold windows_path, sanitize_path. induction p as [|c p IH]; cbn [map]; constructor; [|exact IH].
  destruct (N.eqb_spec c 47); [now left|now right].
Qed.
Lemma windows_path_fun p q : windows_path p q -> q = sanitize_path p.
Proof.
  induction 1 as [|a b p q H Hs IH]; [reflexivity|].
  unfold sanitize_path in *. cbn [map]. rewrite <- IH. f_equal.
  destruct H as [[-> ->]|[H ->]]; [reflexivity|]. now destruct (N.eqb_spec a 47).
Qed.
Lemma sanitize_str p : str p -> str (sanitize_path p).
Proof.
  unfold str, sanitize_path. induction 1 as [|c p Hc Hp IH]; cbn [map]; constructor; [|exact IH].
  destruct (N.eqb_spec c 47); [unfold char; lia|exact Hc].
Qed.
Lemma len_sanitize p : len (sanitize_path p) = len p.
Proof. apply len_map. Qed.
Lemma sanitize_no_slash p : ~ In 47 (sanitize_path p).
Proof.
  unfold sanitize_path. intros H. apply in_map_iff in H. destruct H as (c & H & _).
  destruct (N.eqb_spec c 47); lia.
Qed.
Lemma sanitize_idem p : sanitize_path (sanitize_path p) = sanitize_path p.
Proof.
  unfold sanitize_path. rewrite map_map. apply map_ext. intros c.
  destruct (N.eqb_spec c 47) as [->|H]; [reflexivity|]. now destruct (N.eqb_spec c 47).
Qed.

Lemma utf16_len_utf16 s : len (utf16 s) = utf16_len s.
Proof.
  induction s as [|c s IH]; [reflexivity|]. rewrite utf16_cons, len_app, IH. cbn [utf16_len].
  unfold utf16_char. destruct (c <? 0x10000); reflexivity.
Qed.
Lemma utf8_len_utf8 s : len (utf8 s) = utf8_len s.
Proof.
  induction s as [|c s IH]; [reflexivity|]. unfold utf8 in *. cbn [flat_map utf8_len].
  rewrite len_app, IH. unfold utf8_char.
  destruct (c <? 0x80); [reflexivity|]. destruct (c <? 0x800); [reflexivity|].
  destruct (c <? 0x10000); reflexivity.
Qed.
Lemma utf16_len_sanitize s : utf16_len (sanitize_path s) = utf16_len s.
Proof.
  induction s as [|c s IH]; [reflexivity|]. unfold sanitize_path in *. cbn [map utf16_len]. rewrite IH.
  f_equal. destruct (N.eqb_spec c 47) as [->|]; reflexivity.
Qed.
Lemma utf8_len_sanitize s : utf8_len (sanitize_path s) = utf8_len s.
Proof.
  induction s as [|c s IH]; [reflexivity|]. unfold sanitize_path in *. cbn [map utf8_len]. rewrite IH.
  f_equal. destruct (N.eqb_spec c 47) as [->|]; reflexivity.
Qed.
