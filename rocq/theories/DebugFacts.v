(** * DebugFacts: debug output can be read back (C92) *)
From Coq Require Import String Ascii Hexadecimal HexadecimalN Lia.
From Verif Require Import Base Text Ntlm Client Display BaseFacts SpecNumber NumberFacts SpecLiteral Debug.
Open Scope N_scope.
Open Scope list_scope.
Set Implicit Arguments.
Unset Strict Implicit.

(** numerals have one value, and consist of digits *)
Fixpoint value (base : N) (acc : N) (t : text) : N :=
  match t with [] => acc | c :: r => value base (acc * base + (if c <? 58 then c - 48 else c - 87)) r end.
Lemma value_app base t : forall acc r, value base acc (t ++ r) = value base (value base acc t) r.
Proof. induction t; intros acc r; [reflexivity|]. cbn [app value]. apply IHt. Qed.
Lemma digit_value base c v : digit base c v -> (if c <? 58 then c - 48 else c - 87) = v.
Proof. intros (H & [[H1 ->]|[H1 ->]]); destruct (N.ltb_spec (48 + v) 58), (N.ltb_spec (87 + v) 58); lia. Qed.
Lemma numeral_value base t n : numeral base t n -> value base 0 t = n.
Proof.
  intros H. induction H as [c v H|t n c v Ht IH H].
  - cbn [value]. now rewrite (digit_value H).
  - rewrite value_app, IH. cbn [value]. now rewrite (digit_value H).
Qed.
Lemma numeral_chars base t n : numeral base t n -> base <= 16 -> ~ In 125 t.
Proof.
  intros H Hb. assert (Hd : forall c v, digit base c v -> c <> 125) by (intros c v (H0 & [[H1 ->]|[H1 ->]]); lia).
  induction H as [c v H|t n c v Ht IH H]; intros K.
  - destruct K as [K|[]]. exact (Hd _ _ H K).
  - apply in_app_or in K. destruct K as [K|[K|[]]]; [exact (IH K)|exact (Hd _ _ H K)].
Qed.
Lemma cut_unique A (c : A) t : forall t' r r', ~ In c t -> ~ In c t' -> t ++ c :: r = t' ++ c :: r' -> t = t' /\ r = r'.
Proof.
  induction t as [|x t IH]; intros [|y t'] r r' H H' He; cbn [app] in He.
  - injection He as ->. auto.
  - injection He as -> He. destruct H'. now left.
  - injection He as -> He. destruct H. now left.
  - injection He as -> He.
    destruct (IH t' r r') as [-> ->]; [intros K; apply H; now right|intros K; apply H'; now right|exact He|]. auto.
Qed.
Lemma simple_inj e c d : simple_escape e c -> simple_escape e d -> c = d.
Proof. unfold simple_escape. lia. Qed.
Lemma simple_not e c : simple_escape e c -> e <> 117.
Proof. unfold simple_escape. lia. Qed.

(** what stands before the closing quote determines the text, and where the quote is *)
Lemma between_unique l s : between l s -> forall l' s' r r', between l' s' -> l ++ 34 :: r = l' ++ 34 :: r' -> l = l' /\ s = s' /\ r = r'.
Proof.
  intros H. induction H as [|c l s H1 H2 H IH|e c l s He H IH|t c l s Ht H IH]; intros l' s' r r' H' Heq.
  - destruct H' as [|c' l' s' G1 G2 G|e' c' l' s' G1 G|t' c' l' s' G1 G]; cbn [app] in Heq; [|injection Heq as K K2; congruence|discriminate Heq|discriminate Heq].
    injection Heq as ->. auto.
  - destruct H' as [|c' l' s' G1 G2 G|e' c' l' s' G1 G|t' c' l' s' G1 G]; cbn [app] in Heq; injection Heq as K K2; [congruence| |congruence|congruence].
    destruct (IH _ _ _ _ G K2) as (-> & -> & ->). now subst.
  - destruct H' as [|c' l' s' G1 G2 G|e' c' l' s' G1 G|t' c' l' s' G1 G]; cbn [app] in Heq; [discriminate Heq| | |].
    + injection Heq as K K2. congruence.
    + injection Heq as K K2. destruct (IH _ _ _ _ G K2) as (-> & -> & ->). subst. now rewrite (simple_inj He G1).
    + injection Heq as K K2. exfalso. exact (simple_not He K).
  - destruct H' as [|c' l' s' G1 G2 G|e' c' l' s' G1 G|t' c' l' s' G1 G]; cbn [app] in Heq; [discriminate Heq| | |].
    + injection Heq as K K2. congruence.
    + injection Heq as K K2. exfalso. exact (simple_not G1 (eq_sym K)).
    + injection Heq as K. rewrite <- !app_assoc in K. cbn [app] in K.
      destruct (cut_unique (numeral_chars Ht (N.le_refl 16)) (numeral_chars G1 (N.le_refl 16)) K) as [-> K2].
      destruct (IH _ _ _ _ G K2) as (-> & -> & ->). rewrite <- (numeral_value Ht), <- (numeral_value G1). auto.
Qed.
Lemma literal_unique l l' s s' r r' : literal l s -> literal l' s' -> l ++ r = l' ++ r' -> l = l' /\ s = s' /\ r = r'.
Proof.
  intros (m & Hm & ->) (m' & Hm' & ->) H. cbn [app] in H. injection H as H. rewrite <- !app_assoc in H. cbn [app] in H.
  destruct (between_unique Hm Hm' H) as (-> & -> & ->). auto.
Qed.

Section Debug.
Variable plain : N -> bool.
Variable stream : text.
Lemma escape_between l s c : between l s -> between (escape plain c ++ l) (c :: s).
Proof.
  intros H. unfold escape.
  destruct (N.eqb_spec c 0) as [->|]; [apply (@bt_simple 48 0 l s); [unfold simple_escape; lia|exact H]|].
  destruct (N.eqb_spec c 9) as [->|]; [apply (@bt_simple 116 9 l s); [unfold simple_escape; lia|exact H]|].
  destruct (N.eqb_spec c 13) as [->|]; [apply (@bt_simple 114 13 l s); [unfold simple_escape; lia|exact H]|].
  destruct (N.eqb_spec c 10) as [->|]; [apply (@bt_simple 110 10 l s); [unfold simple_escape; lia|exact H]|].
  destruct (N.eqb_spec c 34) as [->|]; [apply (@bt_simple 34 34 l s); [unfold simple_escape; lia|exact H]|].
  destruct (N.eqb_spec c 92) as [->|]; [apply (@bt_simple 92 92 l s); [unfold simple_escape; lia|exact H]|].
  destruct (plain c); [apply bt_char; assumption|]. rewrite <- !app_assoc. apply (@bt_unicode (hexadecimal (N.to_hex_uint c))); [|exact H].
  rewrite <- (HexadecimalN.Unsigned.of_to c) at 2. apply hex_numeral. destruct c as [|p]; [discriminate|].
  cbn [N.to_hex_uint]. apply HexadecimalPos.Unsigned.to_uint_nonnil.
Qed.
Lemma quoted_literal s : literal (quoted plain s) s.
Proof.
  exists (flat_map (escape plain) s). split; [|reflexivity]. induction s as [|c s IH]; [constructor|]. cbn [flat_map]. now apply escape_between.
Qed.
Theorem debug_split c : exists pre post, forall p, exists l, literal l p
  /\ debug_cifs plain stream (with_password p c) = pre ++ l ++ post.
Proof.
  exists (lit "Cifs { netbios: NetBios { stream: " ++ stream ++ lit " }, auth: " ++ lit "Auth { user: " ++ quoted plain (a_user (auth_of c))
    ++ lit ", workstation: " ++ quoted plain (a_workstation (auth_of c)) ++ lit ", domain: " ++ quoted plain (a_domain (auth_of c)) ++ lit ", password: ").
  exists (lit " }" ++ lit ", max_smb_size: " ++ show (max_smb_size c) ++ lit ", use_unicode: " ++ debug_bool (use_unicode c)
    ++ lit ", uid: " ++ show (uid c) ++ lit ", mid: " ++ show (mid c) ++ lit " }").
  intros p. exists (quoted plain p). split; [apply quoted_literal|]. unfold debug_cifs, debug_auth, with_password.
  cbn [auth_of a_user a_workstation a_domain a_password max_smb_size use_unicode uid mid]. now rewrite <- !app_assoc.
Qed.
Theorem debug_reveals c d : debug_cifs plain stream c = debug_cifs plain stream d -> auth_of c = auth_of d.
Proof.
  unfold debug_cifs, debug_auth. rewrite <- !app_assoc. intros H.
  apply app_inv_head in H. apply app_inv_head in H. apply app_inv_head in H. apply app_inv_head in H.
  destruct (literal_unique (quoted_literal _) (quoted_literal _) H) as (_ & H1 & K). apply app_inv_head in K.
  destruct (literal_unique (quoted_literal _) (quoted_literal _) K) as (_ & H2 & K2). apply app_inv_head in K2.
  destruct (literal_unique (quoted_literal _) (quoted_literal _) K2) as (_ & H3 & K3). apply app_inv_head in K3.
  destruct (literal_unique (quoted_literal _) (quoted_literal _) K3) as (_ & H4 & _).
  destruct (auth_of c) as [u1 w1 d1 p1], (auth_of d) as [u2 w2 d2 p2]. cbn [a_user a_workstation a_domain a_password] in *. congruence.
Qed.
End Debug.
