(** * ListingFacts: listings that are lost (C75, C76) *)
From Verif Require Import Base Text Win Errors Common Reply Ntlm Prog Client Spec SpecReply SpecMsg Api SpecCall BaseFacts TextFacts
  RunFacts MsgFacts ReplyFacts FindFacts TransFacts Flow FlowFacts SpecRemote RemoteFacts FileFacts SpecListing.
Open Scope N_scope.
Set Implicit Arguments.

(** ** names that are no text *)
Lemma unreadable_dir e d : unreadable_entry e -> ~ dir_of e d.
Proof.
  intros (n & raw & H1 & H2 & H3) (tc & ta & tw & th & attr & m & raw' & _ & _ & _ & _ & _ & _ & _ & _ & _ & _ & _ & G1 & G2 & G3).
  rewrite H1 in G1. apply some_inj in G1. subst m. rewrite H2 in G2. apply some_inj in G2. subst raw'. exact (H3 _ G3).
Qed.
Lemma unreadable_long e : unreadable_entry e -> 60 <= len e.
Proof. intros (n & raw & H1 & H2 & _). apply bytes_at_some in H2. lia. Qed.
Lemma unreadable_entries z b : unreadable z b -> forall l, ~ entries z b l.
Proof.
  induction 1 as [b Hz H1 H2|b n e H1 H2 H3 H4|b n e d H1 H2 H3 H4 _ IH]; intros l Hl.
  - destruct Hl as [|b m G1 G2|b d _ G1 G2|b m e d l G1 G2 _ _ _].
    + discriminate H1.
    + apply unreadable_long in H2. rewrite len_drop in H2. rewrite H1 in G1. apply some_inj in G1. lia.
    + exact (unreadable_dir H2 G2).
    + rewrite H1 in G1. apply some_inj in G1. lia.
  - destruct Hl as [|b m G1 G2|b d _ G1 G2|b m e' d l G1 G2 G3 G4 _].
    + discriminate H1.
    + rewrite H1 in G1. apply some_inj in G1. lia.
    + rewrite H1 in G1. apply some_inj in G1. lia.
    + rewrite H1 in G1. apply some_inj in G1. subst m. rewrite H3 in G3. apply some_inj in G3. subst e'. exact (unreadable_dir H4 G4).
  - destruct Hl as [|b m G1 G2|b d' _ G1 G2|b m e' d' l G1 G2 G3 G4 G5].
    + discriminate H1.
    + rewrite H1 in G1. apply some_inj in G1. lia.
    + rewrite H1 in G1. apply some_inj in G1. lia.
    + rewrite H1 in G1. apply some_inj in G1. subst m. exact (IH _ G5).
Qed.
Section Server.
Variable Sv : Type.
Variable react : Sv -> bytes -> reaction Sv.
Variable E : env.
Variable fuel : nat.
Lemma find_unreadable R (c : call R) (w : world cifs Sv) f w1 fs a b rest : (length (rx w1) < fuel)%nat ->
  request (exec E fuel c) (cl w) = Some f -> asked react w f w1 ->
  fragments_arrive (mid (cl w)) (rx w1) fs rest -> split_of fs a b -> last_completes fs (len a) (len b) ->
  unreadable_batch c b -> forall v w', run react (exec E fuel c) w <> Done (Good v) w'.
Proof.
  intros Hf Hr Ha Hfa Hsp Hl Hb v w'. destruct c; try contradiction Hb.
  - rewrite (find_run (eq_refl : find_sub (FindFirst _ _) = Some find_first_parse) Hf Hr Ha Hfa Hsp Hl).
    destruct (find_first_parse a b) as [x|e|] eqn:Hx; [|discriminate|discriminate]. exfalso. apply find_first_ok in Hx.
    destruct Hx as (_ & _ & _ & _ & Hx & _). exact (unreadable_entries Hb Hx).
  - rewrite (find_run (eq_refl : find_sub (FindNext _ _ _) = Some find_next_parse) Hf Hr Ha Hfa Hsp Hl).
    destruct (find_next_parse a b) as [x|e|] eqn:Hx; [|discriminate|discriminate]. exfalso. apply find_next_ok in Hx.
    destruct Hx as (_ & _ & Hx & _). exact (unreadable_entries Hb Hx).
Qed.
Lemma list_unreadable s pattern (w : world cifs Sv) f w1 fs a b rest : (length (rx w1) < fuel)%nat ->
  request (exec E fuel (FindFirst s pattern)) (cl w) = Some f -> asked react w f w1 ->
  fragments_arrive (mid (cl w)) (rx w1) fs rest -> split_of fs a b -> last_completes fs (len a) (len b) ->
  unreadable true b -> forall v w', run react (list_dir E fuel s pattern) w <> Done (Good v) w'.
Proof.
  intros Hf Hr Ha Hfa Hsp Hl Hb v w' H. pose proof (find_unreadable (FindFirst s pattern) Hf Hr Ha Hfa Hsp Hl Hb) as K.
  unfold list_dir, mbind in H. rewrite run_bind in H. change (find_first E fuel s pattern) with (exec E fuel (FindFirst s pattern)) in H.
  destruct (run react (exec E fuel (FindFirst s pattern)) w) as [[x|e] v1|v1|v1|v1]; [exact (K _ _ eq_refl)| | | |]; discriminate H.
Qed.
End Server.

(** ** the end of a search *)
Section Local.
Variable St : Type.
Variable B : service St.
Lemma local_ended s pattern st c n l d sid st1 code st2 :
  B (uid c) (OFindFirst (sh_tid s) (backslashes pattern)) st = (inl (mk_found sid false (l ++ [d])), st1) ->
  B (uid c) (OFindNext (sh_tid s) sid (d_filename d)) st1 = (inr code, st2) ->
  u16 (sh_tid s) -> u16 sid -> is_str pattern -> is_str (d_filename d) ->
  fits_request (use_unicode c) (FindFirst s pattern) -> fits_request (use_unicode c) (FindNext s sid (d_filename d)) ->
  local B (list_flow (S n) s pattern) c st 2 (Bad (ServerError (status_of_code code))) (next_client (next_client c)) st2.
Proof.
  intros H1 H2 Hu Hs Hp Hd F1 F2. change 2%nat with (1 + 1)%nat. eapply local_bind.
  - refine (local_call (q := FindFirst s pattern) (r := inl _) _ _ _ H1); [now split|exact I|exact F1].
  - cbn [ff_end ff_info ff_sid list_nexts]. rewrite map_app. cbn [map]. rewrite last_last. apply local_fails.
    refine (local_call (q := FindNext s sid (d_filename d)) (c := next_client c) (r := inr code) _ _ _ H2); [split; [exact Hu|split; [exact Hs|exact Hd]]|exact I|exact F2].
Qed.
Variable Sv : Type.
Variable react : Sv -> bytes -> reaction Sv.
Variable abs : Sv -> St.
Hypothesis conf : conforming react B abs.
Variable E : env.
Lemma remote_ended (w : world cifs Sv) s pattern l d sid st1 code st2 : typed_client (cl w) -> idle w ->
  B (uid (cl w)) (OFindFirst (sh_tid s) (backslashes pattern)) (abs (srv w)) = (inl (mk_found sid false (l ++ [d])), st1) ->
  B (uid (cl w)) (OFindNext (sh_tid s) sid (d_filename d)) st1 = (inr code, st2) ->
  u16 (sh_tid s) -> u16 sid -> is_str pattern -> is_str (d_filename d) ->
  fits_request (use_unicode (cl w)) (FindFirst s pattern) -> fits_request (use_unicode (cl w)) (FindNext s sid (d_filename d)) ->
  room E (cl w) 2 ->
  exists k w', (forall fuel, (k <= fuel)%nat -> run react (list_dir E fuel s pattern) w = Done (Bad (ServerError (status_of_code code))) w')
    /\ idle w' /\ abs (srv w') = st2.
Proof.
  intros Ht Hi H1 H2 Hu Hs Hp Hd F1 F2 Hr. pose proof (local_ended (cl w) 0 _ _ H1 H2 Hu Hs Hp Hd F1 F2) as HL.
  destruct (@remote_local _ _ react _ abs conf E _ _ _ _ _ _ _ _ HL w eq_refl eq_refl Ht Hi Hr) as (k & w' & fs & Hrun & Hi' & _ & Hst & _).
  exists (S k), w'. split; [|split; [exact Hi'|exact Hst]]. intros fuel Hf. rewrite (list_same E fuel s pattern).
  eapply run_less; [|apply Hrun; lia]. apply less_list. lia.
Qed.
End Local.
