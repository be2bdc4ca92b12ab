(** * ReadingFacts: programs that change nothing on the server (C93) *)
From Verif Require Import Base Text Utils Win Errors Info Common Msg Reply Ntlm Prog Client Spec SpecReply SpecCrash SpecMsg
  SpecNtlm Api SpecCall Flow BaseFacts TextFacts RunFacts SpecFacts InfoFacts ClientFacts MsgFacts ReqFacts CallFacts
  FlowFacts AskFacts SpecReading.
Open Scope N_scope.
Set Implicit Arguments.
Unset Strict Implicit.

Lemma out_code st R (c : call R) r : u8_at (info_write (out_info st (msg_of c)) ++ r) 4 = Some (opcode c).
Proof.
  rewrite out_info_eq. unfold info_write. cbn [i_cmd]. rewrite msg_of_cmd, <- !app_assoc. destruct c; reflexivity.
Qed.
Lemma unchained_and w : unchained ([xff; x00; x00; x00] ++ w).
Proof. split; [rewrite len_app; change (len [xff; x00; x00; x00]) with 4; lia|reflexivity]. Qed.
Lemma open_words access sharing options path pw d i : 
  open_body (mk_open (sanitize_path path) 0 0 access 0 0 sharing DISP_OPEN options IMPERSONATE 0) i = Ok (pw, d) ->
  access < 4294967296 -> options < 4294967296 ->
  u32_at ([xff; x00; x00; x00] ++ pw) 15 = Some access /\ u32_at ([xff; x00; x00; x00] ++ pw) 39 = Some options
  /\ u32_at ([xff; x00; x00; x00] ++ pw) 35 = Some 1.
Proof.
  intros Hb H1 H3. apply open_body_ok in Hb.
  cbn [o_filename o_create_flags o_directory o_access o_allocation_size o_attributes o_share_access o_disposition
       o_options o_impersonation o_security] in Hb.
  destruct Hb as (_ & -> & _). unfold DISP_OPEN, IMPERSONATE. repeat split; fdone.
Qed.
Lemma bits_file b : In b changing_bits -> N.testbit 0x00100009 b = false.
Proof. intros Hb. cbn in Hb. repeat (destruct Hb as [<-|Hb]; [reflexivity|]). destruct Hb. Qed.
Lemma bits_dir b : In b changing_bits -> N.testbit 1 b = false.
Proof. intros Hb. cbn in Hb. repeat (destruct Hb as [<-|Hb]; [reflexivity|]). destruct Hb. Qed.
Lemma request_harmless E fuel st R (c : call R) f : removes c = false -> request (exec E fuel c) st = Some f -> harmless f.
Proof.
  intros Hc Hr. apply request_inv in Hr. destruct Hr as (p & pw & d & Hf & _ & Hp & Hb & Hs & Hl & _).
  exists p, (andx_of (msg_of c) ++ pw), d. split; [exact Hf|]. split; [exact Hs|]. unfold changes_nothing.
  assert (Ho : u8_at p 4 = Some (opcode c)) by (rewrite Hp; apply out_code). rewrite Ho. clear Ho Hs Hp Hf.
  destruct c; try discriminate Hc; unfold andx_of in *; cbn [msg_of m_body msg_tree_connect msg_tree_disconnect msg_open msg_close msg_read
    msg_transact msg_transact2 msg_negotiate msg_session_setup m_andx opcode] in *.
  - do 3 right. left. split; [reflexivity|apply unchained_and].
  - do 3 right. left. split; [reflexivity|apply unchained_and].
  - right. left. reflexivity.
  - do 6 right. left. split; [reflexivity|]. split; [apply unchained_and|]. exists false.
    destruct (@open_words 0x00100009 1 0x40 path pw d _ Hb eq_refl eq_refl) as (H1 & H2 & H3).
    exists 0x00100009, 0x40. split; [exact H1|]. split; [exact H2|]. split; [exact bits_file|]. split; [exact H3|]. repeat split.
  - do 6 right. left. split; [reflexivity|]. split; [apply unchained_and|]. exists true.
    destruct (@open_words 1 7 1 path pw d _ Hb eq_refl eq_refl) as (H1 & H2 & H3).
    exists 1, 1. split; [exact H1|]. split; [exact H2|]. split; [exact bits_dir|]. split; [exact H3|]. repeat split.
  - do 5 right. left. split; [reflexivity|]. apply ok_pair in Hb. destruct Hb as [<- _]. cbn [app]. fdone.
  - do 4 right. left. split; [reflexivity|apply unchained_and].
  - do 8 right. split; [reflexivity|]. apply transact_body_ok in Hb. destruct Hb as (_ & _ & _ & _ & _ & -> & _). cbn [app t_id]. fdone.
  - do 8 right. split; [reflexivity|]. apply transact_body_ok in Hb. destruct Hb as (_ & _ & _ & _ & _ & -> & _). cbn [app t_id]. fdone.
  - do 7 right. left. split; [reflexivity|]. apply transact2_body_ok in Hb. destruct Hb as (_ & _ & _ & -> & _). cbn [app t2_setup]. split; [fdone|left; fdone].
  - do 7 right. left. split; [reflexivity|]. apply transact2_body_ok in Hb. destruct Hb as (_ & _ & _ & -> & _). cbn [app t2_setup]. split; [fdone|right; fdone].
  - left. reflexivity.
  - do 2 right. left. split; [reflexivity|apply unchained_and].
  - do 2 right. left. split; [reflexivity|apply unchained_and].
Qed.
Lemma request_harmful E fuel st R (c : call R) f : removes c = true -> request (exec E fuel c) st = Some f -> ~ harmless f.
Proof.
  intros Hc Hr (p' & words & data & Hf & _ & Hn). apply request_inv in Hr. destruct Hr as (p & pw & d & Hf' & _ & Hp & _).
  assert (p' = p) as -> by (rewrite Hf in Hf'; exact (f_equal (skipn 4) Hf')).
  assert (Ho : u8_at p 4 = Some (opcode c)) by (rewrite Hp; apply out_code). unfold changes_nothing in Hn. rewrite Ho in Hn.
  destruct c; try discriminate Hc; cbn [opcode] in Hn;
    repeat (destruct Hn as [Hn|Hn]; [first [discriminate Hn|destruct Hn as [Hn _]; discriminate Hn]|]); destruct Hn as [Hn _]; discriminate Hn.
Qed.

Section Server.
Variable Sv : Type.
Variable react : Sv -> bytes -> reaction Sv.
Variable E : env.
Lemma call_harmless fuel R (c : call R) w : removes c = false ->
  exists l, tx (final (run react (exec E fuel c) w)) = tx w ++ l /\ Forall harmless_part l.
Proof.
  intros Hc. destruct (call_once react E fuel c w) as (l & Hx & Hw). exists l. split; [exact Hx|].
  destruct Hw as [f Hf|f n Hf|Hf Hm|Hm]; [| |constructor|constructor].
  - constructor; [|constructor]. exists f. split; [exact (request_harmless Hc Hf)|auto].
  - constructor; [|constructor]. exists f. split; [exact (request_harmless Hc Hf)|right; now exists n].
Qed.
Lemma reading_frames A (p : flow A) fuel : reading p -> forall w,
  exists l, tx (final (run react (interp E fuel p) w)) = tx w ++ l /\ Forall harmless_part l.
Proof.
  induction p as [a| | |R c k IH|k IH|u p IH|m u p IH]; intros Hp w; cbn [interp reading] in *.
  - exists []. rewrite app_nil_r. split; [reflexivity|constructor].
  - exists []. rewrite app_nil_r. split; [reflexivity|constructor].
  - exists []. rewrite app_nil_r. split; [reflexivity|constructor].
  - destruct Hp as [Hc Hk]. destruct (call_harmless fuel w Hc) as (l & Hx & Hl). rewrite run_bind.
    destruct (run react (exec E fuel c) w) as [a w1|w1|w1|w1]; cbn [final] in Hx; try (exists l; split; [exact Hx|exact Hl]).
    destruct (IH a (Hk a) w1) as (l2 & H1 & H2). exists (l ++ l2). split; [rewrite app_assoc, <- Hx; exact H1|]. apply Forall_app. auto.
  - apply IH, Hp.
  - destruct (IH Hp (mk_world (set_uid u (cl w)) (srv w) (rx w) (tl w) (tx w))) as (l & H1 & H2). exists l. auto.
  - destruct (IH Hp (mk_world (set_options m u (cl w)) (srv w) (rx w) (tl w) (tx w))) as (l & H1 & H2). exists l. auto.
Qed.
End Server.

(** ** the functions of the crate *)
Lemma reading_bind A B (p : flow A) (k : A -> flow B) : reading p -> (forall a, reading (k a)) -> reading (fbind p k).
Proof.
  intros Hp Hk. induction p as [[a|e]| | |R c f IH|f IH|u p IH|m u p IH]; cbn [fbind reading] in *; auto.
  destruct Hp as [H1 H2]. split; [exact H1|]. intros r. apply IH, H2.
Qed.
Lemma reading_call R (c : call R) : removes c = false -> reading (fcall c).
Proof. intros H. split; [exact H|]. intros r. exact I. Qed.
Lemma reading_lift X A (f : X -> error) (r : res X A) : reading (flift f r).
Proof. destruct r; exact I. Qed.
Lemma reading_reads n h : forall d, reading (download_reads n h d).
Proof.
  induction n as [|n IH]; intros d; cbn [download_reads]; [exact I|]. destruct (_ <? _); [|exact I].
  apply reading_bind; [now apply reading_call|]. intros a. apply IH.
Qed.
Lemma reading_download n s path : reading (download_flow n s path).
Proof.
  apply reading_bind; [now apply reading_call|]. intros h. apply reading_bind; [apply reading_reads|]. intros d.
  apply reading_bind; [now apply reading_call|]. intros u. exact I.
Qed.
Lemma reading_nexts n s sid : forall l, reading (list_nexts n s sid l).
Proof.
  induction n as [|n IH]; intros l; cbn [list_nexts]; [exact I|]. destruct (last _ _); [|exact I].
  apply reading_bind; [now apply reading_call|]. intros r. destruct (fn_end r); [exact I|apply IH].
Qed.
Lemma reading_list n s pattern : reading (list_flow n s pattern).
Proof. apply reading_bind; [now apply reading_call|]. intros r. destruct (ff_end r); [exact I|apply reading_nexts]. Qed.
Lemma reading_setup E : reading (setup_flow E).
Proof.
  apply reading_bind; [now apply reading_call|]. intros s. cbn [reading]. intros c. cbv zeta. destruct (N.testbit _ 31).
  - apply reading_bind; [apply reading_lift|]. intros m. apply reading_bind; [now apply reading_call|]. intros r. cbn [reading].
    apply reading_bind; [apply reading_lift|]. intros ch. apply reading_bind; [apply reading_lift|]. intros m2.
    apply reading_bind; [now apply reading_call|]. intros u. exact I.
  - apply reading_bind; [apply reading_lift|]. intros m. apply reading_bind; [now apply reading_call|]. intros r. exact I.
Qed.
Section Crate.
Variable Sv : Type.
Variable react : Sv -> bytes -> reaction Sv.
Variable E : env.
Definition sends_harmless {A} (p : M A) : Prop :=
  forall w, exists l, tx (final (run react p w)) = tx w ++ l /\ Forall harmless_part l.
Lemma same_harmless A (p : M A) f fuel : same_prog p (interp E fuel f) -> reading f -> sends_harmless p.
Proof. intros Hs Hf w. rewrite (Hs Sv react w). now apply reading_frames. Qed.
Theorem crate_harmless fuel : sends_harmless (setup_connection E fuel)
  /\ (forall s path, sends_harmless (download E fuel s path)) /\ (forall s pattern, sends_harmless (list_dir E fuel s pattern)).
Proof.
  split; [|split].
  - exact (same_harmless (setup_same E fuel) (reading_setup E)).
  - intros s path. exact (same_harmless (download_same E fuel s path) (reading_download fuel s path)).
  - intros s pattern. exact (same_harmless (list_same E fuel s pattern) (reading_list fuel s pattern)).
Qed.
End Crate.
