(** * LengthsFacts: lengths do not depend on the password (C91) *)
From Coq Require Import Lia.
From Verif Require Import Base Text Utils Win Errors Info Common Msg Reply Ntlm Prog Client Spec SpecReply SpecCrash
  SpecNtlm Api SpecCall Flow BaseFacts TextFacts RunFacts SpecFacts InfoFacts ClientFacts MsgFacts CallFacts
  FlowFacts NtlmFacts SpecLogin TwinFacts SpecLengths.
Open Scope N_scope.
Set Implicit Arguments.
Unset Strict Implicit.

(** programs that look the same *)
Inductive lsim {A B} (R : A -> B -> Prop) : prog cifs A -> prog cifs B -> Prop :=
| ls_ret a b : R a b -> lsim R (Ret a) (Ret b)
| ls_panic : lsim R Panicked Panicked
| ls_fuel : lsim R OutOfFuel OutOfFuel
| ls_get k l : (forall c d, lookalike c d -> lsim R (k c) (l d)) -> lsim R (Get k) (Get l)
| ls_put c d k l : lookalike c d -> lsim R k l -> lsim R (Put c k) (Put d l)
| ls_read n k l : (forall r, lsim R (k r) (l r)) -> lsim R (Read n k) (Read n l)
| ls_write b b' k l : len b = len b' -> (forall r, lsim R (k r) (l r)) -> lsim R (Write b k) (Write b' l).
Notation asim R := (lsim (arel R)).
Lemma lsim_bind A B A' B' (R : A -> A' -> Prop) (S : B -> B' -> Prop) p q f g : lsim R p q ->
  (forall a b, R a b -> lsim S (f a) (g b)) -> lsim S (pbind p f) (pbind q g).
Proof. intros H Hf. induction H; cbn [pbind]; try (constructor; auto). auto. Qed.
Lemma lsim_mbind A B A' B' (R : A -> A' -> Prop) (S : B -> B' -> Prop) (p : M A) (q : M A') f g : asim R p q ->
  (forall a b, R a b -> asim S (f a) (g b)) -> asim S (mbind p f) (mbind q g).
Proof.
  intros H Hf. unfold mbind. apply (lsim_bind H). intros [a|e] [b|e'] Hr; cbn [arel] in Hr; try contradiction; auto.
  constructor. exact Hr.
Qed.
Lemma lsim_get : asim lookalike get get.
Proof. constructor. intros c d H. constructor. exact H. Qed.
Lemma lsim_put c d : lookalike c d -> asim eq (put c) (put d).
Proof. intros H. constructor; [exact H|]. constructor. reflexivity. Qed.
Lemma lsim_blind A (p : M A) : blind p -> asim eq p p.
Proof. intros H. induction H; constructor; auto. apply arel_eq. Qed.

(** results that look the same *)
Definition rrel {X A} (R : A -> A -> Prop) (x y : res X A) : Prop :=
  match x, y with Ok a, Ok b => R a b | Err e, Err e' => e = e' | Panic, Panic => True | _, _ => False end.
Definition samelen (a b : bytes) : Prop := len a = len b.
Lemma rrel_bind X A B (R : A -> A -> Prop) (S : B -> B -> Prop) (x y : res X A) f g : rrel R x y ->
  (forall a b, R a b -> rrel S (f a) (g b)) -> rrel S (rbind x f) (rbind y g).
Proof. destruct x, y; cbn; intros H Hf; try contradiction; auto. Qed.
Lemma lift_rel X A (R : A -> A -> Prop) (f : X -> error) (x y : res X A) : rrel R x y -> asim R (lift f x) (lift f y).
Proof. destruct x, y; cbn; intros H; try contradiction; constructor; [exact H|now subst]. Qed.
Lemma rrel_eq X A (x : res X A) : rrel eq x x.
Proof. destruct x; cbn; auto. Qed.

Definition samelen2 (a b : bytes * bytes) : Prop := len (fst a) = len (fst b) /\ len (snd a) = len (snd b).
Lemma write_look m m' i n : m_andx m = m_andx m' -> rrel samelen2 (m_body m i) (m_body m' i) ->
  rrel samelen (msg_write m i n) (msg_write m' i n).
Proof.
  intros Ha Hb. unfold msg_write. rewrite <- Ha. cbv zeta. apply (rrel_bind Hb). intros [p d] [p' d'] [Hp Hd]. cbn [fst snd] in Hp, Hd.
  rewrite !len_app, Hp. apply rrel_bind with (R := eq); [apply rrel_eq|]. intros k ? <-. destruct (_ <? _); [reflexivity|]. 
  rewrite !len_app, Hp, Hd.
  apply rrel_bind with (R := eq); [apply rrel_eq|]. intros j ? <-. destruct (_ <? _); [reflexivity|].
  cbn [rrel]. unfold samelen. rewrite !len_app, Hp, Hd. reflexivity.
Qed.
Lemma send_frame_look b b' : len b = len b' -> asim eq (send_message b) (send_message b').
Proof.
  intros H. unfold send_message, nb_send. apply lsim_mbind with (R := samelen).
  - apply lift_rel. unfold frame_encode. rewrite <- H. destruct (_ <? _); [reflexivity|].
    apply rrel_bind with (R := eq); [apply rrel_eq|]. intros n ? <-. cbn [rrel]. unfold samelen. rewrite !len_app, H. reflexivity.
  - intros x y Hx. constructor; [exact Hx|]. intros [e|]; constructor; reflexivity.
Qed.

Section Look.
Variables E F : env.
Hypothesis clk : same_clock E F.

Lemma send_look m m' : m_cmd m = m_cmd m' -> m_andx m = m_andx m' -> m_fix m = m_fix m' ->
  (forall i, rrel samelen2 (m_body m i) (m_body m' i)) -> asim eq (send E m) (send F m').
Proof.
  intros Hc Ha Hf Hb. unfold send. apply (lsim_mbind lsim_get). intros c d T. pose proof T as (Hs & Hm & Hu & Hi & Hd). cbv zeta.
  destruct clk as [_ Ho]. rewrite Hd, Ho. destruct (_ && _); [constructor|].
  apply lsim_mbind with (R := eq); [apply lsim_put; unfold lookalike, set_mid; cbn; auto|]. intros _ _ _.
  rewrite Hu, Hi, Hc, Hf. apply lsim_mbind with (R := samelen); [apply lift_rel, write_look; auto|]. intros b b' Hl.
  apply lsim_mbind with (R := eq); [apply send_frame_look; rewrite !len_app; unfold samelen in Hl; lia|]. intros _ _ _.
  constructor. reflexivity.
Qed.
Lemma body_same (m : msg) i : rrel samelen2 (m_body m i) (m_body m i).
Proof. destruct (m_body m i) as [[p d]|e|]; cbn; auto. split; reflexivity. Qed.
Lemma call_look f R (c : call R) : asim eq (exec E f c) (exec F f c).
Proof.
  rewrite !exec_send. apply lsim_mbind with (R := eq); [apply send_look; auto; apply body_same|]. intros a b <-. apply lsim_blind, blind_after.
Qed.
Lemma blob_look f x y : len x = len y -> asim eq (exec E f (SetupBlob x)) (exec F f (SetupBlob y)).
Proof.
  intros H. rewrite !exec_send. apply lsim_mbind with (R := eq).
  - apply send_look; try reflexivity. intros i. cbn [msg_of msg_session_setup m_body]. unfold session_setup_body, session_setup_with. rewrite <- H.
    apply rrel_bind with (R := eq); [apply rrel_eq|]. intros p ? <-. cbn [rrel]. split; cbn [fst snd setup_caps]; [reflexivity|].
    rewrite !len_app, H. reflexivity.
  - intros a b <-. exact (lsim_blind (blind_after f (SetupBlob x) a)).
Qed.
Lemma auth_look f u d x y : len x = len y -> asim eq (exec E f (SetupAuth u d x)) (exec F f (SetupAuth u d y)).
Proof.
  intros H. rewrite !exec_send. apply lsim_mbind with (R := eq).
  - apply send_look; try reflexivity. intros i. cbn [msg_of msg_session_setup m_body]. unfold session_setup_body, session_setup_with. rewrite <- H.
    apply rrel_bind with (R := eq); [apply rrel_eq|]. intros p ? <-. cbn [rrel]. split; cbn [fst snd setup_caps]; [reflexivity|]. cbv zeta.
    rewrite (len_app x x), (len_app y y), <- H. destruct (_ =? 0); rewrite !len_app, H; reflexivity.
  - intros a b <-. exact (lsim_blind (blind_after f (SetupAuth u d x) a)).
Qed.
Lemma hash_16 (K : env) a : len (ntlm_hash K a) = 16.
Proof. unfold ntlm_hash, len. now rewrite md4_len. Qed.
Lemma des_look X k k' ch : len k = len k' -> rrel samelen (@des_oneshot X (des E) k ch) (@des_oneshot X (des F) k' ch).
Proof.
  intros H. unfold des_oneshot, expand_des_key. rewrite <- H. destruct (7 <? _); [exact I|]. cbn [rbind].
  destruct (len ch =? 8); [|exact I]. cbn [rrel]. unfold samelen, len. now rewrite !des_len.
Qed.
Lemma v1_look a b ch : rrel samelen (@ntlmv1_authenticate E ntlm_error a ch) (@ntlmv1_authenticate F ntlm_error b ch).
Proof.
  unfold ntlmv1_authenticate. cbv zeta. pose proof (hash_16 E a) as Ha. pose proof (hash_16 F b) as Hb.
  apply rrel_bind with (R := samelen); [apply des_look; rewrite !len_take; lia|]. intros x x' Hx.
  apply rrel_bind with (R := samelen); [apply des_look; rewrite !len_take, !len_drop; lia|]. intros y y' Hy.
  apply rrel_bind with (R := samelen); [apply des_look; rewrite !len_take, !len_drop; lia|]. intros z z' Hz.
  unfold samelen in *. cbn [rrel]. rewrite !len_app. lia.
Qed.
Lemma v2_look a b ch : rrel samelen (ntlmv2_authenticate E a ch) (ntlmv2_authenticate F b ch).
Proof.
  unfold ntlmv2_authenticate. destruct clk as [-> ->]. apply rrel_bind with (R := eq); [apply rrel_eq|]. intros t ? <-. cbv zeta. cbn [rrel].
  unfold samelen, len. rewrite !app_length, !hmac_len, !rnd_len. reflexivity.
Qed.
Lemma response_look a b ch : same_name a b -> rrel samelen (challenge_response E ch a) (challenge_response F ch b).
Proof.
  intros (Hu & Hw & Hd). rewrite !challenge_response_eq, <- Hu, <- Hw, <- Hd. apply (rrel_bind (v2_look a b ch)). intros x y Hxy. cbv zeta.
  rewrite !response_packet_eq. unfold samelen in Hxy. rewrite <- Hxy. destruct (_ && _ && _ && _); cbn [rrel]; [|reflexivity].
  unfold samelen, response_bytes. rewrite !len_app, Hxy. reflexivity.
Qed.
Lemma setup_look f : asim eq (setup_connection E f) (setup_connection F f).
Proof.
  unfold setup_connection. apply lsim_mbind with (R := eq); [exact (call_look f Negotiate)|]. intros s ? <-.
  apply (lsim_mbind lsim_get). intros c d T. 
  apply lsim_mbind with (R := eq).
  { apply lsim_put. destruct T as (Hs & Hm & Hu & Hi & Hd). unfold lookalike, set_options. cbn. auto. }
  intros _ _ _. clear c d T. destruct (contains _ _).
  - unfold authenticate_ntlmv2. apply (lsim_mbind lsim_get). intros c d T. cbv zeta. destruct T as (Hs & _).
    pose proof Hs as (Hu & Hw & Hd). rewrite <- Hw, <- Hd.
    apply lsim_mbind with (R := eq); [apply lsim_blind, blind_lift|]. intros m ? <-.
    apply lsim_mbind with (R := eq); [exact (call_look f (SetupBlob m))|]. intros r ? <-.
    apply (lsim_mbind lsim_get). intros c' d' T. apply lsim_mbind with (R := eq).
    { apply lsim_put. destruct T as (Hs' & Hm & Hu' & Hi & Hd'). unfold lookalike, set_uid. cbn. auto. }
    intros _ _ _. apply lsim_mbind with (R := eq); [apply lsim_blind, blind_lift|]. intros ch ? <-.
    apply lsim_mbind with (R := samelen); [apply lift_rel, response_look, Hs|]. intros x y Hxy.
    apply lsim_mbind with (R := eq); [exact (blob_look f Hxy)|]. intros r3 ? <-. constructor. reflexivity.
  - unfold authenticate_ntlm. apply (lsim_mbind lsim_get). intros c d T. destruct T as (Hs & _).
    destruct Hs as (Hu & Hw & Hd). rewrite <- Hu, <- Hd.
    apply lsim_mbind with (R := samelen); [apply lift_rel, v1_look|]. intros x y Hxy.
    apply lsim_mbind with (R := eq); [exact (auth_look f _ _ Hxy)|]. intros r ? <-.
    apply (lsim_mbind lsim_get). intros c' d' T.
    apply lsim_put. destruct T as (Hs' & Hm & Hu' & Hi & Hd'). unfold lookalike, set_uid. cbn. auto.
Qed.
Lemma interp_look f A (p : flow A) : user p -> asim eq (interp E f p) (interp F f p).
Proof.
  intros H. induction H; cbn [interp]; try constructor; [apply arel_eq|]. 
  apply (lsim_bind (call_look f c)). intros a b Hr. assert (a = b) as ->; [|auto].
  destruct a, b; cbn [arel] in Hr; try contradiction; now subst.
Qed.
End Look.

Section Server.
Variable Sv : Type.
Variable react : Sv -> bytes -> reaction Sv.
Hypothesis cnt : counting react.
Notation world := (world cifs Sv).
Definition lrel {A B} (R : A -> B -> Prop) (o : outcome cifs Sv A) (q : outcome cifs Sv B) : Prop :=
  match o, q with
  | Done a w, Done b v => R a b /\ lookalikes w v
  | Blocked w, Blocked v | Crashed w, Crashed v | Starved w, Starved v => lookalikes w v
  | _, _ => False
  end.
Lemma look_run A B (R : A -> B -> Prop) p q : lsim R p q -> forall w v : world, lookalikes w v ->
  lrel R (run react p w) (run react q v).
Proof.
  intros H. induction H; intros w v T; cbn [run lrel]; try exact T; auto.
  - apply H0; [apply T|exact T].
  - apply IHlsim. destruct T as (_ & T). split; [assumption|exact T].
  - destruct T as (T & Hs & Hx & Ht & Hw). rewrite <- Hx, <- Ht.
    assert (forall r, lookalikes (mk_world (cl w) (srv w) r (tl w) (tx w)) (mk_world (cl v) (srv v) r (tl w) (tx v))) as T2
     by (intros r; repeat split; assumption || apply T).
    destruct (_ <=? _); [apply H0, T2|]. destruct (tl w); [apply T2|apply H0, T2|apply H0, T2].
  - destruct T as (T & Hs & Hx & Ht & Hw). rewrite <- Hs, <- Hx, <- Ht, (cnt (srv w) H).
    destruct (react (srv w) b') as [s inc t|s n e inc t]; destruct (deliver _ _ _ _) as [buf t']; apply H1;
     (split; [exact T|]); repeat (split; [reflexivity|]); cbn [tx]; rewrite !map_app, Hw; cbn [map]; rewrite ?len_take, H; reflexivity.
Qed.
Lemma look_same A (p q : M A) : asim eq p q -> forall w v : world, lookalikes w v -> same_look (run react p w) (run react q v).
Proof.
  intros H w v T. pose proof (look_run H T) as Hr. unfold lrel in Hr. unfold same_look.
  destruct (run react p w) as [a x|x|x|x], (run react q v) as [b y|y|y|y]; try exact Hr.
  destruct Hr as [Hr Hw]. split; [|exact Hw]. destruct a, b; cbn [arel] in Hr; try contradiction; now subst.
Qed.
Lemma later_look E F f A (p : flow A) w v : same_clock E F -> user p -> lookalikes w v ->
  same_look (run react (interp E f p) w) (run react (interp F f p) v).
Proof.
  intros Hk H. apply look_same. now apply interp_look.
Qed.
Lemma open_look E F (net : N -> connection Sv) f port a b : same_clock E F -> same_name a b ->
  match open E Sv net react f port (Some a), open F Sv net react f port (Some b) with
  | (p, NoConnection e), (q, NoConnection e') => p = q /\ e = e'
  | (p, OnStream o), (q, OnStream o') => p = q /\ same_look o o'
  | _, _ => False
  end.
Proof.
  intros Hk H. assert (Ts : forall st, lookalikes (start Sv a st) (start Sv b st)) by (intros st; repeat split; apply H).
  assert (Hset : forall w v, lookalikes w v -> same_look (run react (setup_connection E f) w) (run react (setup_connection F f) v))
    by (apply look_same, setup_look, Hk).
  unfold open. destruct port as [p|].
  - destruct (net p) as [st|e]; [|auto]. split; [reflexivity|]. apply Hset, Ts.
  - destruct (net 445) as [st|e]; [split; [reflexivity|]; apply Hset, Ts|].
    destruct (net 139) as [st|e']; [|auto]. split; [reflexivity|]. destruct H as (_ & Hw & _). rewrite Hw.
    apply look_same; [|apply Ts]. apply lsim_mbind with (R := eq); [apply lsim_blind, blind_create_session|]. intros _ _ _. apply setup_look, Hk.
Qed.
End Server.
