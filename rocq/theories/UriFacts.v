(** * UriFacts: the regular expression of resolve_smb_uri *)
From Coq Require Import String.
From Verif Require Import Base Text Errors BaseFacts Uri SpecUri.
Open Scope N_scope.
Open Scope list_scope.

(** ** What a regular expression matches *)
Inductive den : re -> caps -> text -> caps -> text -> Prop :=
| den_chr p c x t : p x = true -> den (Chr p) c (x :: t) c t
| den_star p c l t : Forall (fun x => p x = true) l -> den (Star p) c (l ++ t) c t
| den_plus p c x l t : Forall (fun x => p x = true) (x :: l) -> den (Plus p) c (x :: l ++ t) c t
| den_opt r c s c' t : den r c s c' t -> den (Opt r) c s c' t
| den_skip r c s : den (Opt r) c s c s
| den_seq a b c s c1 s1 c2 t : den a c s c1 s1 -> den b c1 s1 c2 t -> den (Seq a b) c s c2 t
| den_cap n r c s c' t : den r c s c' t -> den (Cap n r) c s (set_cap n (firstn (length s - length t) s) c') t.

Lemma star_sound p s k c : star p s k = Some c ->
  exists l t, s = l ++ t /\ Forall (fun x => p x = true) l /\ k t = Some c.
Proof.
  induction s as [|x s IH]; cbn; intros H.
  - exists [], []. auto.
  - destruct (p x) eqn:P; [destruct (star p s k) eqn:S|].
    + destruct (IH H) as (l & t & -> & F & K). exists (x :: l), t. auto.
    + exists [], (x :: s). auto.
    + exists [], (x :: s). auto.
Qed.
Lemma star_complete p l t k c : Forall (fun x => p x = true) l -> k t = Some c -> exists c', star p (l ++ t) k = Some c'.
Proof.
  intros F K. induction F as [|x l P F IH]; cbn.
  - destruct t as [|x t]; cbn; [eauto|]. destruct (p x); [|eauto]. destruct (star p t k); eauto.
  - rewrite P. destruct IH as (c' & ->). eauto.
Qed.
Lemma matches_sound r : forall c s k c', matches r c s k = Some c' -> exists c1 t, den r c s c1 t /\ k c1 t = Some c'.
Proof.
  induction r as [p|p|p|r IH|a IHa b IHb|n r IH]; cbn [matches]; intros c s k c' H.
  - destruct s as [|x t]; [discriminate|]. destruct (p x) eqn:P; [|discriminate]. exists c, t. split; [now constructor|exact H].
  - apply star_sound in H as (l & t & -> & F & K). exists c, t. split; [now constructor|exact K].
  - destruct s as [|x s]; [discriminate|]. destruct (p x) eqn:P; [|discriminate].
    apply star_sound in H as (l & t & -> & F & K). exists c, t. split; [constructor; auto|exact K].
  - destruct (matches r c s k) as [v|] eqn:M.
    + injection H as <-. apply IH in M as (c1 & t & D & K). exists c1, t. split; [now constructor|exact K].
    + exists c, s. split; [apply den_skip|exact H].
  - apply IHa in H as (c1 & s1 & D1 & H). apply IHb in H as (c2 & t & D2 & K). exists c2, t. split; [econstructor; eauto|exact K].
  - apply IH in H as (c1 & t & D & K). eexists _, t. split; [apply den_cap; exact D|exact K].
Qed.
Lemma matches_complete r c s c1 t : den r c s c1 t -> forall k v, k c1 t = Some v -> exists v', matches r c s k = Some v'.
Proof.
  induction 1 as [p c x t P|p c l t F|p c x l t F|r c s c' t D IH|r c s|a b c s c1 s1 c2 t D1 IH1 D2 IH2|n r c s c' t D IH];
    cbn [matches]; intros k v K.
  - rewrite P. eauto.
  - now apply (star_complete _ _ _ _ v).
  - inversion_clear F as [|? ? P F']. rewrite P. now apply (star_complete _ _ _ _ v).
  - destruct (IH k v K) as (v' & ->). eauto.
  - destruct (matches r c s k); eauto.
  - destruct (IH2 k v K) as (v' & K'). exact (IH1 (fun c t => matches b c t k) v' K').
  - exact (IH (fun c t => k (set_cap n (firstn (length s - length t) s) c) t) v K).
Qed.

(** ** The first match of a class is the longest if what follows accepts it *)
Definition stops (p : N -> bool) (t : text) : Prop := match t with [] => True | x :: _ => p x = false end.
Lemma star_longest p l t k c : Forall (fun x => p x = true) l -> stops p t -> k t = Some c -> star p (l ++ t) k = Some c.
Proof.
  intros F S K. induction F as [|x l P F IH]; cbn.
  - destruct t as [|x t]; cbn in *; [exact K|]. now rewrite S.
  - now rewrite P, IH.
Qed.
(** nothing else is accepted *)

(** ** Characters *)
Section Unicode.
Variables word digit : N -> bool.
Notation W := (word_char word).
Notation D := (any_digit digit).
Lemma is_word_ok c : is_word word c = true <-> W c.
Proof. unfold is_word, word_char. destruct (c <? 128) eqn:H; destruct (word c); lia. Qed.
Lemma is_digit_ok c : is_digit digit c = true <-> D c.
Proof. unfold is_digit, any_digit, digit_char. destruct (c <? 128) eqn:H; destruct (digit c); lia. Qed.
Lemma user_char_ok c : user_char word c = true <-> W c \/ one_of ".+-" c.
Proof.
  unfold user_char, one_of. cbn. rewrite <- is_word_ok. assert (c = 95 -> is_word word c = true) by (intros ->; reflexivity).
  destruct (is_word word c); lia.
Qed.
Lemma host_char_ok c : host_char word c = true <-> W c \/ one_of ".-" c.
Proof. unfold host_char, one_of. cbn. rewrite <- is_word_ok. destruct (is_word word c); lia. Qed.
Lemma share_char_ok c : share_char word c = true <-> W c \/ one_of ".-" c.
Proof.
  unfold share_char, one_of. cbn. rewrite <- is_word_ok. assert (c = 95 -> is_word word c = true) by (intros ->; reflexivity).
  destruct (is_word word c); lia.
Qed.
Lemma not_at_ok l : Forall (fun x => not_at x = true) l <-> ~ In 64 l.
Proof.
  rewrite Forall_forall. unfold not_at. split.
  - intros F I. specialize (F _ I). discriminate.
  - intros I x Hx. destruct (N.eqb_spec x 64) as [->|]; [contradiction|reflexivity].
Qed.
Lemma any_ok l : Forall (fun x => any x = true) l <-> ~ In 10 l.
Proof.
  rewrite Forall_forall. unfold any. split.
  - intros F I. specialize (F _ I). discriminate.
  - intros I x Hx. destruct (N.eqb_spec x 10) as [->|]; [contradiction|reflexivity].
Qed.
Lemma Forall_iff' A (P Q : A -> Prop) l : (forall x, P x <-> Q x) -> Forall P l <-> Forall Q l.
Proof. intros H. rewrite !Forall_forall. firstorder. Qed.

(** ** Reading the expression as the grammar *)
Lemma den_chr_iff p c s c1 t : den (Chr p) c s c1 t <-> exists x, s = x :: t /\ p x = true /\ c1 = c.
Proof. split; [intros H; inversion H; subst; eauto|intros (x & -> & P & ->); now constructor]. Qed.
Lemma den_lit_iff x c s c1 t : den (lit x) c s c1 t <-> s = x :: t /\ c1 = c.
Proof.
  unfold lit. rewrite den_chr_iff. split; [intros (y & -> & P & ->); apply N.eqb_eq in P as ->; auto|].
  intros (-> & ->). exists x. rewrite N.eqb_refl. auto.
Qed.
Lemma den_star_iff p c s c1 t : den (Star p) c s c1 t <-> exists l, s = l ++ t /\ Forall (fun x => p x = true) l /\ c1 = c.
Proof. split; [intros H; inversion H; subst; eauto|intros (l & -> & P & ->); now constructor]. Qed.
Lemma den_plus_iff p c s c1 t : den (Plus p) c s c1 t <-> exists l, s = l ++ t /\ (nonempty l /\ Forall (fun x => p x = true) l) /\ c1 = c.
Proof.
  split.
  - intros H; inversion H as [| |q c0 x l t' F| | | |]; subst. exists (x :: l). repeat split; [discriminate|exact F].
  - intros (l & -> & (N & F) & ->). destruct l as [|x l]; [now destruct N|]. now constructor.
Qed.
Lemma den_seq_iff a b c s c2 t : den (Seq a b) c s c2 t <-> exists c1 s1, den a c s c1 s1 /\ den b c1 s1 c2 t.
Proof. split; [intros H; inversion H; subst; eauto|intros (c1 & s1 & H1 & H2); econstructor; eauto]. Qed.
Lemma den_opt_iff r c s c1 t : den (Opt r) c s c1 t <-> den r c s c1 t \/ (c1 = c /\ t = s).
Proof. split; [intros H; inversion H; subst; auto|intros [H|(-> & ->)]; [now apply den_opt|apply den_skip]]. Qed.
Lemma den_cap_iff n r c s c1 t : den (Cap n r) c s c1 t <->
  exists c', den r c s c' t /\ c1 = set_cap n (firstn (length s - length t) s) c'.
Proof. split; [intros H; inversion H; subst; eauto|intros (c' & H & ->); now constructor]. Qed.
Lemma captured (l t : text) : firstn (length (l ++ t) - length t) (l ++ t) = l.
Proof. rewrite app_length, Nat.add_sub, firstn_app, Nat.sub_diag, firstn_all, firstn_O. apply app_nil_r. Qed.

Definition agrees (c : caps) (u : parts) : Prop :=
  c Domain = u_domain u /\ c User = u_user u /\ c Passwd = u_password u /\ c Host = Some (u_host u)
  /\ c Port = u_port u /\ c Share = Some (u_share u) /\ c Path = u_path u.
Notation V := (valid word D).

Lemma den_named p n c s c1 t : den (Cap n (Plus p)) c s c1 t <->
  exists l, s = l ++ t /\ (nonempty l /\ Forall (fun x => p x = true) l) /\ c1 = set_cap n l c.
Proof.
  rewrite den_cap_iff. split.
  - intros (c' & H & ->). apply den_plus_iff in H as (l & -> & F & ->). exists l. rewrite captured. auto.
  - intros (l & -> & F & ->). exists c. rewrite captured. split; [|reflexivity]. apply den_plus_iff. eauto.
Qed.
Lemma den_named_star p n c s c1 t : den (Cap n (Star p)) c s c1 t <->
  exists l, s = l ++ t /\ Forall (fun x => p x = true) l /\ c1 = set_cap n l c.
Proof.
  rewrite den_cap_iff. split.
  - intros (c' & H & ->). apply den_star_iff in H as (l & -> & F & ->). exists l. rewrite captured. auto.
  - intros (l & -> & F & ->). exists c. rewrite captured. split; [|reflexivity]. apply den_star_iff. eauto.
Qed.
Lemma den_host p q n c s c1 t : den (Cap n (Seq (Chr p) (Star q))) c s c1 t <->
  exists l, s = l ++ t /\ (exists x r, l = x :: r /\ p x = true /\ Forall (fun x => q x = true) r) /\ c1 = set_cap n l c.
Proof.
  rewrite den_cap_iff. split.
  - intros (c' & H & ->). apply den_seq_iff in H as (c2 & s2 & H1 & H2). apply den_chr_iff in H1 as (x & -> & P & ->).
    apply den_star_iff in H2 as (l & -> & F & ->). exists (x :: l). change (x :: l ++ t) with ((x :: l) ++ t). rewrite captured. split; [reflexivity|]. split; [|reflexivity]. exists x, l. auto.
  - intros (l & -> & (x & r & -> & P & F) & ->). exists c. rewrite captured. split; [|reflexivity].
    apply den_seq_iff. exists c, (r ++ t). split; [apply den_chr_iff; exists x; auto|apply den_star_iff; exists r; auto].
Qed.

(** the parts of the expression *)
Definition re_domain : re := Opt (Seq (Cap Domain (Plus (is_word word))) (lit 59)).
Definition re_user : re := Opt (Seq (Cap User (Plus (user_char word))) (Seq (Opt (Seq (lit 58) (Cap Passwd (Star not_at)))) (lit 64))).
Definition re_host : re := Cap Host (Seq (Chr (is_word word)) (Star (host_char word))).
Definition re_port : re := Opt (Seq (lit 58) (Cap Port (Plus (is_digit digit)))).
Definition re_share : re := Cap Share (Plus (share_char word)).
Definition re_path : re := Opt (Seq (lit 47) (Cap Path (Star any))).
Lemma regex_parts : uri_regex word digit =
  Seq (lit 115) (Seq (lit 109) (Seq (lit 98) (Seq (lit 58) (Seq (lit 47) (Seq (lit 47)
   (Seq re_domain (Seq re_user (Seq re_host (Seq re_port (Seq (lit 47) (Seq re_share re_path))))))))))).
Proof. reflexivity. Qed.

Definition bind_opt (n : name) (o : option text) (c : caps) : caps := match o with Some v => set_cap n v c | None => c end.
Definition caps_of (u : parts) : caps :=
  bind_opt Path (u_path u) (set_cap Share (u_share u) (bind_opt Port (u_port u) (set_cap Host (u_host u)
   (bind_opt Passwd (u_password u) (bind_opt User (u_user u) (bind_opt Domain (u_domain u) no_caps)))))).
Lemma caps_agree u : agrees (caps_of u) u.
Proof. destruct u as [[d|] [us|] [pw|] h [p|] s [pa|]]; repeat split; reflexivity. Qed.

Lemma den_domain c s c1 t : den re_domain c s c1 t <->
  exists o, s = part "" o ";" ++ t /\ given o (fun x => nonempty x /\ Forall W x) /\ c1 = bind_opt Domain o c.
Proof.
  unfold re_domain. rewrite den_opt_iff, den_seq_iff. split.
  - intros [(c2 & s2 & H1 & H2)|(-> & ->)]; [|exists None; cbn; auto].
    apply den_named in H1 as (l & -> & F & ->). apply den_lit_iff in H2 as (-> & ->). exists (Some l).
    rewrite (Forall_iff' _ _ _ _ is_word_ok) in F. cbn. rewrite <- app_assoc. auto.
  - intros ([l|] & -> & F & ->); [left|right; auto]. cbn in F |- *. rewrite <- app_assoc. exists (set_cap Domain l c), (59 :: t).
    rewrite den_lit_iff, den_named. rewrite <- (Forall_iff' _ _ _ _ is_word_ok) in F. split; [exists l; auto|auto].
Qed.
Lemma den_user c s c1 t : den re_user c s c1 t <->
  exists o p, s = match o with None => [] | Some x => x ++ part ":" p "" ++ txt "@" end ++ t
  /\ given o (fun x => nonempty x /\ Forall (fun c => W c \/ one_of ".+-" c) x) /\ (o = None -> p = None)
  /\ given p (fun x => ~ In 64 x) /\ c1 = bind_opt Passwd p (bind_opt User o c).
Proof.
  unfold re_user. rewrite den_opt_iff, den_seq_iff. split.
  - intros [(c2 & s2 & H1 & H2)|(-> & ->)]; [|exists None, None; cbn; auto].
    apply den_named in H1 as (l & -> & F & ->). rewrite (Forall_iff' _ _ _ _ user_char_ok) in F.
    apply den_seq_iff in H2 as (c3 & s3 & H2 & H3). apply den_lit_iff in H3 as (-> & ->).
    apply den_opt_iff in H2 as [H2|(-> & <-)].
    + apply den_seq_iff in H2 as (c4 & s4 & H3 & H4). apply den_lit_iff in H3 as (-> & ->).
      apply den_named_star in H4 as (p & -> & G & ->). rewrite not_at_ok in G. exists (Some l), (Some p). cbn.
      rewrite <- !app_assoc. cbn. rewrite <- !app_assoc. split; [reflexivity|]. split; [exact F|]. split; [discriminate|]. split; [exact G|reflexivity].
    + exists (Some l), None. cbn. rewrite <- !app_assoc. split; [reflexivity|]. split; [exact F|]. split; [discriminate|]. split; [exact I|reflexivity].
  - intros ([l|] & p & -> & F & N & G & ->); [left|right; rewrite N; auto].
    cbn in F. rewrite <- (Forall_iff' _ _ _ _ user_char_ok) in F. exists (set_cap User l c), ((part ":" p "" ++ txt "@") ++ t).
    rewrite den_named, den_seq_iff. split; [exists l; rewrite <- !app_assoc; auto|].
    exists (bind_opt Passwd p (set_cap User l c)), (64 :: t). rewrite den_lit_iff. split; [|auto]. rewrite den_opt_iff.
    destruct p as [p|]; [left|right; auto]. rewrite den_seq_iff. cbn in G. rewrite <- not_at_ok in G.
    exists (set_cap User l c), (p ++ 64 :: t). rewrite den_lit_iff, den_named_star. split; [|exists p; auto].
    cbn. rewrite <- !app_assoc. auto.
Qed.
Lemma den_port c s c1 t : den re_port c s c1 t <->
  exists o, s = part ":" o "" ++ t /\ given o (fun x => nonempty x /\ Forall D x) /\ c1 = bind_opt Port o c.
Proof.
  unfold re_port. rewrite den_opt_iff, den_seq_iff. split.
  - intros [(c2 & s2 & H1 & H2)|(-> & ->)]; [|exists None; cbn; auto].
    apply den_lit_iff in H1 as (-> & ->). apply den_named in H2 as (l & -> & F & ->). exists (Some l).
    rewrite (Forall_iff' _ _ _ _ is_digit_ok) in F. cbn. rewrite <- app_assoc. auto.
  - intros ([l|] & -> & F & ->); [left|right; auto]. cbn in F |- *. rewrite <- app_assoc. exists c, (l ++ t).
    rewrite den_lit_iff, den_named. rewrite <- (Forall_iff' _ _ _ _ is_digit_ok) in F. split; [auto|exists l; auto].
Qed.
Lemma den_path c s c1 t : den re_path c s c1 t <->
  exists o, s = part "/" o "" ++ t /\ given o (fun x => ~ In 10 x) /\ c1 = bind_opt Path o c.
Proof.
  unfold re_path. rewrite den_opt_iff, den_seq_iff. split.
  - intros [(c2 & s2 & H1 & H2)|(-> & ->)]; [|exists None; cbn; auto].
    apply den_lit_iff in H1 as (-> & ->). apply den_named_star in H2 as (l & -> & F & ->). exists (Some l).
    rewrite any_ok in F. cbn. rewrite <- app_assoc. auto.
  - intros ([l|] & -> & F & ->); [left|right; auto]. cbn in F |- *. rewrite <- app_assoc. exists c, (l ++ t).
    rewrite den_lit_iff, den_named_star. rewrite <- any_ok in F. split; [auto|exists l; auto].
Qed.
Lemma den_hosts c s c1 t : den re_host c s c1 t <->
  exists l, s = l ++ t /\ (exists x r, l = x :: r /\ W x /\ Forall (fun c => W c \/ one_of ".-" c) r) /\ c1 = set_cap Host l c.
Proof.
  unfold re_host. rewrite den_host. split; intros (l & -> & (x & r & -> & P & F) & ->); exists (x :: r); (split; [reflexivity|]; split; [|reflexivity]);
    exists x, r; (split; [reflexivity|]); split; try (now apply is_word_ok); now apply (Forall_iff' _ _ _ _ host_char_ok).
Qed.
Lemma den_share c s c1 t : den re_share c s c1 t <->
  exists l, s = l ++ t /\ (nonempty l /\ Forall (fun c => W c \/ one_of ".-" c) l) /\ c1 = set_cap Share l c.
Proof.
  unfold re_share. rewrite den_named. split; intros (l & -> & (N & F) & ->); exists l; (split; [reflexivity|]; split; [|reflexivity]);
    split; auto; now apply (Forall_iff' _ _ _ _ share_char_ok).
Qed.
Theorem den_uri s c t : den (uri_regex word digit) no_caps s c t <->
  exists u, V u /\ s = written u ++ t /\ c = caps_of u.
Proof.
  rewrite regex_parts. split.
  - intros H. do 6 (apply den_seq_iff in H as (? & ? & L & H); apply den_lit_iff in L as (-> & ->)).
    apply den_seq_iff in H as (? & ? & H1 & H). apply den_domain in H1 as (d & -> & Fd & ->).
    apply den_seq_iff in H as (? & ? & H1 & H). apply den_user in H1 as (us & pw & -> & Fu & Nu & Fp & ->).
    apply den_seq_iff in H as (? & ? & H1 & H). apply den_hosts in H1 as (h & -> & Fh & ->).
    apply den_seq_iff in H as (? & ? & H1 & H). apply den_port in H1 as (p & -> & Fpo & ->).
    apply den_seq_iff in H as (? & ? & H1 & H). apply den_lit_iff in H1 as (-> & ->).
    apply den_seq_iff in H as (? & ? & H1 & H). apply den_share in H1 as (sh & -> & Fs & ->).
    apply den_path in H as (pa & -> & Fpa & ->).
    exists (mk_parts d us pw h p sh pa). split; [repeat split; tauto|]. split; [|reflexivity].
    unfold written. cbn [u_domain u_user u_password u_host u_port u_share u_path]. rewrite <- !app_assoc. reflexivity.
  - intros (u & (Fd & Fu & Nu & Fp & Fh & Fpo & Ns & Fs & Fpa) & -> & ->). unfold written, caps_of. rewrite <- !app_assoc.
    do 6 (apply den_seq_iff; eexists _, _; split; [apply den_lit_iff; split; reflexivity|]).
    apply den_seq_iff; eexists _, _; split; [apply den_domain; exists (u_domain u); split; [reflexivity|]; auto|].
    apply den_seq_iff; eexists _, _; split; [apply den_user; exists (u_user u), (u_password u); split; [reflexivity|]; auto|].
    apply den_seq_iff; eexists _, _; split; [apply den_hosts; exists (u_host u); split; [reflexivity|]; auto|].
    apply den_seq_iff; eexists _, _; split; [apply den_port; exists (u_port u); split; [reflexivity|]; auto|].
    apply den_seq_iff; eexists _, _; split; [apply den_lit_iff; split; reflexivity|].
    apply den_seq_iff; eexists _, _; split; [apply den_share; exists (u_share u); split; [reflexivity|]; auto|].
    apply den_path; exists (u_path u). auto.
Qed.

(** ** The match that is found *)
Notation K0 := (fun (c : caps) (_ : text) => Some c).
Definition re_end : re := Seq re_share re_path.
Definition re_tail : re := Seq (lit 47) re_end.
Definition re_where : re := Seq re_host (Seq re_port re_tail).

Lemma matches_seq a b c s k : matches (Seq a b) c s k = matches a c s (fun c t => matches b c t k).
Proof. reflexivity. Qed.
Lemma matches_opt r c s k : matches (Opt r) c s k = match matches r c s k with Some v => Some v | None => k c s end.
Proof. reflexivity. Qed.
Lemma matches_lit x c s k : matches (lit x) c (x :: s) k = k c s.
Proof. cbn. now rewrite N.eqb_refl. Qed.
Lemma matches_none r c s k : matches r c s k = None -> forall c1 t, den r c s c1 t -> k c1 t = None.
Proof.
  intros H c1 t Hd. destruct (k c1 t) as [v|] eqn:K; [|reflexivity]. destruct (matches_complete _ _ _ _ _ Hd _ _ K). congruence.
Qed.
Lemma plus_longest p n l t c k v : nonempty l -> Forall (fun x => p x = true) l -> stops p t -> k (set_cap n l c) t = Some v ->
  matches (Cap n (Plus p)) c (l ++ t) k = Some v.
Proof.
  intros N F S K. destruct l as [|x l]; [now destruct N|]. inversion F as [|? ? P F']; subst. cbn [matches app]. rewrite P.
  apply star_longest; [exact F'|exact S|]. change (x :: l ++ t) with ((x :: l) ++ t). now rewrite captured.
Qed.
Lemma maximal p (s : text) : exists l t, s = l ++ t /\ Forall (fun x => p x = true) l /\ stops p t.
Proof.
  induction s as [|x s (l & t & -> & F & S)]; [exists [], []; repeat constructor|]. destruct (p x) eqn:P.
  - exists (x :: l), t. auto.
  - exists [], (x :: l ++ t). auto.
Qed.
Lemma maximal_unique p (l t l' t' : text) : l ++ t = l' ++ t' -> Forall (fun x => p x = true) l -> Forall (fun x => p x = true) l' ->
  stops p t -> stops p t' -> l = l' /\ t = t'.
Proof.
  intros E F. revert l' E. induction F as [|x l P F IH]; intros l' E F' S S'.
  - destruct F' as [|y l' P' F']; [auto|]. cbn in E. subst t. cbn in S. congruence.
  - destruct F' as [|y l' P' F'].
    + cbn in E. subst t'. cbn in S'. congruence.
    + cbn in E. injection E as <- E. destruct (IH l' E F' S S') as (-> & ->). auto.
Qed.

Lemma end_first l o t c : nonempty l -> Forall (fun c => W c \/ one_of ".-" c) l -> given o (fun x => ~ In 10 x) ->
  (forall d u p h po, ends word (mk_parts d u p h po l o) t) ->
  matches re_end c (l ++ part "/" o "" ++ t) K0 = Some (bind_opt Path o (set_cap Share l c)).
Proof.
  intros N F G E. specialize (E None None None [] None). unfold ends in E. cbn [u_path] in E. unfold re_end, re_share. rewrite matches_seq.
  apply plus_longest; [exact N|now apply (Forall_iff' _ _ _ _ share_char_ok)| |].
  - destruct o as [p|]; cbn; [reflexivity|]. destruct t as [|x t]; cbn; [exact I|].
    destruct (share_char word x) eqn:S; [|reflexivity]. apply share_char_ok in S. destruct E. unfold one_of in *. cbn in *. tauto.
  - unfold re_path. destruct o as [p|]; cbn [matches part txt app map list_ascii_of_string].
    + change (map Ascii.N_of_ascii (list_ascii_of_string "/")) with [47]. change (map Ascii.N_of_ascii (list_ascii_of_string "")) with (@nil N).
      rewrite app_nil_r. cbn [app]. rewrite matches_lit. cbn [matches].
      rewrite (star_longest any p t _ (set_cap Path p (set_cap Share l c))); [reflexivity|now apply any_ok| |now rewrite captured].
      destruct t as [|x t]; cbn; [exact I|]. now rewrite E.
    + cbn [app]. destruct t as [|x t]; [reflexivity|]. unfold lit. cbn [matches].
      destruct (N.eqb_spec x 47) as [->|]; [|reflexivity]. destruct E. right. cbn. tauto.
Qed.
(** what the end of the expression finds *)
Lemma end_found c s v : matches re_end c s K0 = Some v -> exists l o t, s = l ++ part "/" o "" ++ t
  /\ nonempty l /\ Forall (fun c => W c \/ one_of ".-" c) l /\ given o (fun x => ~ In 10 x)
  /\ (forall d u p h po, ends word (mk_parts d u p h po l o) t) /\ v = bind_opt Path o (set_cap Share l c).
Proof.
  intros H. destruct (maximal (share_char word) s) as (l & r & -> & F & S).
  assert (N : nonempty l).
  { intros ->. cbn in H. destruct r as [|x r]; [discriminate|]. cbn in S. now rewrite S in H. }
  assert (F' : Forall (fun c => W c \/ one_of ".-" c) l) by now apply (Forall_iff' _ _ _ _ share_char_ok).
  assert (X : exists o t, r = part "/" o "" ++ t /\ given o (fun x => ~ In 10 x) /\ (forall d u p h po, ends word (mk_parts d u p h po l o) t)).
  { destruct r as [|x r]; [exists None, []; cbn; auto|]. destruct (N.eqb_spec x 47) as [->|Hx].
    - destruct (maximal any r) as (p & t & -> & G & T). exists (Some p), t. cbn. rewrite app_nil_r. split; [reflexivity|].
      split; [now apply any_ok|]. intros. destruct t as [|y t]; cbn; [exact I|]. cbn in T. unfold any in T. destruct (N.eqb_spec y 10); [assumption|discriminate].
    - exists None, (x :: r). cbn. split; [reflexivity|]. split; [exact I|]. intros. unfold ends, stops in *. cbn [u_path].
      intros Hc. assert (share_char word x = true); [|congruence]. apply share_char_ok. destruct Hc as [Hc|Hc]; [auto|]. right. cbn in *. destruct Hc as [Hc|[Hc|[Hc|[]]]]; subst; tauto. }
  destruct X as (o & t & -> & G & E). exists l, o, t. rewrite end_first in H by assumption. injection H as <-. tauto.
Qed.

(** the characters at which components stop *)

Lemma where_first h po l o t c :
  (exists x r, h = x :: r /\ W x /\ Forall (fun c => W c \/ one_of ".-" c) r) -> given po (fun x => nonempty x /\ Forall D x) ->
  nonempty l -> Forall (fun c => W c \/ one_of ".-" c) l -> given o (fun x => ~ In 10 x) ->
  (forall d u p h po, ends word (mk_parts d u p h po l o) t) ->
  matches re_where c (h ++ part ":" po "" ++ txt "/" ++ l ++ part "/" o "" ++ t) K0
  = Some (bind_opt Path o (set_cap Share l (bind_opt Port po (set_cap Host h c)))).
Proof.
  intros (x & r & -> & Hx & Hr) Hpo N F G E. unfold re_where. rewrite matches_seq. unfold re_host. cbn [matches].
  cbn [app]. apply is_word_ok in Hx. rewrite Hx. apply star_longest; [now apply (Forall_iff' _ _ _ _ host_char_ok)| |].
  - destruct po as [p|]; reflexivity.
  - change (x :: r ++ part ":" po "" ++ txt "/" ++ l ++ part "/" o "" ++ t) with ((x :: r) ++ part ":" po "" ++ txt "/" ++ l ++ part "/" o "" ++ t).
    rewrite captured. set (c1 := set_cap Host (x :: r) c).
    assert (T : forall c2, matches re_tail c2 (txt "/" ++ l ++ part "/" o "" ++ t) K0 = Some (bind_opt Path o (set_cap Share l c2))).
    { intros c2. unfold re_tail. rewrite matches_seq. change (txt "/" ++ l ++ part "/" o "" ++ t) with (47 :: l ++ part "/" o "" ++ t).
      rewrite matches_lit. now apply end_first. }
    change (matches (Seq re_port re_tail) c1 (part ":" po "" ++ txt "/" ++ l ++ part "/" o "" ++ t) K0
      = Some (bind_opt Path o (set_cap Share l (bind_opt Port po c1)))).
    rewrite matches_seq. unfold re_port. rewrite matches_opt, matches_seq. destruct po as [p|].
    + cbn [part]. rewrite <- !app_assoc. change (txt ":" ++ p ++ txt "" ++ txt "/" ++ l ++ part "/" o "" ++ t)
        with (58 :: p ++ txt "/" ++ l ++ part "/" o "" ++ t). rewrite matches_lit. destruct Hpo as (Np & Fp).
      erewrite plus_longest; [reflexivity|exact Np|now apply (Forall_iff' _ _ _ _ is_digit_ok)|reflexivity|].
      cbn beta. now rewrite T.
    + exact (T c1).
Qed.

(** the same as a fact about what is matched *)
Lemma den_where c s c1 t : den re_where c s c1 t <-> exists h po l o, s = h ++ part ":" po "" ++ txt "/" ++ l ++ part "/" o "" ++ t
  /\ (exists x r, h = x :: r /\ W x /\ Forall (fun c => W c \/ one_of ".-" c) r) /\ given po (fun x => nonempty x /\ Forall D x)
  /\ nonempty l /\ Forall (fun c => W c \/ one_of ".-" c) l /\ given o (fun x => ~ In 10 x)
  /\ c1 = bind_opt Path o (set_cap Share l (bind_opt Port po (set_cap Host h c))).
Proof.
  split.
  - intros H.
    apply den_seq_iff in H as (? & ? & H1 & H). apply den_hosts in H1 as (h & -> & Fh & ->).
    apply den_seq_iff in H as (? & ? & H1 & H). apply den_port in H1 as (p & -> & Fpo & ->).
    apply den_seq_iff in H as (? & ? & H1 & H). apply den_lit_iff in H1 as (-> & ->).
    apply den_seq_iff in H as (? & ? & H1 & H). apply den_share in H1 as (sh & -> & Fs & ->).
    apply den_path in H as (pa & -> & Fpa & ->). exists h, p, sh, pa. tauto.
  - intros (h & po & l & o & -> & Fh & Fpo & Nl & Fl & Fo & ->).
    apply den_seq_iff; eexists _, _; split; [apply den_hosts; exists h; split; [reflexivity|]; auto|].
    apply den_seq_iff; eexists _, _; split; [apply den_port; exists po; split; [reflexivity|]; auto|].
    apply den_seq_iff; eexists _, _; split; [apply den_lit_iff; split; reflexivity|].
    apply den_seq_iff; eexists _, _; split; [apply den_share; exists l; split; [reflexivity|]; auto|].
    apply den_path; exists o. auto.
Qed.

Definition re_who : re := Seq re_user re_where.
Definition place (u : parts) : text := u_host u ++ part ":" (u_port u) "" ++ txt "/" ++ u_share u ++ part "/" (u_path u) "".
Definition login_part (u : parts) : text :=
  match u_user u with None => [] | Some x => x ++ part ":" (u_password u) "" ++ txt "@" end.
Lemma written_parts u : written u = txt "smb://" ++ part "" (u_domain u) ";" ++ login_part u ++ place u.
Proof. reflexivity. Qed.
Lemma ends_any u t : ends word u t -> forall d us p h po, ends word (mk_parts d us p h po (u_share u) (u_path u)) t.
Proof. intros H d us p h po. exact H. Qed.
Lemma place_first u t c : V u -> ends word u t -> matches re_where c (place u ++ t) K0
  = Some (bind_opt Path (u_path u) (set_cap Share (u_share u) (bind_opt Port (u_port u) (set_cap Host (u_host u) c)))).
Proof.
  intros (Fd & Fu & Nu & Fp & Fh & Fpo & Ns & Fs & Fpa) E. unfold place. rewrite <- !app_assoc.
  apply where_first; try assumption. now apply ends_any.
Qed.
Lemma host_users h : (exists x r, h = x :: r /\ W x /\ Forall (fun c => W c \/ one_of ".-" c) r) ->
  Forall (fun x => user_char word x = true) h.
Proof.
  intros (x & r & -> & Hx & Hr). apply (Forall_iff' _ _ _ _ user_char_ok). constructor; [auto|].
  eapply Forall_impl; [|exact Hr]. cbn. intros c [H|H]; [auto|]. right. unfold one_of in *. cbn in *. tauto.
Qed.
Lemma user_given u t c v : V u -> u_user u <> None ->
  matches re_where (bind_opt Passwd (u_password u) (bind_opt User (u_user u) c)) t K0 = Some v ->
  matches re_who c (login_part u ++ t) K0 = Some v.
Proof.
  intros (Fd & Fu & Nu & Fp & Fh & Fpo & Ns & Fs & Fpa) Hu H. unfold re_who, re_user, login_part in *. rewrite matches_seq, matches_opt, matches_seq.
  destruct (u_user u) as [x|]; [|now destruct Hu]. cbn [given bind_opt] in *. destruct Fu as (Nx & Fx).
  rewrite <- !app_assoc. erewrite plus_longest; [reflexivity|exact Nx|now apply (Forall_iff' _ _ _ _ user_char_ok)| |].
  - destruct (u_password u); reflexivity.
  - cbv beta. rewrite matches_seq, matches_opt, matches_seq. destruct (u_password u) as [p|].
    + cbn [part given bind_opt] in *. rewrite <- !app_assoc. change (txt ":" ++ p ++ txt "" ++ txt "@" ++ t) with (58 :: p ++ 64 :: t).
      rewrite matches_lit. cbn [matches].
      rewrite (star_longest not_at p (64 :: t) _ v); [reflexivity|now apply not_at_ok|reflexivity|].
      rewrite captured, matches_lit. exact H.
    + change (part ":" None "" ++ txt "@" ++ t) with (64 :: t).
      change (matches (lit 58) (set_cap User x c) (64 :: t)) with (fun _ : caps -> text -> option caps => @None caps). cbv beta iota.
      rewrite matches_lit. exact H.
Qed.

(** reading the place as user, password and another place *)
Lemma place_as_login u t x p t' : V u ->
  place u ++ t = x ++ part ":" p "" ++ txt "@" ++ t' -> nonempty x -> Forall (fun c => W c \/ one_of ".+-" c) x ->
  given p (fun x => ~ In 64 x) ->
  x = u_host u /\ exists port pw, u_port u = Some port /\ p = Some pw
  /\ port ++ txt "/" ++ u_share u ++ part "/" (u_path u) "" ++ t = pw ++ txt "@" ++ t'.
Proof.
  intros (Fd & Fu & Nu & Fp & Fh & Fpo & Ns & Fs & Fpa) H Nx Fx Gp. unfold place in H. rewrite <- !app_assoc in H.
  destruct (maximal_unique (user_char word) _ _ _ _ H) as (<- & R).
  - now apply host_users.
  - now apply (Forall_iff' _ _ _ _ user_char_ok).
  - destruct (u_port u); reflexivity.
  - destruct p; reflexivity.
  - split; [reflexivity|]. destruct (u_port u) as [port|], p as [pw|]; cbn [part] in R; rewrite <- ?app_assoc in R; try discriminate R.
    cbn [txt list_ascii_of_string map app] in R. injection R as R. exists port, pw. split; [reflexivity|]. split; [reflexivity|]. exact R.
Qed.
Lemma first_at (a b a' b' : text) : a ++ 64 :: b = a' ++ 64 :: b' -> ~ In 64 a -> ~ In 64 a' -> a = a' /\ b = b'.
Proof.
  intros E Ha Ha'. rewrite <- not_at_ok in Ha, Ha'. destruct (maximal_unique not_at _ _ _ _ E Ha Ha'); try reflexivity.
  split; congruence.
Qed.
Lemma parts_no_at more l s : Forall (fun c => word_char more c \/ one_of ".-" c) l -> ~ In 64 (l ++ s) <-> ~ In 64 s.
Proof.
  intros F. rewrite in_app_iff. split; [tauto|]. intros H [I|I]; [|contradiction]. rewrite Forall_forall in F.
  destruct (F _ I) as [G|G]; [unfold word_char in G; lia|]. cbn in G. lia.
Qed.
Lemma digits_no_at more l : Forall (any_digit more) l -> ~ In 64 l.
Proof. intros F I. rewrite Forall_forall in F. specialize (F _ I). unfold any_digit, digit_char in F. lia. Qed.

(** without user part nothing is taken for one, unless the URI is ambiguous *)
Lemma user_absent u c : V u -> u_user u = None -> ~ ambiguous word digit u ->
  matches re_who c (place u) K0 = matches re_where c (place u) K0.
Proof.
  intros HV Hu Ha. unfold re_who, re_user. rewrite matches_seq, matches_opt.
  match goal with |- match ?x with _ => _ end = _ => destruct x as [v|] eqn:M end; [|reflexivity].
  destruct Ha. apply matches_sound in M as (c1 & s1 & D1 & M).
  assert (D2 : den re_user c (place u) c1 s1) by now apply den_opt.
  apply den_seq_iff in D1 as (c2 & s2 & D1 & D3). apply den_named in D1 as (x & Hx & (Nx & Fx) & ->).
  rewrite (Forall_iff' _ _ _ _ user_char_ok) in Fx. apply den_seq_iff in D3 as (c3 & s3 & D3 & D4). apply den_lit_iff in D4 as (-> & ->).
  assert (P : exists p, s2 = part ":" p "" ++ txt "@" ++ s1 /\ given p (fun x => ~ In 64 x)).
  { apply den_opt_iff in D3 as [D3|(-> & <-)]; [|exists None; cbn; auto].
    apply den_seq_iff in D3 as (c4 & s4 & D3 & D4). apply den_lit_iff in D3 as (-> & ->).
    apply den_named_star in D4 as (p & -> & G & ->). rewrite not_at_ok in G. exists (Some p). cbn. rewrite <- !app_assoc. auto. }
  destruct P as (p & -> & G). rewrite <- (app_nil_r (place u)) in Hx. destruct (place_as_login u [] x p s1 HV Hx Nx Fx G) as (-> & port & pw & Hp & -> & R).
  destruct HV as (Fd & Fu & Nu & Fp & Fh & Fpo & Ns & Fs & Fpa). rewrite Hp in Fpo. destruct Fpo as (Npo & Fpo).
  apply matches_sound in M as (c5 & t5 & D5 & _). apply den_where in D5 as (h & po & l & o & -> & Fh' & Fpo' & Nl & Fl & Fo & _).
  assert (X : forall z, ~ In 64 z -> ~ In 64 (port ++ txt "/" ++ u_share u ++ z)).
  { intros z Hz I. apply in_app_iff in I as [I|I]; [now apply (digits_no_at _ _ Fpo)|].
    destruct I as [I|I]; [discriminate I|]. revert I. change (~ In 64 (u_share u ++ z)). now apply (parts_no_at word). }
  set (v' := mk_parts None None None h po l o).
  destruct (u_path u) as [path|] eqn:Hpa.
  2:{ exfalso. apply (X [] (fun I => I)). cbn [part app] in R. rewrite R. apply in_app_iff. right. left. reflexivity. }
  split; [exact Hu|]. cbn [part] in R. change (txt "/") with [47] in R; change (txt "@") with [64] in R; change (txt "") with (@nil N) in R; cbn [app] in R; rewrite ?app_nil_r in R.
  destruct (in_dec N.eq_dec 64 path) as [Ip|Ip].
  2:{ exfalso. assert (~ In 64 (47 :: path)) as Y.
      { intros [I|I]; [discriminate I|contradiction]. }
      apply (X _ Y). change (txt "/") with [47]. cbn [app]. rewrite R. apply in_app_iff. right. left. reflexivity. }
  apply in_split in Ip as (before0 & after0 & Ep).
  destruct (maximal not_at path) as (before & r & Epath & Fb & Sb). rewrite not_at_ok in Fb.
  destruct r as [|y after].
  { exfalso. apply Fb. rewrite app_nil_r in Epath. subst. apply in_app_iff. right. left. reflexivity. }
  assert (y = 64) as -> by (cbn in Sb; unfold not_at in Sb; destruct (N.eqb_spec y 64); [assumption|discriminate]).
  assert (R' : (port ++ txt "/" ++ u_share u ++ 47 :: before) ++ 64 :: after = pw ++ 64 :: h ++ part ":" po "" ++ txt "/" ++ l ++ part "/" o "" ++ t5).
  { change (txt "/") with [47]. cbn [app]. rewrite <- R, Epath. repeat (rewrite <- app_assoc; cbn [app]). reflexivity. }
  apply first_at in R' as (_ & R').
  2:{ apply X. intros [I|I]; [discriminate I|contradiction]. }
  2:{ exact G. }
  exists port, path, before, after, v', t5. split; [exact Hp|]. split; [exact Hpa|]. split; [exact Epath|]. split; [exact Fb|].
  split; [|split; [reflexivity|split; [reflexivity|]]].
  - unfold v'. repeat split; try exact I; try assumption.
  - rewrite R'. unfold written, v'. cbn. rewrite <- !app_assoc. cbn. rewrite <- ?app_assoc. reflexivity.
Qed.

Definition re_rest : re := Seq re_domain re_who.
Lemma regex_scheme s k : matches (uri_regex word digit) no_caps (txt "smb://" ++ s) k = matches re_rest no_caps s k.
Proof. reflexivity. Qed.
(** the login part and the place begin with user characters and then one of : @ / *)
Lemma begins u t : V u -> exists l c r, login_part u ++ place u ++ t = l ++ c :: r /\ Forall (fun x => user_char word x = true) l /\ In c [58; 64; 47].
Proof.
  intros (Fd & Fu & Nu & Fp & Fh & Fpo & Ns & Fs & Fpa). unfold login_part. destruct (u_user u) as [x|].
  - destruct Fu as (Nx & Fx). exists x. rewrite <- (Forall_iff' _ _ _ _ user_char_ok) in Fx.
    destruct (u_password u) as [p|]; eexists _, _; (split; [rewrite <- !app_assoc; reflexivity|]); split; try exact Fx; cbn; auto.
  - exists (u_host u). apply host_users in Fh. unfold place.
    destruct (u_port u) as [p|]; eexists _, _; (split; [rewrite <- !app_assoc; reflexivity|]); split; try exact Fh; cbn; auto.
Qed.
Lemma domain_absent u t c k : V u ->
  matches (Seq (Cap Domain (Plus (is_word word))) (lit 59)) c (login_part u ++ place u ++ t) k = None.
Proof.
  intros HV. match goal with |- ?x = None => destruct x as [v|] eqn:M end; [exfalso|reflexivity].
  apply matches_sound in M as (c1 & s1 & D1 & _). apply den_seq_iff in D1 as (c2 & s2 & D1 & D2).
  apply den_named in D1 as (x & Hx & (Nx & Fx) & ->). apply den_lit_iff in D2 as (-> & ->).
  destruct (begins u t HV) as (l & e & r & Hl & Fl & He). rewrite Hl in Hx.
  destruct (maximal_unique (user_char word) _ _ _ _ Hx) as (_ & R).
  - exact Fl.
  - eapply Forall_impl; [|exact Fx]. cbn. intros y Hy. unfold user_char. now rewrite Hy.
  - destruct He as [<-|[<-|[<-|[]]]]; reflexivity.
  - reflexivity.
  - injection R as -> _. destruct He as [He|[He|[He|[]]]]; discriminate He.
Qed.
Lemma domain_first u t v : V u -> matches re_who (bind_opt Domain (u_domain u) no_caps) (login_part u ++ place u ++ t) K0 = Some v ->
  matches (uri_regex word digit) no_caps (written u ++ t) K0 = Some v.
Proof.
  intros HV H. rewrite written_parts, <- !app_assoc, regex_scheme. unfold re_rest, re_domain. rewrite matches_seq, matches_opt.
  destruct (u_domain u) as [d|] eqn:Hd.
  - destruct HV as (Fd & _). rewrite Hd in Fd. destruct Fd as (Nd & Fd). cbn [part]. rewrite <- !app_assoc, matches_seq.
    change (txt "" ++ d ++ txt ";" ++ login_part u ++ place u ++ t) with (d ++ 59 :: login_part u ++ place u ++ t).
    erewrite plus_longest; [reflexivity|exact Nd|now apply (Forall_iff' _ _ _ _ is_word_ok)|reflexivity|].
    cbv beta. rewrite matches_lit. exact H.
  - change (part "" None ";" ++ login_part u ++ place u ++ t) with (login_part u ++ place u ++ t).
    rewrite domain_absent by exact HV. exact H.
Qed.
Theorem first_match u : V u -> ~ ambiguous word digit u ->
  matches (uri_regex word digit) no_caps (written u) K0 = Some (caps_of u).
Proof.
  intros HV Ha. rewrite <- (app_nil_r (written u)). apply domain_first; [exact HV|]. rewrite app_nil_r. unfold caps_of.
  set (c := bind_opt Domain (u_domain u) no_caps). assert (E : ends word u []) by exact I.
  destruct (u_user u) as [x|] eqn:Hu.
  - apply user_given; [exact HV|congruence|]. rewrite Hu, <- (app_nil_r (place u)). now apply place_first.
  - unfold login_part. rewrite Hu. cbn [app]. rewrite user_absent by assumption. rewrite <- (app_nil_r (place u)), place_first by assumption.
    destruct HV as (_ & _ & Nu & _). now rewrite Nu.
Qed.
(** in the ambiguous case the host is taken for a user *)
Theorem first_misread u : V u -> ambiguous word digit u ->
  exists v t, V v /\ written u = written v ++ t /\ u_user v = Some (u_host u)
  /\ matches (uri_regex word digit) no_caps (written u) K0 = Some (caps_of v).
Proof.
  intros HV (Hu & port & path & before & after & v & rest & Hp & Hpa & -> & Hb & Vv & Dv & Uv & Hw).
  rewrite written_parts, Dv in Hw. unfold login_part in Hw. rewrite Uv in Hw. cbn [part app] in Hw. rewrite <- app_assoc in Hw.
  apply app_inv_head in Hw.
  set (u' := mk_parts (u_domain u) (Some (u_host u)) (Some (port ++ txt "/" ++ u_share u ++ txt "/" ++ before)) (u_host v) (u_port v) (u_share v) (u_path v)).
  pose proof HV as HV0. destruct HV as (Fd & Fu & Nu & Fp & Fh & Fpo & Ns & Fs & Fpa). rewrite Hp in Fpo. destruct Fpo as (Npo & Fpo).
  assert (Vu : V u').
  { destruct Vv as (_ & _ & _ & _ & Fh' & Fpo' & Ns' & Fs' & Fpa'). split; [exact Fd|]. split.
    - split; [|apply (Forall_iff' _ _ _ _ user_char_ok); now apply host_users]. destruct Fh as (x & r & -> & _). discriminate.
    - split; [discriminate|]. split; [|split; [exact Fh'|split; [exact Fpo'|split; [exact Ns'|split; [exact Fs'|exact Fpa']]]]].
      cbn. intros I. apply in_app_iff in I as [I|I]; [now apply (digits_no_at _ _ Fpo)|]. destruct I as [I|I]; [discriminate I|].
      apply in_app_iff in I as [I|I]; [|destruct I as [I|I]; [discriminate I|contradiction]].
      apply (parts_no_at word _ [] Fs); [easy|]. now rewrite app_nil_r. }
  assert (Hs : place u = login_part u' ++ place v ++ rest).
  { rewrite Hw. unfold place, login_part, u'. cbn [u_user u_password]. rewrite Hp, Hpa. cbn [part]. rewrite <- !app_assoc.
    change (txt "") with (@nil N). rewrite app_nil_r. reflexivity. }
  set (c := bind_opt Passwd (u_password u') (bind_opt User (u_user u') (bind_opt Domain (u_domain u) no_caps))).
  assert (M : exists w, matches re_where c (place v ++ rest) K0 = Some w).
  { destruct Vv as (_ & _ & _ & _ & Fh' & Fpo' & Ns' & Fs' & Fpa').
    eapply matches_complete; [|reflexivity]. apply den_where. exists (u_host v), (u_port v), (u_share v), (u_path v).
    split; [unfold place; rewrite <- !app_assoc; reflexivity|]. repeat (split; [assumption|]). reflexivity. }
  destruct M as (w & M). pose proof M as M1. apply matches_sound in M1 as (c1 & t & D1 & E1). injection E1 as ->.
  apply den_where in D1 as (h & po & l & o & Es & Fh' & Fpo' & Nl & Fl & Fo & ->).
  exists (mk_parts (u_domain u) (Some (u_host u)) (u_password u') h po l o), t.
  split; [|split; [|split; [reflexivity|]]].
  - destruct Vu as (_ & Fu' & _ & Fp' & _). split; [exact Fd|]. split; [exact Fu'|]. split; [discriminate|]. split; [exact Fp'|].
    repeat (split; [assumption|]). assumption.
  - rewrite !written_parts. unfold login_part at 1. rewrite Hu. cbn [app]. rewrite Hs, Es. rewrite <- !app_assoc. 
    unfold login_part, place. cbn [u_domain u_user u_host u_port u_share u_path u_password u']. rewrite <- !app_assoc. reflexivity.
  - rewrite <- (app_nil_r (written u)). apply domain_first; [exact HV0|]. rewrite app_nil_r. unfold login_part at 1. rewrite Hu. cbn [app].
    rewrite Hs. apply user_given; [exact Vu|discriminate|]. exact M.
Qed.

(** ** Searching *)
Lemma captures_here r s c : matches r no_caps s K0 = Some c -> captures r s = Some c.
Proof. intros H. destruct s; cbn [captures]; now rewrite H. Qed.
Lemma captures_found r s c : captures r s = Some c -> exists pre s', s = pre ++ s' /\ matches r no_caps s' K0 = Some c
  /\ forall pre' t, s = pre' ++ t -> (length pre' < length pre)%nat -> matches r no_caps t K0 = None.
Proof.
  induction s as [|x s IH]; cbn [captures]; intros H.
  - destruct (matches r no_caps [] K0) as [v|] eqn:M; [|discriminate]. injection H as ->. exists [], []. split; [reflexivity|].
    split; [exact M|]. cbn. lia.
  - destruct (matches r no_caps (x :: s) K0) as [v|] eqn:M.
    + injection H as ->. exists [], (x :: s). split; [reflexivity|]. split; [exact M|]. cbn. lia.
    + destruct (IH H) as (pre & s' & -> & M' & L). exists (x :: pre), s'. split; [reflexivity|]. split; [exact M'|].
      intros pre' t E Hl. destruct pre' as [|y pre']; [cbn in E; subst t; exact M|]. cbn in E, Hl. injection E as <- E.
      apply (L pre' t E). lia.
Qed.
Lemma captures_none r s : captures r s = None -> forall pre t, s = pre ++ t -> matches r no_caps t K0 = None.
Proof.
  induction s as [|x s IH]; cbn [captures]; intros H pre t E; destruct (matches r no_caps _ K0) as [v|] eqn:M in H; try discriminate.
  - destruct pre; [|discriminate]. cbn in E. now subst.
  - destruct pre as [|y pre]; cbn in E; [now subst|]. injection E as _ E. now apply (IH H pre).
Qed.

(** ** Numbers *)
Lemma value_mono l : forall a, a <= value a l.
Proof. induction l as [|c l IH]; intros a; cbn [value]; [lia|]. specialize (IH (10 * a + (c - 48))). lia. Qed.
Lemma parse_dec_value l : forall a, a < 65536 -> Forall digit_char l ->
  parse_dec a l = if value a l <? 65536 then Some (value a l) else None.
Proof.
  induction l as [|c l IH]; intros a Ha F; cbn [parse_dec value].
  - destruct (N.ltb_spec a 65536); [reflexivity|lia].
  - inversion F as [|? ? Hc F']; subst. unfold digit_char in Hc. destruct ((48 <=? c) && (c <=? 57)) eqn:E; [|lia]. cbv zeta.
    destruct (N.ltb_spec (10 * a + (c - 48)) 65536) as [L|L]; [now apply IH|].
    pose proof (value_mono l (10 * a + (c - 48))). destruct (N.ltb_spec (value (10 * a + (c - 48)) l) 65536); [lia|reflexivity].
Qed.
Lemma parse_dec_digits l : forall a v, parse_dec a l = Some v -> Forall digit_char l.
Proof.
  induction l as [|c l IH]; intros a v H; [constructor|]. cbn in H. destruct ((48 <=? c) && (c <=? 57)) eqn:E; [|discriminate].
  destruct (10 * a + (c - 48) <? 65536); [|discriminate]. constructor; [unfold digit_char; lia|eauto].
Qed.
Lemma from_str_iff l v : nonempty l -> u16_from_str l = Some v <-> Forall digit_char l /\ v = value 0 l /\ v < 65536.
Proof.
  intros N. unfold u16_from_str. destruct l as [|c l]; [now destruct N|]. split.
  - intros H. pose proof (parse_dec_digits _ _ _ H) as F. rewrite parse_dec_value in H by (lia || exact F).
    destruct (N.ltb_spec (value 0 (c :: l)) 65536); [|discriminate]. injection H as <-. auto.
  - intros (F & -> & L). rewrite parse_dec_value by (lia || exact F). destruct (N.ltb_spec (value 0 (c :: l)) 65536); [reflexivity|lia].
Qed.

(** ** The result *)
Lemma resolve_caps s u : V u -> captures (uri_regex word digit) s = Some (caps_of u) ->
  match resolve_smb_uri word digit s with
  | Ok cfg => config_of u cfg
  | Err e => e = InvalidUri /\ exists p, u_port u = Some p /\ ~ (Forall digit_char p /\ value 0 p < 65536)
  | Panic => False
  end.
Proof.
  intros HV H. unfold resolve_smb_uri. rewrite H. destruct (caps_agree u) as (A1 & A2 & A3 & A4 & A5 & A6 & A7).
  unfold ok_or. cbn [rbind]. rewrite A4. cbn [rbind]. rewrite A5. destruct HV as (_ & _ & _ & _ & _ & Fpo & _).
  destruct (u_port u) as [p|] eqn:Hp.
  - destruct Fpo as (Np & _). destruct (u16_from_str p) as [v|] eqn:Hv; cbn [rbind].
    + rewrite A6. cbn [rbind]. apply from_str_iff in Hv; [|exact Np]. unfold config_of. cbn. rewrite Hp. repeat split; try assumption; apply Hv.
    + split; [reflexivity|]. exists p. split; [reflexivity|]. intros (F & L).
      assert (u16_from_str p = Some (value 0 p)) by now apply from_str_iff. congruence.
  - cbn [rbind]. rewrite A6. cbn [rbind]. unfold config_of. cbn. rewrite Hp. repeat split; assumption.
Qed.

Lemma found s c : matches (uri_regex word digit) no_caps s K0 = Some c ->
  exists u t, V u /\ s = written u ++ t /\ c = caps_of u /\ ends word u t.
Proof.
  rewrite regex_parts. intros H.
  do 6 (rewrite matches_seq in H; apply matches_sound in H as (? & ? & L & H); apply den_lit_iff in L as (-> & ->)).
  rewrite matches_seq in H. apply matches_sound in H as (? & ? & H1 & H). apply den_domain in H1 as (d & -> & Fd & ->).
  rewrite matches_seq in H. apply matches_sound in H as (? & ? & H1 & H). apply den_user in H1 as (us & pw & -> & Fu & Nu & Fp & ->).
  rewrite matches_seq in H. apply matches_sound in H as (? & ? & H1 & H). apply den_hosts in H1 as (h & -> & Fh & ->).
  rewrite matches_seq in H. apply matches_sound in H as (? & ? & H1 & H). apply den_port in H1 as (p & -> & Fpo & ->).
  rewrite matches_seq in H. apply matches_sound in H as (? & ? & H1 & H). apply den_lit_iff in H1 as (-> & ->).
  apply end_found in H as (l & o & t & -> & Nl & Fl & Fo & E & ->).
  exists (mk_parts d us pw h p l o), t. split; [repeat (split; [assumption|]); assumption|].
  split; [unfold written; cbn [u_domain u_user u_password u_host u_port u_share u_path]; rewrite <- !app_assoc; reflexivity|].
  split; [reflexivity|apply E].
Qed.
Lemma valid_digits u : valid word digit_char u -> V u.
Proof.
  intros (Fd & Fu & Nu & Fp & Fh & Fpo & Ns & Fs & Fpa). repeat (split; [assumption|]). split; [|auto].
  destruct (u_port u) as [p|]; [|exact I]. destruct Fpo as (N & F). split; [exact N|]. eapply Forall_impl; [|exact F]. intros. now left.
Qed.
Lemma digits_valid u cfg : V u -> config_of u cfg -> valid word digit_char u.
Proof.
  intros (Fd & Fu & Nu & Fp & Fh & Fpo & Ns & Fs & Fpa) (_ & _ & _ & _ & _ & _ & C). repeat (split; [assumption|]). split; [|auto].
  destruct (u_port u) as [p|]; [|exact I]. destruct (cf_port cfg); [|contradiction]. split; [apply Fpo|apply C].
Qed.

Theorem resolve_exact u : valid word digit_char u -> given (u_port u) (fun p => value 0 p < 65536) -> ~ ambiguous word digit u ->
  exists cfg, resolve_smb_uri word digit (written u) = Ok cfg /\ config_of u cfg.
Proof.
  intros HV Hp Ha. pose proof (valid_digits u HV) as HV'. pose proof (resolve_caps _ u HV' (captures_here _ _ _ (first_match u HV' Ha))) as R.
  destruct (resolve_smb_uri word digit (written u)) as [cfg|e|]; [eauto| |contradiction].
  destruct R as (_ & p & Ep & []). destruct HV as (_ & _ & _ & _ & _ & Fpo & _). rewrite Ep in *. split; [apply Fpo|exact Hp].
Qed.
Theorem resolve_port u p : V u -> ~ ambiguous word digit u -> u_port u = Some p -> 65536 <= value 0 p ->
  resolve_smb_uri word digit (written u) = Err InvalidUri.
Proof.
  intros HV Ha Hp L. pose proof (resolve_caps _ u HV (captures_here _ _ _ (first_match u HV Ha))) as R.
  destruct (resolve_smb_uri word digit (written u)) as [cfg|e|]; [|destruct R as (-> & _); reflexivity|contradiction].
  destruct R as (_ & _ & _ & _ & _ & _ & R). rewrite Hp in R. destruct (cf_port cfg); [|contradiction]. destruct R as (_ & -> & R). lia.
Qed.
Theorem resolve_misread u cfg : V u -> ambiguous word digit u -> resolve_smb_uri word digit (written u) = Ok cfg ->
  cf_user cfg = Some (u_host u).
Proof.
  intros HV Ha H. destruct (first_misread u HV Ha) as (v & t & Vv & _ & Uv & M).
  pose proof (resolve_caps _ v Vv (captures_here _ _ _ M)) as R. rewrite H in R. destruct R as (_ & -> & _). exact Uv.
Qed.
Theorem resolve_sound s cfg : resolve_smb_uri word digit s = Ok cfg ->
  exists pre u post, s = pre ++ written u ++ post /\ valid word digit_char u /\ config_of u cfg /\ ends word u post
  /\ forall pre' v post', V v -> s = pre' ++ written v ++ post' -> (length pre <= length pre')%nat.
Proof.
  intros H. destruct (captures (uri_regex word digit) s) as [c|] eqn:C.
  2:{ unfold resolve_smb_uri in H. rewrite C in H. discriminate. }
  pose proof C as C0. apply captures_found in C as (pre & s' & -> & M & L). apply found in M as (u & t & Vu & -> & -> & E).
  pose proof (resolve_caps _ u Vu C0) as R. rewrite H in R. exists pre, u, t. split; [reflexivity|].
  split; [now apply (digits_valid u cfg)|]. split; [exact R|]. split; [exact E|].
  intros pre' v post' Vv Es. destruct (Nat.le_gt_cases (length pre) (length pre')) as [|G]; [assumption|exfalso].
  pose proof (matches_none _ _ _ _ (L pre' _ Es G) (caps_of v) post') as X. discriminate X. apply den_uri. exists v. auto.
Qed.
Theorem resolve_err s e : resolve_smb_uri word digit s = Err e -> e = InvalidUri
  /\ ((forall pre v post, V v -> s <> pre ++ written v ++ post)
      \/ exists pre u post p, s = pre ++ written u ++ post /\ V u /\ u_port u = Some p /\ ~ (Forall digit_char p /\ value 0 p < 65536)).
Proof.
  intros H. destruct (captures (uri_regex word digit) s) as [c|] eqn:C.
  - pose proof C as C0. apply captures_found in C as (pre & s' & -> & M & L). apply found in M as (u & t & Vu & -> & -> & E).
    pose proof (resolve_caps _ u Vu C0) as R. rewrite H in R. destruct R as (-> & p & Hp & Hn). split; [reflexivity|].
    right. exists pre, u, t, p. auto.
  - unfold resolve_smb_uri in H. rewrite C in H. injection H as <-. split; [reflexivity|]. left. intros pre v post Vv ->.
    pose proof (matches_none _ _ _ _ (captures_none _ _ C pre _ eq_refl) (caps_of v) post) as X. discriminate X. apply den_uri. exists v. auto.
Qed.
Theorem resolve_total s : resolve_smb_uri word digit s <> Panic.
Proof.
  intros H. destruct (captures (uri_regex word digit) s) as [c|] eqn:C.
  - pose proof C as C0. apply captures_found in C as (pre & s' & -> & M & L). apply found in M as (u & t & Vu & -> & -> & E).
    pose proof (resolve_caps _ u Vu C0) as R. now rewrite H in R.
  - unfold resolve_smb_uri in H. rewrite C in H. discriminate.
Qed.
Theorem resolve_none s : (forall pre v post, V v -> s <> pre ++ written v ++ post) -> resolve_smb_uri word digit s = Err InvalidUri.
Proof.
  intros H. destruct (resolve_smb_uri word digit s) as [cfg|e|] eqn:R.
  - apply resolve_sound in R as (pre & u & post & -> & Vu & _). destruct (H pre u post (valid_digits _ Vu) eq_refl).
  - now apply resolve_err in R as (-> & _).
  - now apply resolve_total in R.
Qed.
End Unicode.
