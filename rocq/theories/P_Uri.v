(** * URIs: C47, C48.  [word] and [digit] are what the regex crate takes for a word character
    or digit beyond ASCII; the theorems hold for all such tables. *)
From Coq Require Import String.
From Verif Require Import Base Text Errors Uri SpecUri UriFacts.
Open Scope N_scope.
Open Scope list_scope.

(** C47: the components of a URI, unless it has a port, no user, and a path in which the first @
    is followed by something like host/share.  (Missing: these.) *)
Theorem C47_partial : forall word digit u, valid word digit_char u -> given (u_port u) (fun p => value 0 p < 65536) ->
  ~ ambiguous word digit u -> exists cfg, resolve_smb_uri word digit (written u) = Ok cfg /\ config_of u cfg.
Proof. exact resolve_exact. Qed.
Print Assumptions C47_partial.
(** Those are all misread: the host is taken for the user. *)
Theorem C47_misread : forall word digit u cfg, valid word (any_digit digit) u -> ambiguous word digit u ->
  resolve_smb_uri word digit (written u) = Ok cfg -> cf_user cfg = Some (u_host u).
Proof. exact resolve_misread. Qed.
Print Assumptions C47_misread.
Theorem C47_refuted : exists u cfg, (forall word, valid word digit_char u) /\ u_host u = txt "server" /\ u_port u = Some (txt "445")
  /\ (forall word digit, resolve_smb_uri word digit (written u) = Ok cfg)
  /\ cf_hostname cfg = txt "evil" /\ cf_user cfg = Some (txt "server") /\ cf_share cfg = txt "b".
Proof.
  exists (mk_parts None None None (txt "server") (Some (txt "445")) (txt "share") (Some (txt "a@evil/b"))).
  eexists (mk_config None (Some (txt "server")) (Some (txt "445/share/a")) (txt "evil") None (txt "b") None).
  split; [|repeat split; intros; vm_compute; reflexivity].
  intros word. unfold valid, given, nonempty. cbn.
  split; [exact I|]. split; [exact I|]. split; [reflexivity|]. split; [exact I|].
  split. { exists 115, (txt "erver"). split; [reflexivity|]. split; [unfold word_char; lia|].
    repeat (constructor; [left; unfold word_char; cbn; lia|]). constructor. }
  split. { split; [discriminate|]. repeat (constructor; [unfold digit_char; lia|]). constructor. }
  split; [discriminate|]. split.
  { repeat (constructor; [left; unfold word_char; cbn; lia|]). constructor. }
  intros H. repeat (destruct H as [H|H]; [discriminate H|]). exact H.
Qed.
Print Assumptions C47_refuted.
Example C47_example : exists cfg,
  resolve_smb_uri (fun _ => false) (fun _ => false) (txt "smb://DOM;joe:s:/3ret@nas.local:1445/pub/a@b/c") = Ok cfg
  /\ cfg = mk_config (Some (txt "DOM")) (Some (txt "joe")) (Some (txt "s:/3ret")) (txt "nas.local") (Some 1445) (txt "pub") (Some (txt "a@b/c")).
Proof. eexists. split; vm_compute; reflexivity. Qed.

(** the hypotheses of the two theorems: this URI; the one of the refutation *)
Ltac chars := repeat (constructor; [first [unfold word_char, digit_char; lia|left; unfold word_char; lia|right; vm_compute; tauto]|]); constructor.
Definition uri1 : parts := mk_parts (Some (txt "DOM")) (Some (txt "joe")) (Some (txt "s:/3ret")) (txt "nas.local") (Some (txt "1445")) (txt "pub") (Some (txt "a@b/c")).
Example C47_hyp_example : forall word digit, valid word digit_char uri1 /\ given (u_port uri1) (fun p => value 0 p < 65536) /\ ~ ambiguous word digit uri1.
Proof.
  intros word digit. unfold valid, given, nonempty. cbn. split.
  - split; [split; [discriminate|chars]|]. split; [split; [discriminate|chars]|]. split; [discriminate|].
    split; [intros H; repeat (destruct H as [H|H]; [discriminate H|]); exact H|].
    split; [exists 110, (txt "as.local"); split; [reflexivity|]; split; [unfold word_char; lia|cbn; chars]|].
    split; [split; [discriminate|chars]|]. split; [discriminate|]. split; [chars|].
    intros H; repeat (destruct H as [H|H]; [discriminate H|]); exact H.
  - split; [reflexivity|]. intros (H & _). discriminate H.
Qed.
Example C47_misread_example : forall word digit,
  ambiguous word digit (mk_parts None None None (txt "server") (Some (txt "445")) (txt "share") (Some (txt "a@evil/b"))).
Proof.
  intros word digit. split; [reflexivity|].
  exists (txt "445"), (txt "a@evil/b"), (txt "a"), (txt "evil/b"), (mk_parts None None None (txt "evil") None (txt "b") None), [].
  split; [reflexivity|]. split; [reflexivity|]. split; [reflexivity|]. split; [intros [H|[]]; discriminate H|].
  split; [|repeat split]. unfold valid, given, nonempty. cbn. do 2 (split; [exact I|]). split; [reflexivity|]. split; [exact I|].
  split; [exists 101, (txt "vil"); split; [reflexivity|]; split; [unfold word_char; lia|cbn; chars]|]. split; [exact I|]. split; [discriminate|].
  split; [chars|exact I].
Qed.

(** C48: an accepted string contains a URI with the components returned, the leftmost one, read as
    far as possible.  (Missing: that it is nothing but this URI.) *)
Theorem C48_partial : forall word digit s cfg, resolve_smb_uri word digit s = Ok cfg ->
  exists pre u post, s = pre ++ written u ++ post /\ valid word digit_char u /\ config_of u cfg /\ ends word u post
  /\ forall pre' v post', valid word (any_digit digit) v -> s = pre' ++ written v ++ post' -> (length pre <= length pre')%nat.
Proof. exact resolve_sound. Qed.
Print Assumptions C48_partial.
(** Text before and after the URI is ignored. *)
Theorem C48_refuted : forall word digit, exists before after cfg cfg',
  resolve_smb_uri word digit before = Ok cfg /\ resolve_smb_uri word digit after = Ok cfg'
  /\ forall u, valid word (any_digit digit) u -> before <> written u /\ after <> written u.
Proof.
  intros word digit. exists (txt "see smb://nas/pub"), (txt "smb://nas/pub?x=1"). do 2 eexists.
  split; [vm_compute; reflexivity|]. assert (R : resolve_smb_uri word digit (txt "smb://nas/pub?x=1")
    = Ok (mk_config None None None (txt "nas") None (txt "pub") None)) by (vm_compute; reflexivity).
  split; [exact R|]. intros u Hu. split; [intros H; discriminate H|]. intros H.
  assert (Ha : ~ ambiguous word digit u).
  { intros Ha. rewrite H in R. apply (resolve_misread word digit u _ Hu Ha) in R. discriminate R. }
  pose proof (resolve_caps word digit _ u Hu (captures_here _ _ _ (first_match word digit u Hu Ha))) as C.
  rewrite <- H, R in C. destruct C as (C1 & C2 & C3 & C4 & C5 & C6 & C7). unfold written in H.
  rewrite <- C1, <- C2, <- C4, <- C5, <- C6 in H. destruct (u_port u); [contradiction|]. discriminate H.
Qed.
Print Assumptions C48_refuted.
(** A string without a URI is an error, and the only other error is a port that does not fit. *)
Theorem C48_rejected : forall word digit s, (forall pre v post, valid word (any_digit digit) v -> s <> pre ++ written v ++ post) ->
  resolve_smb_uri word digit s = Err InvalidUri.
Proof. exact resolve_none. Qed.
Print Assumptions C48_rejected.
Theorem C48_port : forall word digit u p, valid word (any_digit digit) u -> ~ ambiguous word digit u -> u_port u = Some p ->
  65536 <= value 0 p -> resolve_smb_uri word digit (written u) = Err InvalidUri.
Proof. exact resolve_port. Qed.
Print Assumptions C48_port.
Theorem C48_error : forall word digit s e, resolve_smb_uri word digit s = Err e -> e = InvalidUri
  /\ ((forall pre v post, valid word (any_digit digit) v -> s <> pre ++ written v ++ post)
      \/ exists pre u post p, s = pre ++ written u ++ post /\ valid word (any_digit digit) u /\ u_port u = Some p
         /\ ~ (Forall digit_char p /\ value 0 p < 65536)).
Proof. exact resolve_err. Qed.
Print Assumptions C48_error.
Theorem C48_no_panic : forall word digit s, resolve_smb_uri word digit s <> Panic.
Proof. exact resolve_total. Qed.
Print Assumptions C48_no_panic.
Example C48_hyp_example : forall word digit pre v post, valid word (any_digit digit) v -> txt "smb://" <> pre ++ written v ++ post.
Proof.
  intros word digit pre v post _ H. apply (f_equal (@List.length N)) in H. unfold written in H. rewrite !app_length in H. cbn in H.
  lia.
Qed.
Example C48_example : resolve_smb_uri (fun _ => false) (fun _ => false) (txt "smb://nas:65536/pub") = Err InvalidUri
  /\ resolve_smb_uri (fun _ => false) (fun _ => false) (txt "smb:/nas/pub") = Err InvalidUri.
Proof. split; vm_compute; reflexivity. Qed.
