(** * DisplayFacts: different errors have different messages (C68). *)
From Coq Require Import String Ascii Decimal Hexadecimal DecimalN HexadecimalN.
From Verif Require Import Base Text Win Errors Display InfoFacts.
Open Scope N_scope.
Set Implicit Arguments.
Unset Strict Implicit.

Lemma decimal_inj d : forall d', decimal d = decimal d' -> d = d'.
Proof. induction d; intros d'; destruct d'; intros H; try discriminate H; [reflexivity|..]; injection H as H; f_equal; auto. Qed.
Lemma show_inj n m : show n = show m -> n = m.
Proof. intros H%decimal_inj. now rewrite <- (DecimalN.Unsigned.of_to n), <- (DecimalN.Unsigned.of_to m), H. Qed.
Lemma hexadecimal_inj d : forall d', hexadecimal d = hexadecimal d' -> d = d'.
Proof. induction d; intros d'; destruct d'; intros H; try discriminate H; [reflexivity|..]; injection H as H; f_equal; auto. Qed.
Lemma padded d : N.of_hex_uint (match Hexadecimal.nb_digits d with 1%nat => D0 d | _ => d end) = N.of_hex_uint d.
Proof. now destruct (Hexadecimal.nb_digits d) as [|[|?]]. Qed.
Lemma show_hex2_inj n m : show_hex2 n = show_hex2 m -> n = m.
Proof.
  intros H%hexadecimal_inj. rewrite <- (HexadecimalN.Unsigned.of_to n), <- (HexadecimalN.Unsigned.of_to m).
  rewrite <- (padded (N.to_hex_uint n)), <- (padded (N.to_hex_uint m)). now rewrite H.
Qed.

(** where a run of characters of one kind ends *)
Lemma run_end (P : N -> Prop) a : forall b x y s t, Forall P a -> Forall P b -> ~ P x -> ~ P y ->
  a ++ x :: s = b ++ y :: t -> a = b /\ s = t.
Proof.
  induction a as [|c a IH]; intros [|d b] x y s t Ha Hb Hx Hy; cbn [app]; intros [= H1 H2]; subst.
  - auto.
  - inversion Hb; subst. contradiction.
  - inversion Ha; subst. contradiction.
  - inversion Ha; inversion Hb; subst. destruct (IH b x y s t) as [-> ->]; auto.
Qed.
Definition digit (n : N) : Prop := 48 <= n <= 57.
Lemma decimal_digits d : Forall digit (decimal d).
Proof. induction d; constructor; auto; unfold digit; lia. Qed.
Lemma show_end n m x y s t : ~ digit x -> ~ digit y -> show n ++ x :: s = show m ++ y :: t -> n = m /\ s = t.
Proof. intros Hx Hy H. apply (run_end (decimal_digits _) (decimal_digits _) Hx Hy) in H. destruct H as [H ->]. split; [now apply show_inj|reflexivity]. Qed.

Definition named (t : text) : option nt_status := find (fun s => if list_eq_dec N.eq_dec (nt_name s) t then true else false) all_nt.
Lemma nt_named s : named (nt_name s) = Some s.
Proof. destruct s; vm_compute; reflexivity. Qed.
Lemma nt_name_inj s t : nt_name s = nt_name t -> s = t.
Proof. intros H. assert (Some s = Some t) as [= ->] by (rewrite <- !nt_named, H; reflexivity). reflexivity. Qed.
Lemma nt_name_known s t : nt_name s <> lit "Unknown (" ++ t.
Proof. destruct s; intros H; discriminate H. Qed.
Lemma display_status_inj s t : display_status s = display_status t -> s = t.
Proof.
  destruct s as [s|s], t as [t|t]; cbn [display_status]; intros H.
  - f_equal. now apply nt_name_inj.
  - now apply nt_name_known in H.
  - symmetry in H. now apply nt_name_known in H.
  - apply app_inv_head, app_inv_tail in H. f_equal. now apply show_hex2_inj.
Qed.

Definition comma_free (n : N) : Prop := n <> 44.
Lemma cmd_name_free c : Forall comma_free (cmd_name c).
Proof. destruct c; repeat constructor; intros H; discriminate H. Qed.
Lemma cmd_name_inj c d : cmd_name c = cmd_name d -> c = d.
Proof. destruct c, d; intros H; (reflexivity || discriminate H). Qed.
Lemma packet_text_inj m n : packet_text m = packet_text n -> m = n.
Proof. destruct m, n; intros H; (reflexivity || discriminate H). Qed.
Lemma unsupported_text_inj m n : unsupported_text m = unsupported_text n -> m = n.
Proof. destruct m, n; intros H; (reflexivity || discriminate H). Qed.

Lemma not_digit c : c < 48 -> ~ digit c.
Proof. unfold digit. lia. Qed.
Lemma reassemble_text_inj m n : reassemble_text m = reassemble_text n -> m = n.
Proof.
  destruct m, n; intros H; try discriminate H; apply app_inv_head in H.
  - apply (@show_end _ _ 32 32) in H; try (apply not_digit; reflexivity). destruct H as [-> H].
    apply (app_inv_head (lit "vs ")) in H. f_equal. now apply show_inj.
  - apply app_inv_tail in H. f_equal. now apply show_inj.
  - apply (@show_end _ _ 44 44) in H; try (apply not_digit; reflexivity). destruct H as [-> H].
    apply (app_inv_head (lit " but got ")) in H. f_equal. now apply show_inj.
  - apply (@show_end _ _ 44 44) in H; try (apply not_digit; reflexivity). destruct H as [-> H].
    apply (app_inv_head (lit " expected: ")) in H. f_equal. now apply show_inj.
Qed.
Lemma display_smb_inj e f : display_smb e = display_smb f -> e = f.
Proof.
  destruct e, f; intros H; try discriminate H; try reflexivity; apply app_inv_head in H; f_equal.
  - now apply show_hex2_inj.
  - now apply packet_text_inj.
  - now apply reassemble_text_inj.
  - now apply unsupported_text_inj.
Qed.
Lemma display_ntlm_inj e f : display_ntlm e = display_ntlm f -> e = f.
Proof. destruct e, f; intros H; (reflexivity || discriminate H). Qed.

(** equal up to the text of the system's error *)
Definition same_nb (io_text : io_error -> text) (e f : nb_error) : Prop :=
  match e, f with
  | IoError a, IoError b => io_text a = io_text b
  | _, _ => e = f
  end.
Definition same_error (io_text : io_error -> text) (e f : error) : Prop :=
  match e, f with
  | ENetBios (IoError a), ENetBios (IoError b) => io_text a = io_text b
  | _, _ => e = f
  end.
Theorem display_inj io_text e f : display io_text e = display io_text f -> same_error io_text e f.
Proof.
  destruct e as [e|e|e|want got|s|], f as [f|f|f|want' got'|s'|]; intros H; try discriminate H; try reflexivity; apply app_inv_head in H.
  - destruct e, f; try discriminate H; try reflexivity; apply app_inv_head in H; try (apply show_hex2_inj in H; subst; reflexivity).
    exact H.
  - apply display_smb_inj in H. now subst.
  - apply display_ntlm_inj in H. now subst.
  - apply (run_end (x := 44) (y := 44) (cmd_name_free _) (cmd_name_free _)) in H; try (intros C; now destruct C).
    destruct H as [H1 H2]. apply (app_inv_head (lit " got: ")) in H2. apply cmd_name_inj in H1, H2. now subst.
  - apply display_status_inj in H. now subst.
Qed.

Lemma status_code_inj st st' : status_of_code st = status_of_code st' -> st = st'.
Proof.
  intros H. pose proof (status_names st) as H1. pose proof (status_names st') as H2. rewrite <- H in H2.
  destruct (status_of_code st); [congruence|]. now destruct H1 as [<- _], H2 as [<- _].
Qed.

(** ** the messages are plain: printable ASCII *)
Definition plain (t : text) : Prop := Forall (fun c => 32 <= c <= 126) t.
Lemma plain_check t : forallb (fun c => (32 <=? c) && (c <=? 126)) t = true -> plain t.
Proof. intros H. apply Forall_forall. intros c Hc. rewrite forallb_forall in H. specialize (H c Hc). lia. Qed.
Lemma plain_app a b : plain a -> plain b -> plain (a ++ b).
Proof. intros H1 H2. apply Forall_app. auto. Qed.
Lemma plain_show n : plain (show n).
Proof. unfold show. induction (N.to_uint n); constructor; auto; lia. Qed.
Lemma plain_hex d : plain (hexadecimal d).
Proof. induction d; constructor; auto; lia. Qed.
Lemma plain_nt s : plain (nt_name s).
Proof. apply plain_check. destruct s; reflexivity. Qed.
Lemma plain_cmd c : plain (cmd_name c).
Proof. apply plain_check. destruct c; reflexivity. Qed.
Ltac plains := repeat first
  [ apply plain_nt | apply plain_cmd | apply plain_show | apply plain_hex
  | match goal with
    | |- plain (lit ?s) => apply plain_check; reflexivity
    | |- plain (_ ++ _) => apply plain_app
    end ].
Theorem display_plain io_text e : (forall x, plain (io_text x)) -> plain (display io_text e).
Proof.
  intros Hio. destruct e as [e|e|e|want got|s|]; cbn [display]; try (plains; fail).
  - destruct e; cbn [display_nb]; plains. apply Hio.
  - destruct e as [| | c | | | m | m | m]; cbn [display_smb]; plains.
    + apply plain_check. destruct m; reflexivity.
    + destruct m; cbn [reassemble_text]; plains.
    + apply plain_check. destruct m; reflexivity.
  - destruct e; cbn [display_ntlm]; plains.
  - destruct s; cbn [display_status]; plains.
Qed.
