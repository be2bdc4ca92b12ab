(** * SpecFacts: lemmas about the vocabulary of Spec. *)
From Verif Require Import Base BaseFacts Text Spec.
Open Scope N_scope.

Lemma u8_at_app1 a b o : o < len a -> u8_at (a ++ b) o = u8_at a o.
Proof. intros. unfold u8_at. rewrite nth_error_app1; [easy|]. unfold len in *. lia. Qed.
Lemma u8_at_app2 a b o : len a <= o -> u8_at (a ++ b) o = u8_at b (o - len a).
Proof.
  intros. unfold u8_at. rewrite nth_error_app2 by (unfold len in *; lia).
  do 2 f_equal. unfold len in *. lia.
Qed.
Lemma u16_at_app1 a b o : o + 2 <= len a -> u16_at (a ++ b) o = u16_at a o.
Proof. intros. unfold u16_at. now rewrite !u8_at_app1 by lia. Qed.
Lemma u16_at_app2 a b o : len a <= o -> u16_at (a ++ b) o = u16_at b (o - len a).
Proof.
  intros. unfold u16_at. rewrite !u8_at_app2 by lia.
  now replace (o + 1 - len a) with (o - len a + 1) by lia.
Qed.
Lemma u32_at_app2 a b o : len a <= o -> u32_at (a ++ b) o = u32_at b (o - len a).
Proof.
  intros. unfold u32_at. rewrite !u16_at_app2 by lia.
  now replace (o + 2 - len a) with (o - len a + 2) by lia.
Qed.
Lemma u64_at_app2 a b o : len a <= o -> u64_at (a ++ b) o = u64_at b (o - len a).
Proof.
  intros. unfold u64_at. rewrite !u32_at_app2 by lia.
  now replace (o + 4 - len a) with (o - len a + 4) by lia.
Qed.
Lemma bytes_at_app1 a b o n : o + n <= len a -> bytes_at (a ++ b) o n = bytes_at a o n.
Proof.
  intros. unfold bytes_at. rewrite len_app.
  destruct (N.leb_spec (o + n) (len a + len b)), (N.leb_spec (o + n) (len a)); try lia.
  rewrite drop_app, take_app, len_drop. replace (n - (len a - o)) with 0 by lia.
  now rewrite take_0, app_nil_r.
Qed.
Lemma bytes_at_app2 a b o n : len a <= o -> bytes_at (a ++ b) o n = bytes_at b (o - len a) n.
Proof.
  intros. unfold bytes_at. rewrite len_app.
  destruct (N.leb_spec (o + n) (len a + len b)), (N.leb_spec (o - len a + n) (len b)); try lia; [|easy].
  now rewrite drop_app, drop_all by lia.
Qed.
Lemma bytes_at_exact a b o n : o = 0 -> n = len a -> bytes_at (a ++ b) o n = Some a.
Proof.
  intros -> ->. unfold bytes_at. rewrite len_app.
  destruct (N.leb_spec (0 + len a) (len a + len b)); [|lia].
  now rewrite drop_0, take_exact.
Qed.
Lemma bytes_at_self a o n : o = 0 -> n = len a -> bytes_at a o n = Some a.
Proof. intros. rewrite <- (app_nil_r a) at 1. now apply bytes_at_exact. Qed.

Lemma le2 v : le 2 v = [n2b v; n2b (v / 256)]. Proof. reflexivity. Qed.
Lemma u8_at_0 x b : u8_at (x :: b) 0 = Some (b2n x). Proof. reflexivity. Qed.

Lemma u8_at_le v b o : o = 0 -> v < 256 -> u8_at (le 1 v ++ b) o = Some v.
Proof. intros -> H. cbn. rewrite b2n_n2b, N.mod_small; easy. Qed.
Lemma u16_at_cons x y b : u16_at (x :: y :: b) 0 = Some (b2n x + 256 * b2n y).
Proof. reflexivity. Qed.
Lemma u16_at_le v b o : o = 0 -> v < 65536 -> u16_at (le 2 v ++ b) o = Some v.
Proof.
  intros -> H. rewrite le2. cbn [app]. rewrite u16_at_cons, !b2n_n2b. f_equal. lia.
Qed.
Lemma le_split a b v : le (a + b) v = le a v ++ le b (v / 256 ^ N.of_nat a).
Proof. apply le_add. Qed.
Lemma le_mod k v : le k v = le k (v mod 256 ^ N.of_nat k).
Proof.
  rewrite <- (le_unle (le k v)) at 1. now rewrite le_length, unle_le.
Qed.
Lemma u32_at_le v b o : o = 0 -> v < 4294967296 -> u32_at (le 4 v ++ b) o = Some v.
Proof.
  intros -> H. unfold u32_at. rewrite (le_split 2 2), <- app_assoc, p16, (le_mod 2 v), p16.
  rewrite u16_at_le by lia. rewrite u16_at_app2 by (rewrite len_le; lia).
  rewrite u16_at_le; [f_equal; lia|rewrite len_le; lia|lia].
Qed.
Lemma u64_at_le v b o : o = 0 -> v < 18446744073709551616 -> u64_at (le 8 v ++ b) o = Some v.
Proof.
  intros -> H. unfold u64_at. rewrite (le_split 4 4), <- app_assoc, p32, (le_mod 4 v), p32.
  rewrite u32_at_le by lia. rewrite u32_at_app2 by (rewrite len_le; lia).
  rewrite u32_at_le; [f_equal; lia|rewrite len_le; lia|lia].
Qed.
(** variants for the last piece *)
Lemma u8_at_le' v o : o = 0 -> v < 256 -> u8_at (le 1 v) o = Some v.
Proof. intros. rewrite <- (app_nil_r (le 1 v)). now apply u8_at_le. Qed.
Lemma u16_at_le' v o : o = 0 -> v < 65536 -> u16_at (le 2 v) o = Some v.
Proof. intros. rewrite <- (app_nil_r (le 2 v)). now apply u16_at_le. Qed.
Lemma u32_at_le' v o : o = 0 -> v < 4294967296 -> u32_at (le 4 v) o = Some v.
Proof. intros. rewrite <- (app_nil_r (le 4 v)). now apply u32_at_le. Qed.

Lemma u8_at_bound b o v : u8_at b o = Some v -> o < len b /\ v < 256.
Proof.
  unfold u8_at. destruct (nth_error b (N.to_nat o)) as [x|] eqn:H; [|easy].
  intros [= <-]. apply nth_error_len in H. pose proof (b2n_lt x). lia.
Qed.
Lemma u16_at_bound b o v : u16_at b o = Some v -> o + 2 <= len b /\ v < 65536.
Proof.
  unfold u16_at. destruct (u8_at b o) eqn:H1; [|easy]. destruct (u8_at b (o + 1)) eqn:H2; [|easy].
  apply u8_at_bound in H1, H2. intros [= <-]. lia.
Qed.
Lemma u32_at_bound b o v : u32_at b o = Some v -> o + 4 <= len b /\ v < 4294967296.
Proof.
  unfold u32_at. destruct (u16_at b o) eqn:H1; [|easy]. destruct (u16_at b (o + 2)) eqn:H2; [|easy].
  apply u16_at_bound in H1, H2. intros [= <-]. lia.
Qed.
Lemma u64_at_bound b o v : u64_at b o = Some v -> o + 8 <= len b /\ v < 18446744073709551616.
Proof.
  unfold u64_at. destruct (u32_at b o) eqn:H1; [|easy]. destruct (u32_at b (o + 4)) eqn:H2; [|easy].
  apply u32_at_bound in H1, H2. intros [= <-]. lia.
Qed.
Lemma bytes_at_bound b o n v : bytes_at b o n = Some v -> o + n <= len b /\ len v = n.
Proof.
  unfold bytes_at. destruct (N.leb_spec (o + n) (len b)); [|easy]. intros [= <-].
  rewrite len_take, len_drop. lia.
Qed.

(** cutting off [k] bytes as a little endian number *)
Lemma cut_le k b : N.of_nat k <= len b -> exists v r, b = le k v ++ r /\ v < 256 ^ N.of_nat k.
Proof.
  intros H. exists (unle (firstn k b)), (skipn k b). split.
  - rewrite le_unle'; [now rewrite firstn_skipn|]. rewrite firstn_length. unfold len in H. lia.
  - pose proof (unle_bound (firstn k b)) as Hb. unfold len in Hb, H.
    rewrite firstn_length, Nat.min_l in Hb by lia. exact Hb.
Qed.
Lemma cut n b : n <= len b -> exists a r : bytes, b = a ++ r /\ len a = n.
Proof.
  intros H. exists (take n b), (drop n b). rewrite take_drop, len_take. split; [easy|lia].
Qed.

(** computing a field of a concatenation *)
Ltac len_lia := autorewrite with len in *; cbn [N.of_nat Pos.of_succ_nat Pos.succ len length] in *; lia.
Ltac field_step :=
  match goal with
  | |- context [u8_at (le 1 ?v ++ ?b) ?o] => rewrite (@u8_at_le v b o) by (first [assumption | len_lia])
  | |- context [u16_at (le 2 ?v ++ ?b) ?o] => rewrite (@u16_at_le v b o) by (first [assumption | len_lia])
  | |- context [u32_at (le 4 ?v ++ ?b) ?o] => rewrite (@u32_at_le v b o) by (first [assumption | len_lia])
  | |- context [u64_at (le 8 ?v ++ ?b) ?o] => rewrite (@u64_at_le v b o) by (first [assumption | len_lia])
  | |- context [u8_at (?a ++ ?b) ?o] => rewrite (@u8_at_app2 a b o) by len_lia
  | |- context [u16_at (?a ++ ?b) ?o] => rewrite (@u16_at_app2 a b o) by len_lia
  | |- context [u32_at (?a ++ ?b) ?o] => rewrite (@u32_at_app2 a b o) by len_lia
  | |- context [u64_at (?a ++ ?b) ?o] => rewrite (@u64_at_app2 a b o) by len_lia
  | |- context [bytes_at (?a ++ ?b) ?o ?n] => rewrite (@bytes_at_exact a b o n) by len_lia
  | |- context [bytes_at (?a ++ ?b) ?o ?n] => rewrite (@bytes_at_app2 a b o n) by len_lia
  | |- context [bytes_at ?a ?o ?n] => rewrite (@bytes_at_self a o n) by len_lia
  | |- context [u8_at (le 1 ?v) ?o] => rewrite (@u8_at_le' v o) by (first [assumption | len_lia])
  | |- context [u16_at (le 2 ?v) ?o] => rewrite (@u16_at_le' v o) by (first [assumption | len_lia])
  | |- context [u32_at (le 4 ?v) ?o] => rewrite (@u32_at_le' v o) by (first [assumption | len_lia])
  end.
Ltac fields := rewrite <- ?app_assoc; repeat field_step.

(** ** NetBIOS frames *)
Lemma nb_frame_le ty p : len p < 16777216 ->
  nb_frame ty p = le 1 ty ++ drop 1 (be 4 (len p)) ++ p.
Proof.
  intros H. unfold nb_frame. replace (len p / 65536) with (len p / 256 / 256); [reflexivity|].
  now rewrite N.div_div.
Qed.
Lemma len_nb_frame ty p : len (nb_frame ty p) = 4 + len p.
Proof. unfold nb_frame. rewrite len_app. reflexivity. Qed.
#[global] Hint Rewrite len_nb_frame : len.

(** what the incoming bytes start with *)
Inductive next := NFrame (ty : N) (p rest : bytes) | NTooBig (rest : bytes) | NShort.
Definition next_frame (b : bytes) : next :=
  match b with
  | t :: x :: y :: z :: r =>
    let n := b2n x * 65536 + b2n y * 256 + b2n z in
    if NB_MAX <? n then NTooBig r
    else if n <=? len r then NFrame (b2n t) (take n r) (drop n r)
    else NShort
  | _ => NShort
  end.

Lemma next_frame_complete ty p rest : ty < 256 -> len p <= NB_MAX ->
  next_frame (nb_frame ty p ++ rest) = NFrame ty p rest.
Proof.
  intros Ht Hp. unfold nb_frame. cbn [app next_frame].
  rewrite !b2n_n2b. unfold NB_MAX in *.
  replace (len p / 65536 mod 256 * 65536 + len p / 256 mod 256 * 256 + len p mod 256) with (len p) by lia.
  destruct (N.ltb_spec 131071 (len p)); [lia|].
  rewrite len_app. destruct (N.leb_spec (len p) (len p + len rest)); [|lia].
  rewrite take_exact, drop_exact, N.mod_small by lia. reflexivity.
Qed.

Lemma next_frame_inv b ty p rest : next_frame b = NFrame ty p rest ->
  b = nb_frame ty p ++ rest /\ ty < 256 /\ len p <= NB_MAX.
Proof.
  destruct b as [|t [|x [|y [|z r]]]]; cbn [next_frame]; try easy.
  set (n := b2n x * 65536 + b2n y * 256 + b2n z).
  destruct (N.ltb_spec NB_MAX n); [easy|]. destruct (N.leb_spec n (len r)); [|easy].
  intros [= <- <- <-].
  pose proof (b2n_lt t). pose proof (b2n_lt x). pose proof (b2n_lt y). pose proof (b2n_lt z).
  assert (Hl : len (take n r) = n) by (rewrite len_take; lia).
  split; [|split; lia].
  unfold nb_frame. rewrite Hl. cbn [app]. rewrite take_drop, n2b_b2n.
  repeat f_equal; apply b2n_inj; rewrite b2n_n2b; unfold n; lia.
Qed.


(** a frame whose announced length is beyond the limit *)

