(** * BaseFacts: lemmas about Base. *)
From Verif Require Import Base.
From Coq Require Export ZifyBool ZifyNat ZifyN.
Ltac Zify.zify_post_hook ::= Z.div_mod_to_equations.
Open Scope N_scope.

Arguments N.add : simpl never.
Arguments N.mul : simpl never.
Arguments N.sub : simpl never.
Arguments N.div : simpl never.
Arguments N.modulo : simpl never.
Arguments N.pow : simpl never.

(** ** bytes *)
Lemma b2n_lt b : b2n b < 256.
Proof. unfold b2n. pose proof (Byte.to_N_bounded b). lia. Qed.

Lemma n2b_b2n b : n2b (b2n b) = b.
Proof.
  unfold n2b. rewrite N.mod_small by apply b2n_lt.
  unfold b2n. now rewrite Byte.of_to_N.
Qed.

Lemma b2n_n2b n : b2n (n2b n) = n mod 256.
Proof.
  unfold n2b, b2n.
  destruct (Byte.of_N (n mod 256)) as [b|] eqn:H.
  - now apply Byte.to_of_N.
  - apply Byte.of_N_None_iff in H. pose proof (N.mod_lt n 256). lia.
Qed.

Lemma b2n_inj a b : b2n a = b2n b -> a = b.
Proof. intros H. rewrite <- (n2b_b2n a), <- (n2b_b2n b). now rewrite H. Qed.

(** ** lengths *)
Lemma len_nil {A} : len (@nil A) = 0.
Proof. reflexivity. Qed.
Lemma len_cons {A} (x : A) l : len (x :: l) = 1 + len l.
Proof. unfold len. cbn [length]. lia. Qed.
Lemma len_app {A} (a b : list A) : len (a ++ b) = len a + len b.
Proof. unfold len. rewrite app_length. lia. Qed.
Lemma len_0 {A} (l : list A) : len l = 0 -> l = [].
Proof. destruct l; [easy|]. rewrite len_cons. lia. Qed.
Lemma len_map {A B} (f : A -> B) l : len (map f l) = len l.
Proof. unfold len. now rewrite map_length. Qed.
Lemma len_repeat {A} (x : A) n : len (repeat x n) = N.of_nat n.
Proof. unfold len. now rewrite repeat_length. Qed.
Lemma len_zeros n : len (zeros n) = n.
Proof. unfold zeros. rewrite len_repeat. lia. Qed.
Lemma len_rev {A} (l : list A) : len (rev l) = len l.
Proof. unfold len. now rewrite rev_length. Qed.
Lemma len_eq {A} (l : list A) n : length l = n <-> len l = N.of_nat n.
Proof. unfold len. lia. Qed.
#[global] Hint Rewrite @len_nil @len_cons @len_app @len_map @len_repeat len_zeros @len_rev : len.

Lemma len_take {A} n (l : list A) : len (take n l) = N.min n (len l).
Proof. unfold take, len. rewrite firstn_length. lia. Qed.
Lemma len_drop {A} n (l : list A) : len (drop n l) = len l - n.
Proof. unfold drop, len. rewrite skipn_length. lia. Qed.
#[global] Hint Rewrite @len_take @len_drop : len.

Lemma take_drop {A} n (l : list A) : take n l ++ drop n l = l.
Proof. apply firstn_skipn. Qed.
Lemma take_0 {A} (l : list A) : take 0 l = [].
Proof. reflexivity. Qed.
Lemma drop_0 {A} (l : list A) : drop 0 l = l.
Proof. reflexivity. Qed.
Lemma take_all {A} n (l : list A) : len l <= n -> take n l = l.
Proof. intros. unfold take. apply firstn_all2. unfold len in *. lia. Qed.
Lemma drop_all {A} n (l : list A) : len l <= n -> drop n l = [].
Proof. intros. unfold drop. apply skipn_all2. unfold len in *. lia. Qed.
Lemma take_app {A} n (a b : list A) : take n (a ++ b) = take n a ++ take (n - len a) b.
Proof.
  unfold take. rewrite firstn_app. f_equal. f_equal. unfold len. lia.
Qed.
Lemma drop_app {A} n (a b : list A) : drop n (a ++ b) = drop n a ++ drop (n - len a) b.
Proof.
  unfold drop. rewrite skipn_app. f_equal. f_equal. unfold len. lia.
Qed.
Lemma take_exact {A} (a b : list A) : take (len a) (a ++ b) = a.
Proof. rewrite take_app, take_all, N.sub_diag by lia. rewrite take_0. apply app_nil_r. Qed.
Lemma drop_exact {A} (a b : list A) : drop (len a) (a ++ b) = b.
Proof. rewrite drop_app, drop_all, N.sub_diag by lia. now rewrite drop_0. Qed.
Lemma take_exact' {A} n (a b : list A) : n = len a -> take n (a ++ b) = a.
Proof. intros ->. apply take_exact. Qed.
Lemma drop_exact' {A} n (a b : list A) : n = len a -> drop n (a ++ b) = b.
Proof. intros ->. apply drop_exact. Qed.
Lemma drop_drop {A} a b (l : list A) : drop a (drop b l) = drop (b + a) l.
Proof.
  unfold drop. rewrite N2Nat.inj_add. generalize (N.to_nat a) (N.to_nat b). clear.
  intros a b. revert l. induction b; intros; [easy|]. destruct l; cbn; auto. now rewrite skipn_nil.
Qed.
Lemma take_take {A} a b (l : list A) : take a (take b l) = take (N.min a b) l.
Proof. unfold take. rewrite firstn_firstn. f_equal. lia. Qed.
Lemma drop_take {A} a b (l : list A) : drop a (take b l) = take (b - a) (drop a l).
Proof. unfold drop, take. rewrite skipn_firstn_comm. f_equal. lia. Qed.
Lemma take_cons {A} n (x : A) l : take (1 + n) (x :: l) = x :: take n l.
Proof. unfold take. replace (N.to_nat (1 + n)) with (S (N.to_nat n)) by lia. reflexivity. Qed.

(** ** little endian *)
Lemma le_length k v : length (le k v) = k.
Proof. revert v; induction k; intros; cbn; auto. Qed.
Lemma len_le k v : len (le k v) = N.of_nat k.
Proof. unfold len. now rewrite le_length. Qed.
#[global] Hint Rewrite len_le : len.
Lemma pow_S k : 256 ^ N.of_nat (S k) = 256 * 256 ^ N.of_nat k.
Proof. rewrite Nat2N.inj_succ, N.pow_succ_r'. reflexivity. Qed.
Lemma pow_pos k : 0 < 256 ^ k.
Proof. pose proof (N.pow_nonzero 256 k). lia. Qed.

Lemma unle_bound b : unle b < 256 ^ len b.
Proof.
  induction b as [|x r IH]; cbn [unle].
  - cbn. lia.
  - rewrite len_cons, N.pow_add_r, N.pow_1_r. pose proof (b2n_lt x). nia.
Qed.

Lemma mod_mul_split v m : 0 < m -> v mod (256 * m) = v mod 256 + 256 * ((v / 256) mod m).
Proof.
  intros. rewrite N.mod_mul_r by lia. reflexivity.
Qed.

Lemma unle_le k v : unle (le k v) = v mod 256 ^ N.of_nat k.
Proof.
  revert v; induction k; intros; cbn [le unle].
  - rewrite N.pow_0_r, N.mod_1_r. reflexivity.
  - rewrite b2n_n2b, IHk, pow_S. symmetry. apply mod_mul_split. apply pow_pos.
Qed.

Lemma unle_le_small k v : v < 256 ^ N.of_nat k -> unle (le k v) = v.
Proof. intros. rewrite unle_le. now apply N.mod_small. Qed.

Lemma le_unle b : le (length b) (unle b) = b.
Proof.
  induction b as [|x r IH]; cbn [length le unle]; [reflexivity|].
  pose proof (b2n_lt x). f_equal.
  - apply b2n_inj. rewrite b2n_n2b.
    rewrite N.mul_comm, N.mod_add by lia. now apply N.mod_small.
  - rewrite N.mul_comm, N.div_add, N.div_small, N.add_0_l by lia. exact IH.
Qed.

Lemma le_unle' k b : length b = k -> le k (unle b) = b.
Proof. intros <-. apply le_unle. Qed.


Lemma unle_app a b : unle (a ++ b) = unle a + 256 ^ len a * unle b.
Proof.
  induction a as [|x r IH]; cbn [unle app].
  - cbn -[N.mul]. change (256^0) with 1. lia.
  - rewrite IH, len_cons, N.pow_add_r, N.pow_1_r. lia.
Qed.

Lemma le_add a b v : le (a + b) v = le a v ++ le b (v / 256 ^ N.of_nat a).
Proof.
  revert v; induction a; intros; cbn [le Nat.add app].
  - now rewrite N.pow_0_r, N.div_1_r.
  - rewrite IHa. f_equal. f_equal. f_equal.
    rewrite N.div_div, pow_S; try lia.
Qed.


Lemma unbe_be_small k v : v < 256 ^ N.of_nat k -> unbe (be k v) = v.
Proof. intros. unfold unbe, be. rewrite rev_involutive. now apply unle_le_small. Qed.
Lemma be_length k v : length (be k v) = k.
Proof. unfold be. now rewrite rev_length, le_length. Qed.
Lemma len_be k v : len (be k v) = N.of_nat k.
Proof. unfold len. now rewrite be_length. Qed.
#[global] Hint Rewrite len_be : len.
Lemma be_unbe' k b : length b = k -> be k (unbe b) = b.
Proof.
  intros <-. unfold be, unbe. rewrite <- (rev_length b), le_unle. apply rev_involutive.
Qed.
Lemma unbe_bound b : unbe b < 256 ^ len b.
Proof. unfold unbe. pose proof (unle_bound (rev b)). now rewrite len_rev in H. Qed.

(** ** reading *)
Lemma get_le_app E k v r : v < 256 ^ N.of_nat k ->
  @get_le E k (le k v ++ r) = Ok (v, r).
Proof.
  intros. unfold get_le.
  rewrite app_length, le_length.
  destruct (Nat.ltb_spec (k + length r) k); [lia|].
  rewrite firstn_app, le_length, Nat.sub_diag, firstn_O, app_nil_r.
  rewrite firstn_all2 by (rewrite le_length; lia).
  rewrite skipn_app, le_length, Nat.sub_diag, skipn_O.
  rewrite skipn_all2 by (rewrite le_length; lia).
  now rewrite unle_le_small.
Qed.

Lemma get_le_short E k b : (length b < k)%nat -> @get_le E k b = Panic.
Proof. intros. unfold get_le. destruct (Nat.ltb_spec (length b) k); [easy|lia]. Qed.

Lemma get_le_ok E k b : (k <= length b)%nat ->
  @get_le E k b = Ok (unle (firstn k b), skipn k b).
Proof. intros. unfold get_le. destruct (Nat.ltb_spec (length b) k); [lia|easy]. Qed.


Lemma copy_app E n a r : n = len a -> @copy_to_bytes E n (a ++ r) = Ok (a, r).
Proof.
  intros ->. unfold copy_to_bytes. rewrite len_app.
  destruct (N.ltb_spec (len a + len r) (len a)); [lia|].
  now rewrite take_exact, drop_exact.
Qed.
Lemma advance_app E n a r : n = len a -> @advance E n (a ++ r) = Ok r.
Proof.
  intros ->. unfold advance. rewrite len_app.
  destruct (N.ltb_spec (len a + len r) (len a)); [lia|].
  now rewrite drop_exact.
Qed.
Lemma advance_inv E n b r : @advance E n b = Ok r -> exists a, b = a ++ r /\ len a = n.
Proof.
  unfold advance. destruct (N.ltb_spec (len b) n); [easy|].
  intros [= <-]. exists (take n b). rewrite take_drop, len_take. split; [easy|lia].
Qed.

Lemma rbind_ok E A B (x : res E A) (f : A -> res E B) b :
  rbind x f = Ok b -> exists a, x = Ok a /\ f a = Ok b.
Proof. destruct x; cbn; try easy. eauto. Qed.
Lemma rbind_panic E A B (x : res E A) (f : A -> res E B) :
  rbind x f = Panic -> x = Panic \/ exists a, x = Ok a /\ f a = Panic.
Proof. destruct x; cbn; try easy; eauto. Qed.

(** ** flags *)
Lemma land_le_r a b : N.land a b <= b.
Proof.
  apply N.ldiff_le. apply N.bits_inj. intros i.
  rewrite N.ldiff_spec, N.land_spec, N.bits_0. now destruct (N.testbit a i), (N.testbit b i).
Qed.

Lemma nth_error_len {A} (l : list A) i x : nth_error l i = Some x -> N.of_nat i < len l.
Proof. intros H. unfold len. assert (H0 : nth_error l i <> None) by congruence. apply nth_error_Some in H0. lia. Qed.

(** discharging concrete powers *)
Lemma p16 : 256 ^ N.of_nat 2 = 65536. Proof. reflexivity. Qed.
Lemma p32 : 256 ^ N.of_nat 4 = 4294967296. Proof. reflexivity. Qed.

Lemma fits_spec k v : fits k v = true <-> v < 2 ^ k.
Proof. unfold fits. apply N.ltb_lt. Qed.
Lemma try_into_ok E k (e : E) v r : try_into k e v = Ok r -> r = v /\ v < 2 ^ k.
Proof. unfold try_into. destruct (fits k v) eqn:H; [|easy]. intros [= <-]. split; [easy|]. now apply fits_spec. Qed.
Lemma try_into_small E k (e : E) v : v < 2 ^ k -> try_into k e v = Ok v.
Proof. intros H. unfold try_into. apply fits_spec in H. now rewrite H. Qed.
Lemma try_into_big E k (e : E) v : 2 ^ k <= v -> try_into k e v = Err e.
Proof. intros H. unfold try_into, fits. destruct (N.ltb_spec v (2 ^ k)); [lia|easy]. Qed.
