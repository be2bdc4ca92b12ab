(** * ReplyFacts: decoding replies. *)
From Coq Require Import Permutation.
From Verif Require Import Base BaseFacts Text Utils Win Errors Info Common Reply
  Spec SpecFacts TextFacts InfoFacts SpecReply SpecCrash.
Set Implicit Arguments.
Unset Strict Implicit.
Open Scope N_scope.

(** ** fields as numbers *)
Definition fld (k : nat) (b : bytes) (o : N) : N := unle (take (N.of_nat k) (drop o b)).

Lemma get_fld E k b o : o + N.of_nat k <= len b ->
  @get_le E k (drop o b) = Ok (fld k b o, drop (o + N.of_nat k) b).
Proof.
  intros H. rewrite get_le_ok by (pose proof (len_drop o b); unfold len in *; lia).
  unfold fld, take. rewrite Nat2N.id. do 2 f_equal. rewrite <- drop_drop. unfold drop at 2. now rewrite Nat2N.id.
Qed.
Lemma get_fld_short E k b o : len b < o + N.of_nat k -> (0 < k)%nat -> @get_le E k (drop o b) = Panic.
Proof. intros H Hk. apply get_le_short. pose proof (len_drop o b). unfold len in *. lia. Qed.
Lemma get_fld0 E k b : N.of_nat k <= len b -> @get_le E k b = Ok (fld k b 0, drop (N.of_nat k) b).
Proof. intros H. pose proof (@get_fld E k b 0 H) as G. rewrite drop_0 in G. exact G. Qed.
Lemma advance_drop E n b o : o + n <= len b -> @advance E n (drop o b) = Ok (drop (o + n) b).
Proof.
  intros H. unfold advance. rewrite len_drop, drop_drop. destruct (N.ltb_spec (len b - o) n); [lia|reflexivity].
Qed.
Lemma advance_short E n b o : len b < o + n -> 0 < n -> @advance E n (drop o b) = Panic.
Proof. intros H Hn. unfold advance. rewrite len_drop. destruct (N.ltb_spec (len b - o) n); [reflexivity|lia]. Qed.

Lemma fld_bound k b o : o + N.of_nat k <= len b -> fld k b o < 256 ^ N.of_nat k.
Proof.
  intros H. unfold fld. pose proof (unle_bound (take (N.of_nat k) (drop o b))) as G.
  rewrite len_take, len_drop in G. replace (N.min (N.of_nat k) (len b - o)) with (N.of_nat k) in G by lia. exact G.
Qed.
Lemma fld_split k b o : o + N.of_nat k <= len b ->
  b = take o b ++ le k (fld k b o) ++ drop (o + N.of_nat k) b.
Proof.
  intros H. unfold fld. rewrite le_unle'.
  - rewrite <- drop_drop. now rewrite take_drop, take_drop.
  - apply len_eq. rewrite len_take, len_drop. lia.
Qed.
Lemma u8_fld b o : o + 1 <= len b -> u8_at b o = Some (fld 1 b o).
Proof.
  intros H. pose proof (@fld_bound 1 b o H). rewrite (@fld_split 1 b o H) at 1.
  rewrite u8_at_app2 by (rewrite len_take; lia). apply u8_at_le; [rewrite len_take; lia|assumption].
Qed.
Lemma u16_fld b o : o + 2 <= len b -> u16_at b o = Some (fld 2 b o).
Proof.
  intros H. pose proof (@fld_bound 2 b o H). rewrite (@fld_split 2 b o H) at 1.
  rewrite u16_at_app2 by (rewrite len_take; lia). apply u16_at_le; [rewrite len_take; lia|assumption].
Qed.
Lemma u32_fld b o : o + 4 <= len b -> u32_at b o = Some (fld 4 b o).
Proof.
  intros H. pose proof (@fld_bound 4 b o H). rewrite (@fld_split 4 b o H) at 1.
  rewrite u32_at_app2 by (rewrite len_take; lia). apply u32_at_le; [rewrite len_take; lia|assumption].
Qed.
Lemma u64_fld b o : o + 8 <= len b -> u64_at b o = Some (fld 8 b o).
Proof.
  intros H. pose proof (@fld_bound 8 b o H). rewrite (@fld_split 8 b o H) at 1.
  rewrite u64_at_app2 by (rewrite len_take; lia). apply u64_at_le; [rewrite len_take; lia|assumption].
Qed.
Lemma bytes_fld b o n : o + n <= len b -> bytes_at b o n = Some (take n (drop o b)).
Proof. intros H. unfold bytes_at. destruct (N.leb_spec (o + n) (len b)); [reflexivity|lia]. Qed.

(** (injection would compute) *)
Lemma ok_inj E A (a a' : A) : @Ok E _ a = Ok a' -> a = a'.
Proof. intros H. injection H. auto. Qed.

Lemma some_inj A (a b : A) : Some a = Some b -> a = b.
Proof. intros H. injection H. auto. Qed.

(** ** flags *)
Lemma flags_of_iff known v f : flags_of known v f <-> f = N.land v known.
Proof.
  unfold flags_of. split.
  - intros H. apply N.bits_inj. intros k. now rewrite N.land_spec, H.
  - intros -> k. apply N.land_spec.
Qed.

(** ** the body of a reply *)
Definition body_split (b : bytes) : option (bytes * bytes * bytes) :=
  match b with
  | [] => None
  | n :: b1 =>
    if 2 * b2n n <=? len b1 then
      match drop (2 * b2n n) b1 with
      | x :: y :: b3 =>
        let m := b2n x + 256 * b2n y in
        if m <=? len b3 then Some (take (2 * b2n n) b1, take m b3, drop m b3) else None
      | _ => None
      end
    else None
  end.

Lemma body_split_iff p w d r : 32 <= len p ->
  (smb_parts p w d r <-> body_split (drop 32 p) = Some (w, d, r)).
Proof.
  intros Hl. split.
  - intros (h & n & Hh & Hw & Hn & Hd & ->). rewrite drop_exact' by auto. cbn [app body_split].
    rewrite b2n_n2b, N.mod_small by exact Hn. rewrite <- Hw.
    rewrite len_app. destruct (N.leb_spec (len w) (len w + len (n2b (len d) :: n2b (len d / 256) :: d ++ r))); [|lia].
    rewrite drop_exact, take_exact, !b2n_n2b.
    replace (len d mod 256 + 256 * (len d / 256 mod 256)) with (len d) by lia.
    rewrite len_app. destruct (N.leb_spec (len d) (len d + len r)); [|lia].
    now rewrite take_exact, drop_exact.
  - set (h := take 32 p). intros H. rewrite <- (take_drop 32 p). fold h.
    destruct (drop 32 p) as [|n b1]; [easy|]. cbn [body_split] in H.
    destruct (N.leb_spec (2 * b2n n) (len b1)) as [H1|]; [|easy].
    destruct (drop (2 * b2n n) b1) as [|x [|y b3]] eqn:Hd; try easy.
    destruct (N.leb_spec (b2n x + 256 * b2n y) (len b3)) as [H2|]; [|easy].
    injection H as <- <- <-.
    pose proof (b2n_lt n). pose proof (b2n_lt x). pose proof (b2n_lt y).
    exists h, (b2n n). unfold h. rewrite !len_take.
    repeat split; try lia.
    replace (N.min (b2n x + 256 * b2n y) (len b3)) with (b2n x + 256 * b2n y) by lia.
    f_equal. cbn [app]. f_equal; [now rewrite n2b_b2n|].
    rewrite <- (take_drop (2 * b2n n) b1) at 1. rewrite Hd. f_equal.
    rewrite take_drop. repeat f_equal; apply b2n_inj; rewrite b2n_n2b; lia.
Qed.
Lemma smb_parts_len p w d r : smb_parts p w d r -> 32 <= len p /\ len p = 35 + len w + len d + len r.
Proof. intros (h & n & Hh & Hw & Hn & Hd & ->). autorewrite with len. lia. Qed.
Lemma smb_parts_fun p w d r w' d' r' : smb_parts p w d r -> smb_parts p w' d' r' -> w = w' /\ d = d' /\ r = r'.
Proof.
  intros H H'. pose proof (smb_parts_len H) as [Hl _].
  apply (body_split_iff w d r Hl) in H. apply (body_split_iff w' d' r' Hl) in H'.
  rewrite H in H'. injection H'. auto.
Qed.
Lemma smb_parts_block p w d r o n b : smb_parts p w d r ->
  (block p w d o n b <-> 35 + len w <= o /\ o - (35 + len w) + n <= len d
                         /\ b = take n (drop (o - (35 + len w)) d)).
Proof.
  intros (h & k & Hh & Hw & Hk & Hd & Hp). unfold block.
  assert (G : 35 + len w <= o -> o + n <= 35 + len w + len d ->
    bytes_at p o n = Some (take n (drop (o - (35 + len w)) d))).
  { intros H1 H2. subst p. rewrite !app_assoc, <- (app_assoc _ d r).
    rewrite bytes_at_app2 by (autorewrite with len; cbn; lia).
    rewrite bytes_at_app1 by (autorewrite with len; cbn; lia).
    rewrite bytes_fld by (autorewrite with len; cbn; lia).
    do 3 f_equal. autorewrite with len. cbn. lia. }
  split.
  - intros (H1 & H2 & H3). rewrite G in H3 by assumption. injection H3 as <-. repeat split; lia.
  - intros (H1 & H2 & ->). repeat split; try lia. apply G; lia.
Qed.

Definition with_andx {R} (andx : bool) (w : bytes) (k : bytes -> res smb_error R) : res smb_error R :=
  if andx then
    if len w <? 4 then Panic
    else if fld 1 w 0 =? 255 then k (drop 4 w)
    else match cmd_of_code (fld 1 w 0) with
         | None => Err (InvalidCommand (fld 1 w 0))
         | Some _ => Err (Unsupported AndXChaining)
         end
  else k w.

Lemma reply_parse_split {R} (r : reply R) i b : reply_parse r i b =
  match body_split b with
  | None => Panic
  | Some (w, d, _) => with_andx (r_andx r) w (fun w' => r_create r (mk_ctx i w' d (35 + len w)))
  end.
Proof.
  unfold reply_parse, body_split. destruct b as [|n b1]; [reflexivity|].
  unfold get_u8. change (n :: b1) with ([n] ++ b1). rewrite <- (n2b_b2n n) at 1.
  change [n2b (b2n n)] with (le 1 (b2n n)). rewrite get_le_app by (apply b2n_lt). cbn [rbind].
  unfold copy_to_bytes at 1. destruct (N.ltb_spec (len b1) (2 * b2n n)), (N.leb_spec (2 * b2n n) (len b1)); try lia;
    cbn [rbind]; [reflexivity|].
  destruct (drop (2 * b2n n) b1) as [|x [|y b3]]; try reflexivity.
  unfold get_u16_le. rewrite get_fld0 by (autorewrite with len; lia). cbn [rbind].
  change (drop (N.of_nat 2) (x :: y :: b3)) with b3.
  change (fld 2 (x :: y :: b3) 0) with (unle [x; y]). replace (unle [x; y]) with (b2n x + 256 * b2n y) by (cbn [unle]; lia).
  unfold copy_to_bytes at 1.
  destruct (N.ltb_spec (len b3) (b2n x + 256 * b2n y)), (N.leb_spec (b2n x + 256 * b2n y) (len b3)); try lia;
    cbn [rbind]; [reflexivity|].
  set (w := take (2 * b2n n) b1).
  assert (Hw : SMB_HEADER_LEN + 1 + 2 * b2n n + 2 = 35 + len w).
  { unfold w, SMB_HEADER_LEN. rewrite len_take. lia. }
  rewrite Hw. set (d := take _ b3). clearbody w d. unfold with_andx.
  destruct (r_andx r); [|reflexivity]. cbn [rbind].
  unfold andx_parse, get_u8, get_u16_le. 
  destruct (N.ltb_spec (len w) 4) as [H4|H4].
  - destruct w as [|w0 [|w1 [|w2 [|w3 w]]]]; try reflexivity. autorewrite with len in H4. lia.
  - rewrite get_fld0 by lia. cbn [rbind]. rewrite advance_drop by lia. cbn [rbind].
    change (N.of_nat 1 + 1) with 2. rewrite get_fld by lia. cbn [rbind]. change (2 + N.of_nat 2) with 4.
    change 0xff with 255. destruct (fld 1 w 0 =? 255); [reflexivity|].
    destruct (cmd_of_code (fld 1 w 0)); reflexivity.
Qed.

Lemma unchained_iff w : unchained w <-> 4 <= len w /\ fld 1 w 0 = 255.
Proof.
  unfold unchained. split; intros [H1 H2]; split; auto.
  - rewrite u8_fld in H2 by lia. congruence.
  - rewrite u8_fld by lia. congruence.
Qed.

Lemma parse_cases {R} (r : reply R) i p : 32 <= len p ->
  (cut_short p /\ reply_parse r i (drop 32 p) = Panic)
  \/ exists w d rest, smb_parts p w d rest
     /\ reply_parse r i (drop 32 p)
        = with_andx (r_andx r) w (fun w' => r_create r (mk_ctx i w' d (35 + len w))).
Proof.
  intros Hl. rewrite reply_parse_split. destruct (body_split (drop 32 p)) as [[[w d] rest]|] eqn:H.
  - right. exists w, d, rest. split; [now apply body_split_iff|reflexivity].
  - left. split; [|reflexivity]. split; [exact Hl|]. intros (w & d & rest & Hp).
    apply body_split_iff in Hp; [|exact Hl]. congruence.
Qed.
Lemma with_andx_ok {R} b w k (v : R) : with_andx b w k = Ok v <->
  (if b then unchained w /\ k (drop 4 w) = Ok v else k w = Ok v).
Proof.
  unfold with_andx. destruct b; [|reflexivity]. rewrite unchained_iff.
  destruct (N.ltb_spec (len w) 4); [split; [easy|intros [[? _] _]; lia]|].
  destruct (N.eqb_spec (fld 1 w 0) 255); [tauto|].
  destruct (cmd_of_code (fld 1 w 0)); split; try easy; tauto.
Qed.
Lemma with_andx_panic {R} b w (k : bytes -> res smb_error R) : with_andx b w k = Panic <->
  (if b then len w < 4 \/ (unchained w /\ k (drop 4 w) = Panic) else k w = Panic).
Proof.
  unfold with_andx. destruct b; [|reflexivity]. rewrite unchained_iff.
  destruct (N.ltb_spec (len w) 4); [tauto|].
  destruct (N.eqb_spec (fld 1 w 0) 255).
  { split; [auto|]. intros [?|[_ ?]]; [lia|assumption]. }
  destruct (cmd_of_code (fld 1 w 0)); split; try easy; intros [?|[[_ ?] _]]; lia.
Qed.

(** what [reply_parse] returns, for a message with these parts *)
Lemma parse_parts {R} (r : reply R) i p w d rest : smb_parts p w d rest ->
  reply_parse r i (drop 32 p) = with_andx (r_andx r) w (fun w' => r_create r (mk_ctx i w' d (35 + len w))).
Proof.
  intros H. rewrite reply_parse_split. pose proof (smb_parts_len H) as [Hl _].
  apply body_split_iff in H; [|exact Hl]. now rewrite H.
Qed.
Lemma parse_ok {R} (r : reply R) i p v : 32 <= len p -> (reply_parse r i (drop 32 p) = Ok v <->
  exists w d rest, smb_parts p w d rest
    /\ if r_andx r then unchained w /\ r_create r (mk_ctx i (drop 4 w) d (35 + len w)) = Ok v
       else r_create r (mk_ctx i w d (35 + len w)) = Ok v).
Proof.
  intros Hl. destruct (parse_cases r i Hl) as [[Hc Hp]|(w & d & rest & Hp & He)].
  - rewrite Hp. split; [easy|]. intros (w & d & rest & H & _). destruct Hc as [_ []]. eauto.
  - rewrite He, with_andx_ok. split.
    + intros H. exists w, d, rest. auto.
    + intros (w' & d' & rest' & H & H'). destruct (smb_parts_fun Hp H) as (<- & <- & <-). exact H'.
Qed.
Lemma parse_panic {R} (r : reply R) i p : 32 <= len p -> (reply_parse r i (drop 32 p) = Panic <->
  no_body (r_andx r) p
  \/ exists w d rest, smb_parts p w d rest
    /\ if r_andx r then unchained w /\ r_create r (mk_ctx i (drop 4 w) d (35 + len w)) = Panic
       else r_create r (mk_ctx i w d (35 + len w)) = Panic).
Proof.
  intros Hl. unfold no_body. destruct (parse_cases r i Hl) as [[Hc Hp]|(w & d & rest & Hp & He)].
  - rewrite Hp. split; auto.
  - rewrite He, with_andx_panic. split.
    + destruct (r_andx r).
      * intros [H|H]; [left; right; eauto 8|right; exists w, d, rest; auto].
      * right; exists w, d, rest; auto.
    + intros [[[_ []]|(Ha & w' & d' & rest' & H & H')]|(w' & d' & rest' & H & H')]; [eauto| |].
      * destruct (smb_parts_fun Hp H) as (<- & <- & <-). rewrite Ha. auto.
      * destruct (smb_parts_fun Hp H) as (<- & <- & <-). destruct (r_andx r); auto.
Qed.

(** ** reading through a block of words *)
Lemma g8 E b o o' : o' <= len b -> o + 1 = o' -> @get_u8 E (drop o b) = Ok (fld 1 b o, drop o' b).
Proof. intros H <-. now apply get_fld. Qed.
Lemma g16 E b o o' : o' <= len b -> o + 2 = o' -> @get_u16_le E (drop o b) = Ok (fld 2 b o, drop o' b).
Proof. intros H <-. now apply get_fld. Qed.
Lemma g32 E b o o' : o' <= len b -> o + 4 = o' -> @get_u32_le E (drop o b) = Ok (fld 4 b o, drop o' b).
Proof. intros H <-. now apply get_fld. Qed.
Lemma g64 E b o o' : o' <= len b -> o + 8 = o' -> @get_u64_le E (drop o b) = Ok (fld 8 b o, drop o' b).
Proof. intros H <-. now apply get_fld. Qed.
Lemma gadv E n b o o' : o' <= len b -> o + n = o' -> @advance E n (drop o b) = Ok (drop o' b).
Proof. intros H <-. now apply advance_drop. Qed.
Lemma s8 E b o : len b < o + 1 -> @get_u8 E (drop o b) = Panic.
Proof. intros H. apply get_fld_short; [exact H|lia]. Qed.
Lemma s16 E b o : len b < o + 2 -> @get_u16_le E (drop o b) = Panic.
Proof. intros H. apply get_fld_short; [exact H|lia]. Qed.
Lemma s32 E b o : len b < o + 4 -> @get_u32_le E (drop o b) = Panic.
Proof. intros H. apply get_fld_short; [exact H|lia]. Qed.
Lemma s64 E b o : len b < o + 8 -> @get_u64_le E (drop o b) = Panic.
Proof. intros H. apply get_fld_short; [exact H|lia]. Qed.

Ltac rd1 :=
  match goal with
  | |- context [@get_u8 ?E (drop ?o ?b)] =>
    let o' := eval vm_compute in (o + 1) in rewrite (@g8 E b o o') by (first [lia | reflexivity]); cbn [rbind]
  | |- context [@get_u16_le ?E (drop ?o ?b)] =>
    let o' := eval vm_compute in (o + 2) in rewrite (@g16 E b o o') by (first [lia | reflexivity]); cbn [rbind]
  | |- context [@get_u32_le ?E (drop ?o ?b)] =>
    let o' := eval vm_compute in (o + 4) in rewrite (@g32 E b o o') by (first [lia | reflexivity]); cbn [rbind]
  | |- context [@get_u64_le ?E (drop ?o ?b)] =>
    let o' := eval vm_compute in (o + 8) in rewrite (@g64 E b o o') by (first [lia | reflexivity]); cbn [rbind]
  | |- context [@advance ?E ?n (drop ?o ?b)] =>
    let o' := eval vm_compute in (o + n) in rewrite (@gadv E n b o o') by (first [lia | reflexivity]); cbn [rbind]
  end.
Ltac rd := repeat rd1.
(** in a block known to be too short: read until it fails *)
Ltac rd_short1 :=
  match goal with
  | |- context [@get_u8 ?E (drop ?o ?b)] =>
    let H := fresh in destruct (N.lt_ge_cases (len b) (o + 1)) as [H|H];
    [rewrite (@s8 E b o H); reflexivity | rd1]
  | |- context [@get_u16_le ?E (drop ?o ?b)] =>
    let H := fresh in destruct (N.lt_ge_cases (len b) (o + 2)) as [H|H];
    [rewrite (@s16 E b o H); reflexivity | rd1]
  | |- context [@get_u32_le ?E (drop ?o ?b)] =>
    let H := fresh in destruct (N.lt_ge_cases (len b) (o + 4)) as [H|H];
    [rewrite (@s32 E b o H); reflexivity | rd1]
  | |- context [@get_u64_le ?E (drop ?o ?b)] =>
    let H := fresh in destruct (N.lt_ge_cases (len b) (o + 8)) as [H|H];
    [rewrite (@s64 E b o H); reflexivity | rd1]
  | |- context [@advance ?E ?n (drop ?o ?b)] =>
    let H := fresh in destruct (N.lt_ge_cases (len b) (o + n)) as [H|H];
    [rewrite (@advance_short E n b o H) by lia; reflexivity | rd1]
  end.
Ltac rd_short := repeat rd_short1; exfalso; lia.

(** turning the fields of a specification into numbers *)
Lemma fld_eq8 w o v : o + 1 <= len w -> (u8_at w o = Some v <-> v = fld 1 w o).
Proof. intros H. rewrite u8_fld by exact H. split; [intros [= <-]; reflexivity|intros ->; reflexivity]. Qed.
Lemma fld_eq16 w o v : o + 2 <= len w -> (u16_at w o = Some v <-> v = fld 2 w o).
Proof. intros H. rewrite u16_fld by exact H. split; [intros [= <-]; reflexivity|intros ->; reflexivity]. Qed.
Lemma fld_eq32 w o v : o + 4 <= len w -> (u32_at w o = Some v <-> v = fld 4 w o).
Proof. intros H. rewrite u32_fld by exact H. split; [intros [= <-]; reflexivity|intros ->; reflexivity]. Qed.
Lemma fld_eq64 w o v : o + 8 <= len w -> (u64_at w o = Some v <-> v = fld 8 w o).
Proof. intros H. rewrite u64_fld by exact H. split; [intros [= <-]; reflexivity|intros ->; reflexivity]. Qed.
Ltac flds_in H :=
  repeat match type of H with
  | context [u8_at ?w ?o = Some ?v] => rewrite (@fld_eq8 w o v) in H by lia
  | context [u16_at ?w ?o = Some ?v] => rewrite (@fld_eq16 w o v) in H by lia
  | context [u32_at ?w ?o = Some ?v] => rewrite (@fld_eq32 w o v) in H by lia
  | context [u64_at ?w ?o = Some ?v] => rewrite (@fld_eq64 w o v) in H by lia
  end.

(** header fields of the reply a decoder sees *)
Definition head_of (p : bytes) (i : info) : Prop :=
  32 <= len p /\ u16_at p 24 = Some (i_tid i) /\ u16_at p 28 = Some (i_uid i)
  /\ exists f2, u16_at p 10 = Some f2 /\ i_flags2 i = N.land f2 Flags2_all.

Lemma info_head p i r : info_parse p = Ok (i, r) -> head_of p i.
Proof.
  intros H. apply info_parse_ok_fields in H.
  destruct H as ((Hl & _) & _ & _ & Ht & Hu & _ & H2 & _). unfold head_of. auto.
Qed.

(** the masks *)
Lemma trunc_eq a b v : a = b -> truncate_bits a v = N.land v b.
Proof. intros ->. reflexivity. Qed.
Lemma trunc_oplock v : truncate_bits OpLockLevel_all v = N.land v OPLOCK_BITS.
Proof. apply trunc_eq. vm_compute. reflexivity. Qed.
Lemma trunc_disposition v : truncate_bits CreateDisposition_all v = N.land v DISPOSITION_BITS.
Proof. apply trunc_eq. vm_compute. reflexivity. Qed.
Lemma trunc_attr v : truncate_bits ExtFileAttr_all v = N.land v FILE_ATTR_BITS.
Proof. apply trunc_eq. vm_compute. reflexivity. Qed.
Lemma trunc_resource v : truncate_bits ResourceType_all v = N.land v RESOURCE_BITS.
Proof. apply trunc_eq. vm_compute. reflexivity. Qed.
Lemma trunc_dir_access v : truncate_bits DirAccessMask_all v = N.land v DIR_ACCESS_BITS.
Proof. apply trunc_eq. vm_compute. reflexivity. Qed.
Lemma trunc_capabilities v : truncate_bits Capabilities_all v = N.land v CAPABILITY_BITS.
Proof. apply trunc_eq. vm_compute. reflexivity. Qed.

(** ** create *)
Lemma handle_create_eq i w d o : handle_create (mk_ctx i (drop 4 w) d o) =
  if len w <? 68 then Panic else
  let h := fun dir => mk_handle (i_tid i) (fld 2 w 5)
        (N.land (fld 1 w 4) OPLOCK_BITS)
        (N.land (fld 4 w 7) DISPOSITION_BITS)
        (fld 8 w 11) (fld 8 w 19) (fld 8 w 27) (fld 8 w 35)
        (N.land (fld 4 w 43) FILE_ATTR_BITS)
        (fld 8 w 47) (fld 8 w 55)
        (N.land (fld 2 w 63) RESOURCE_BITS) dir in
  if fld 1 w 67 =? 0 then Ok (h false) else if fld 1 w 67 =? 1 then Ok (h true) else Err InvalidData.
Proof.
  unfold handle_create. cbn [c_parameter c_info]. cbv zeta.
  destruct (N.ltb_spec (len w) 68) as [H|H].
  - rd_short.
  - rd. rewrite trunc_oplock, trunc_disposition, trunc_attr, trunc_resource.
    destruct (fld 1 w 67 =? 0); [reflexivity|]. destruct (fld 1 w 67 =? 1); reflexivity.
Qed.

Lemma handle_ok1 i p h w d rest : u16_at p 24 = Some (i_tid i) -> smb_parts p w d rest -> unchained w ->
  handle_create (mk_ctx i (drop 4 w) d (35 + len w)) = Ok h -> handle_of p h.
Proof.
  intros Ht Hp Hu Hc. rewrite handle_create_eq in Hc.
  destruct (N.ltb_spec (len w) 68); [easy|]. cbv zeta in Hc.
  exists w, d, rest, (fld 1 w 4), (fld 4 w 7), (fld 4 w 43), (fld 2 w 63).
  rewrite Ht, !u8_fld, !u16_fld, !u32_fld, !u64_fld by lia.
  rewrite !flags_of_iff.
  split; [exact Hp|]. split; [exact Hu|]. revert Hc.
  generalize (fld 1 w 67) (fld 2 w 63) (fld 8 w 55) (fld 8 w 47) (fld 4 w 43) (fld 8 w 35) (fld 8 w 27) (fld 8 w 19)
    (fld 8 w 11) (fld 4 w 7) (fld 2 w 5) (fld 1 w 4) (i_tid i).
  intros x1 x2 x3 x4 x5 x6 x7 x8 x9 x10 x11 x12 x13 Hc.
  destruct (N.eqb_spec x1 0) as [->|E].
  - apply ok_inj in Hc. subst h. repeat split.
  - destruct (N.eqb_spec x1 1) as [->|E1]; [|easy]. apply ok_inj in Hc. subst h. repeat split.
Qed.
Lemma f8 w o v : u8_at w o = Some v -> v = fld 1 w o.
Proof. intros H. pose proof (u8_at_bound _ _ _ H). rewrite u8_fld in H by lia. now apply some_inj in H. Qed.
Lemma f16 w o v : u16_at w o = Some v -> v = fld 2 w o.
Proof. intros H. pose proof (u16_at_bound _ _ _ H). rewrite u16_fld in H by lia. now apply some_inj in H. Qed.
Lemma f32 w o v : u32_at w o = Some v -> v = fld 4 w o.
Proof. intros H. pose proof (u32_at_bound _ _ _ H). rewrite u32_fld in H by lia. now apply some_inj in H. Qed.
Lemma f64 w o v : u64_at w o = Some v -> v = fld 8 w o.
Proof. intros H. pose proof (u64_at_bound _ _ _ H). rewrite u64_fld in H by lia. now apply some_inj in H. Qed.
Ltac flds := repeat match goal with
  | H : u8_at _ _ = Some _ |- _ => apply f8 in H
  | H : u16_at _ _ = Some _ |- _ => apply f16 in H
  | H : u32_at _ _ = Some _ |- _ => apply f32 in H
  | H : u64_at _ _ = Some _ |- _ => apply f64 in H
  | H : flags_of _ _ _ |- _ => apply flags_of_iff in H
  end.

Lemma handle_ok2 i p h : u16_at p 24 = Some (i_tid i) -> handle_of p h ->
  exists w d rest, smb_parts p w d rest /\ unchained w
   /\ handle_create (mk_ctx i (drop 4 w) d (35 + len w)) = Ok h.
Proof.
  intros Ht (w & d & rest & ol & di & at_ & ft & Hp & Hu & Ht' & H).
  exists w, d, rest. split; [exact Hp|]. split; [exact Hu|]. rewrite handle_create_eq.
  rewrite Ht in Ht'. apply some_inj in Ht'. rewrite Ht'. clear Ht Ht' Hp Hu. cbv zeta.
  destruct h as [a1 a2 a3 a4 a5 a6 a7 a8 a9 a10 a11 a12 dir].
  cbn [h_tid h_fid h_oplock h_disposition h_create_time h_access_time h_write_time h_change_time h_attributes h_allocation_size h_size h_file_type h_directory] in *.
  destruct H as (H1 & H2 & H3 & H4 & H5 & H6 & H7 & H8 & H9 & H10 & H11 & H12 & H13 & H14 & H15 & H16).
  pose proof (u8_at_bound _ _ _ H16) as [Hw _]. destruct (N.ltb_spec (len w) 68); [lia|]. clear H Hw.
  flds. rewrite <- H3, <- H1, <- H2, <- H4, <- H5, <- H6, <- H7, <- H8, <- H9, <- H10, <- H11, <- H12, <- H13,
    <- H14, <- H15, <- H16.
  destruct dir; reflexivity.
Qed.
Lemma handle_ok i p h : head_of p i ->
  (reply_parse r_handle i (drop 32 p) = Ok h <-> handle_of p h).
Proof.
  intros (Hl & Ht & _). rewrite parse_ok by exact Hl. cbn [r_handle r_andx r_create]. split.
  - intros (w & d & rest & Hp & Hu & Hc). eapply handle_ok1; eauto.
  - intros H. apply (handle_ok2 Ht H).
Qed.
Lemma handle_panic i p : 32 <= len p ->
  (reply_parse r_handle i (drop 32 p) = Panic <-> crash_handle p).
Proof.
  intros Hl. rewrite parse_panic by exact Hl. cbn [r_handle r_andx r_create]. unfold crash_handle.
  apply or_iff_compat_l. split; intros (w & d & rest & Hp & Hu & H); exists w, d, rest;
    (split; [exact Hp|]); (split; [exact Hu|]); rewrite handle_create_eq in *;
    destruct (N.ltb_spec (len w) 68); try easy; try lia.
  cbv zeta in H. destruct (fld 1 w 67 =? 0); [easy|]. destruct (fld 1 w 67 =? 1); easy.
Qed.

(** ** read *)
Lemma read_create_eq i w d o : read_create (mk_ctx i (drop 4 w) d o) =
  if len w <? 12 then Panic else
  let n := fld 2 w 10 in
  if len d =? n then Ok d else if len d =? n + 1 then Ok (drop 1 d) else Err InvalidData.
Proof.
  unfold read_create. cbn [c_parameter c_data]. cbv zeta.
  destruct (N.ltb_spec (len w) 12) as [H|H]; [rd_short|]. rd. generalize (fld 2 w 10). intros n.
  destruct (N.ltb_spec n (len d)) as [Hn|Hn].
  - unfold advance. destruct (N.ltb_spec (len d) 1); [lia|]. cbn [rbind]. rewrite len_drop.
    destruct (N.eqb_spec (len d) n); [lia|].
    destruct (N.eqb_spec (len d - 1) n), (N.eqb_spec (len d) (n + 1)); try lia; cbn [negb]; [|reflexivity].
    unfold copy_to_bytes. rewrite len_drop. destruct (N.ltb_spec (len d - 1) n); [lia|]. cbn [rbind].
    now rewrite take_all by (rewrite len_drop; lia).
  - cbn [rbind]. destruct (N.eqb_spec (len d) n), (N.eqb_spec (len d) (n + 1)); try lia; cbn [negb]; try reflexivity.
    unfold copy_to_bytes. destruct (N.ltb_spec (len d) n); [lia|]. cbn [rbind].
    now rewrite take_all by lia.
Qed.
Lemma read_ok i p v : 32 <= len p ->
  (reply_parse r_read i (drop 32 p) = Ok v <-> read_of p v).
Proof.
  intros Hl. rewrite parse_ok by exact Hl. cbn [r_read r_andx r_create]. unfold read_of. split.
  - intros (w & d & rest & Hp & Hu & H). exists w, d, rest. split; [exact Hp|]. split; [exact Hu|].
    rewrite read_create_eq in H. destruct (N.ltb_spec (len w) 12); [easy|]. cbv zeta in H.
    rewrite u16_fld by lia.
    destruct (N.eqb_spec (len d) (fld 2 w 10)) as [E|E].
    + apply ok_inj in H. subst v. split; [now rewrite E|now left].
    + destruct (N.eqb_spec (len d) (fld 2 w 10 + 1)) as [E'|E']; [|easy]. apply ok_inj in H. subst v. split.
      * rewrite len_drop. f_equal. lia.
      * right. destruct d as [|x d]; [cbn in E'; lia|]. now exists x.
  - intros (w & d & rest & Hp & Hu & Hn & H). exists w, d, rest. split; [exact Hp|]. split; [exact Hu|].
    rewrite read_create_eq. pose proof (u16_at_bound _ _ _ Hn) as [Hb _]. apply f16 in Hn.
    destruct (N.ltb_spec (len w) 12); [lia|]. cbv zeta. rewrite <- Hn. destruct H as [->|[x ->]].
    + now rewrite N.eqb_refl.
    + rewrite len_cons. destruct (N.eqb_spec (1 + len v) (len v)); [lia|].
      destruct (N.eqb_spec (1 + len v) (len v + 1)); [reflexivity|lia].
Qed.
Lemma read_panic i p : 32 <= len p ->
  (reply_parse r_read i (drop 32 p) = Panic <-> crash_read p).
Proof.
  intros Hl. rewrite parse_panic by exact Hl. cbn [r_read r_andx r_create]. unfold crash_read.
  apply or_iff_compat_l. split; intros (w & d & rest & Hp & Hu & H); exists w, d, rest;
    (split; [exact Hp|]); (split; [exact Hu|]); rewrite read_create_eq in *;
    destruct (N.ltb_spec (len w) 12); try easy; try lia.
  cbv zeta in H. destruct (len d =? fld 2 w 10); [easy|]. destruct (len d =? fld 2 w 10 + 1); easy.
Qed.

(** ** session setup *)
Lemma session_create_eq i w d o : session_setup_create (mk_ctx i (drop 4 w) d o) =
  if len w <? 6 then Panic else
  let n := if len w <? 8 then 0 else fld 2 w 6 in
  if len d <? n then Panic else Ok (mk_session (N.testbit (fld 2 w 4) 0) (i_uid i) (take n d)).
Proof.
  unfold session_setup_create. cbn [c_parameter c_data c_info]. cbv zeta.
  destruct (N.ltb_spec (len w) 6) as [H|H]; [rd_short|]. rd1. rewrite len_drop.
  assert (Hg : forall a, (N.land a 1 =? 1) = N.testbit a 0).
  { intros a. change 1 with (2 ^ 0). rewrite land_pow2. now destruct (N.testbit a 0). }
  rewrite Hg.
  destruct (N.leb_spec 2 (len w - 6)), (N.ltb_spec (len w) 8); try lia; cbn [rbind].
  - rd. unfold copy_to_bytes. destruct (len d <? fld 2 w 6); reflexivity.
  - unfold copy_to_bytes. destruct (N.ltb_spec (len d) 0); [lia|reflexivity].
Qed.
Lemma session_ok i p v : head_of p i ->
  (reply_parse r_session_setup i (drop 32 p) = Ok v <-> session_of p v).
Proof.
  intros (Hl & _ & Huid & _). rewrite parse_ok by exact Hl. cbn [r_session_setup r_andx r_create]. split.
  - intros (w & d & rest & Hp & Hu & H). rewrite session_create_eq in H.
    destruct (N.ltb_spec (len w) 6) as [|H6]; [easy|]. cbv zeta in H.
    set (n := if len w <? 8 then 0 else fld 2 w 6) in H.
    destruct (N.ltb_spec (len d) n) as [|Hn]; [easy|]. apply ok_inj in H. subst v.
    exists w, d, rest, (fld 2 w 4), n, (drop n d). cbn [ss_uid ss_guest_mode ss_blob].
    split; [exact Hp|]. split; [exact Hu|]. split; [exact Huid|]. split; [now apply u16_fld|].
    split; [reflexivity|]. rewrite take_drop, len_take.
    split; [|split; [reflexivity|lia]].
    unfold n. destruct (N.leb_spec 8 (len w)), (N.ltb_spec (len w) 8); try lia. now apply u16_fld.
  - intros (w & d & rest & a & n & more & Hp & Hu & Hi & Ha & Hg & Hn & -> & Hb).
    exists w, (ss_blob v ++ more), rest. split; [exact Hp|]. split; [exact Hu|]. rewrite session_create_eq.
    pose proof (u16_at_bound _ _ _ Ha) as [Hw _]. apply f16 in Ha. destruct (N.ltb_spec (len w) 6); [lia|]. cbv zeta.
    assert ((if len w <? 8 then 0 else fld 2 w 6) = n) as ->.
    { destruct (N.leb_spec 8 (len w)), (N.ltb_spec (len w) 8); try lia. apply f16 in Hn. congruence. }
    rewrite len_app. destruct (N.ltb_spec (len (ss_blob v) + len more) n); [lia|].
    rewrite take_exact' by auto. rewrite <- Ha, <- Hg. rewrite Huid in Hi. apply some_inj in Hi. rewrite Hi.
    destruct v; reflexivity.
Qed.
Lemma session_panic i p : 32 <= len p ->
  (reply_parse r_session_setup i (drop 32 p) = Panic <-> crash_session p).
Proof.
  intros Hl. rewrite parse_panic by exact Hl. cbn [r_session_setup r_andx r_create]. unfold crash_session.
  apply or_iff_compat_l. split; intros (w & d & rest & Hp & Hu & H); exists w, d, rest;
    (split; [exact Hp|]); (split; [exact Hu|]); rewrite session_create_eq in *;
    destruct (N.ltb_spec (len w) 6) as [H6|H6]; auto; cbv zeta in *.
  - right. destruct (N.ltb_spec (len w) 8) as [H8|H8].
    + destruct (N.ltb_spec (len d) 0); [lia|easy].
    + destruct (N.ltb_spec (len d) (fld 2 w 6)); [|easy]. exists (fld 2 w 6). split; [now apply u16_fld|assumption].
  - destruct H as [?|(n & Hn & Hd)]; [lia|]. pose proof (u16_at_bound _ _ _ Hn). apply f16 in Hn.
    destruct (N.ltb_spec (len w) 8); [lia|]. rewrite <- Hn. destruct (N.ltb_spec (len d) n); [reflexivity|lia].
Qed.

(** ** replies without content *)
Lemma plain_ok (r : reply unit) i p : 32 <= len p -> r_andx r = false -> (forall c, r_create r c = Ok tt) ->
  (reply_parse r i (drop 32 p) = Ok tt <-> plain_reply p).
Proof.
  intros Hl Ha Hc. rewrite parse_ok by exact Hl. rewrite Ha. unfold plain_reply. split.
  - intros (w & d & rest & Hp & _). eauto.
  - intros (w & d & rest & Hp). exists w, d, rest. auto.
Qed.
Lemma plain_panic (r : reply unit) i p : 32 <= len p -> r_andx r = false -> (forall c, r_create r c = Ok tt) ->
  (reply_parse r i (drop 32 p) = Panic <-> crash_plain p).
Proof.
  intros Hl Ha Hc. rewrite parse_panic by exact Hl. rewrite Ha. unfold crash_plain. split.
  - intros [H|(w & d & rest & Hp & H)]; [exact H|]. now rewrite Hc in H.
  - auto.
Qed.

(** ** times *)
Lemma time_ok E t : t < 2 ^ 64 -> @decode_windows_time E t = Ok (t / 10).
Proof.
  intros H. unfold decode_windows_time. destruct (N.ltb_spec (t / 10) chrono_max_us) as [|G]; [reflexivity|].
  change (2 ^ 64) with 18446744073709551616 in H. change chrono_max_us with 8221942886400000000 in G. lia.
Qed.
Lemma time_fld E b o : o + 8 <= len b -> @decode_windows_time E (fld 8 b o) = Ok (fld 8 b o / 10).
Proof. intros H. apply time_ok. now apply (@fld_bound 8). Qed.

(** ** negotiate *)
Lemma server_create_eq i w d o : server_setup_create (mk_ctx i w d o) =
  if len w <? 17 then Err (Unsupported TooFewParameter) else
  if fld 2 w 0 =? 0xffff then Err NoDialect else
  if 1 <=? fld 2 w 0 then Err InvalidHeader else
  if len w <? 34 then Panic else
  if len d <? fld 1 w 33 then Err InvalidData else
  Ok (mk_server (fld 2 w 0) (fld 1 w 2) (fld 2 w 3) (fld 2 w 5) (fld 4 w 7) (fld 4 w 11) (fld 4 w 15)
    (N.land (fld 4 w 19) CAPABILITY_BITS) (fld 8 w 23 / 10) (fld 2 w 31) (take (fld 1 w 33) d)).
Proof.
  unfold server_setup_create. cbn [c_parameter c_data]. cbv zeta.
  destruct (N.ltb_spec (len w) 17) as [|H]; [reflexivity|].
  replace (@get_u16_le smb_error w) with (@get_u16_le smb_error (drop 0 w)) by (now rewrite drop_0).
  rd1. change (len SMB_SUPPORTED_DIALECTS) with 1.
  destruct (fld 2 w 0 =? 65535); [reflexivity|]. destruct (1 <=? fld 2 w 0); [reflexivity|].
  destruct (N.ltb_spec (len w) 34) as [H'|H'].
  - repeat rd_short1; try (rewrite time_fld by lia; cbn [rbind]); repeat rd_short1; exfalso; lia.
  - rd. rewrite time_fld by lia. cbn [rbind]. rd. rewrite trunc_capabilities.
    unfold copy_to_bytes. destruct (len d <? fld 1 w 33); reflexivity.
Qed.
Lemma server_ok i p v : 32 <= len p ->
  (reply_parse r_server_setup i (drop 32 p) = Ok v <-> server_of p v).
Proof.
  intros Hl. rewrite parse_ok by exact Hl. cbn [r_server_setup r_andx r_create]. split.
  - intros (w & d & rest & Hp & H). rewrite server_create_eq in H.
    destruct (N.ltb_spec (len w) 17); [easy|]. destruct (fld 2 w 0 =? 65535); [easy|].
    destruct (N.leb_spec 1 (fld 2 w 0)) as [|HH]; [easy|]. destruct (N.ltb_spec (len w) 34); [easy|].
    destruct (N.ltb_spec (len d) (fld 1 w 33)) as [|Hd]; [easy|]. apply ok_inj in H. subst v.
    exists w, d, rest, (fld 4 w 19), (fld 8 w 23), (fld 1 w 33), (drop (fld 1 w 33) d).
    cbn [s_dialect s_security_mode s_max_mpx_count s_max_number_vcs s_max_buffer_size s_max_raw_size s_session_key
      s_capabilities s_system_time s_timezone s_challenge].
    rewrite !u8_fld, !u16_fld, !u32_fld, !u64_fld, flags_of_iff, take_drop, len_take by lia.
    repeat match goal with |- _ /\ _ => split; [first [exact Hp | reflexivity | lia] |] end. lia.
  - intros (w & d & rest & caps & ticks & n & more & Hp & H1 & H2 & H3 & H4 & H5 & H6 & H7 & H8 & H9 & H10 & H11 & H12 & H13 & H14 & H15 & H16).
    exists w, d, rest. split; [exact Hp|]. rewrite server_create_eq.
    pose proof (u8_at_bound _ _ _ H14) as [Hb _].
    destruct (N.ltb_spec (len w) 17); [lia|]. destruct (N.ltb_spec (len w) 34); [lia|].
    flds. destruct v as [v1 v2 v3 v4 v5 v6 v7 v8 v9 v10 v11].
    cbn [s_dialect s_security_mode s_max_mpx_count s_max_number_vcs s_max_buffer_size s_max_raw_size s_session_key
      s_capabilities s_system_time s_timezone s_challenge] in *.
    rewrite <- H1, H2. destruct (N.eqb_spec 0 65535); [lia|]. destruct (N.leb_spec 1 0); [lia|].
    rewrite <- H3, <- H4, <- H5, <- H6, <- H7, <- H8, <- H9, <- H11, <- H13, <- H14, <- H10, <- H12.
    subst d. rewrite len_app, H16. destruct (N.ltb_spec (n + len more) n); [lia|].
    rewrite take_exact' by auto. reflexivity.
Qed.
Lemma server_panic i p : 32 <= len p ->
  (reply_parse r_server_setup i (drop 32 p) = Panic <-> crash_server p).
Proof.
  intros Hl. rewrite parse_panic by exact Hl. cbn [r_server_setup r_andx r_create]. unfold crash_server.
  apply or_iff_compat_l. split; intros (w & d & rest & Hp & H); exists w, d, rest;
    (split; [exact Hp|]); rewrite server_create_eq in *.
  - destruct (N.ltb_spec (len w) 17); [easy|]. destruct (fld 2 w 0 =? 65535); [easy|].
    destruct (N.leb_spec 1 (fld 2 w 0)) as [|HH]; [easy|]. destruct (N.ltb_spec (len w) 34).
    + split; [lia|]. rewrite u16_fld by lia. f_equal. lia.
    + destruct (len d <? fld 1 w 33); easy.
  - destruct H as [H1 H2]. apply f16 in H2. rewrite <- H2. destruct (N.ltb_spec (len w) 17); [lia|].
    destruct (N.eqb_spec 0 65535); [lia|]. destruct (N.leb_spec 1 0); [lia|]. destruct (N.ltb_spec (len w) 34); [easy|lia].
Qed.

(** ** tree connect *)
Lemma optional_rights_eq w o : o <= len w -> optional_rights (drop o w) =
  if len w <? o + 4 then Ok (None, drop o w) else Ok (Some (N.land (fld 4 w o) DIR_ACCESS_BITS), drop (o + 4) w).
Proof.
  intros H. unfold optional_rights. rewrite len_drop.
  destruct (N.leb_spec 4 (len w - o)), (N.ltb_spec (len w) (o + 4)); try lia; [|reflexivity].
  rewrite (@g32 _ w o (o + 4)) by lia. cbn [rbind]. now rewrite trunc_dir_access.
Qed.
Lemma rights_of_fun w o r : rights_of w o r <->
  r = if len w <? o + 4 then None else Some (N.land (fld 4 w o) DIR_ACCESS_BITS).
Proof.
  unfold rights_of. destruct (N.ltb_spec (len w) (o + 4)) as [H|H]; split.
  - destruct r; [|easy]. intros (v & Hv & _). apply u32_at_bound in Hv. lia.
  - intros ->. exact H.
  - destruct r; [|lia]. intros (v & Hv & Hf). apply f32 in Hv. apply flags_of_iff in Hf. now subst.
  - intros ->. exists (fld 4 w o). split; [now apply u32_fld|now apply flags_of_iff].
Qed.

Definition strings (uni : bool) (d : bytes) : res smb_error (text * text) :=
  let* (service, data) := map_err of_parse_str_error (parse_str_0 d) in
  let* (filesystem, _) :=
    (if uni then
       let* data := (if len (utf8 service) mod 2 =? 1 then advance 1 data else Ok data) in
       map_err of_parse_str_error (parse_utf16le_0 data)
     else map_err of_parse_str_error (parse_str_0 data)) in
  Ok (service, filesystem).

Lemma share_create_eq i w d o : share_create (mk_ctx i (drop 4 w) d o) =
  if len w <? 6 then Panic else
  let* (s, f) := strings (contains (i_flags2 i) F2_UNICODE) d in
  Ok (mk_share (if len w <? 10 then None else Some (N.land (fld 4 w 6) DIR_ACCESS_BITS))
               (if len w <? 14 then None else Some (N.land (fld 4 w 10) DIR_ACCESS_BITS)) s f (i_tid i)).
Proof.
  unfold share_create. cbn [c_parameter c_data c_info]. destruct (N.ltb_spec (len w) 6) as [H|H]; [rd_short|].
  rd. rewrite optional_rights_eq by lia. change (6 + 4) with 10. unfold strings.
  assert (G : forall A B C (x : res smb_error (A * B)) (f : A -> B -> res smb_error C) (D : Type) (g : C -> res smb_error D),
    rbind (rbind x (fun '(a, b) => f a b)) g = rbind x (fun '(a, b) => rbind (f a b) g)).
  { intros. destruct x as [[a b]| |]; reflexivity. }
  destruct (N.ltb_spec (len w) 10); cbn [rbind].
  - rewrite optional_rights_eq by lia. change (6 + 4) with 10. destruct (N.ltb_spec (len w) 10); [|lia]. cbn [rbind].
    destruct (N.ltb_spec (len w) 14); [|lia].
    destruct (map_err of_parse_str_error (parse_str_0 d)) as [[s r]| |]; cbn [rbind]; try reflexivity.
    match goal with |- context [rbind (if ?b then ?x else ?y) _] => destruct (if b then x else y) as [[? ?]| |] end; reflexivity.
  - rewrite optional_rights_eq by lia. change (10 + 4) with 14. 
    destruct (N.ltb_spec (len w) 14); cbn [rbind];
    destruct (map_err of_parse_str_error (parse_str_0 d)) as [[s r]| |]; cbn [rbind]; try reflexivity;
    match goal with |- context [rbind (if ?b then ?x else ?y) _] => destruct (if b then x else y) as [[? ?]| |] end; reflexivity.
Qed.
Lemma map_err_ok E F (f : E -> F) A (x : res E A) a : map_err f x = Ok a <-> x = Ok a.
Proof. destruct x; cbn; split; congruence. Qed.
Lemma map_err_panic E F (f : E -> F) A (x : res E A) : map_err f x = Panic <-> x = Panic.
Proof. destruct x; cbn; split; congruence. Qed.

Definition strings_of (uni : bool) (d : bytes) (s f : text) : Prop :=
  exists sv fs more, utf8_of s sv /\ ~ In x00 sv /\
  if uni then exists pad, len pad = len sv mod 2
        /\ d = sv ++ [x00] ++ pad ++ fs ++ [x00; x00] ++ more
        /\ utf16le_of f fs /\ ~ In 0 f
      else d = sv ++ [x00] ++ fs ++ [x00] ++ more
        /\ utf8_of f fs /\ ~ In x00 fs.

Lemma strings_ok uni d s f : strings uni d = Ok (s, f) <-> strings_of uni d s f.
Proof.
  unfold strings, strings_of. split.
  - intros H. apply rbind_ok in H. destruct H as ([s' r] & H1 & H). apply map_err_ok, parse_str_0_ok in H1.
    destruct H1 as (sv & -> & Hz & Hs). pose proof (utf8_of_inv Hs) as [_ Hsv].
    apply rbind_ok in H. destruct H as ([f' r'] & H1 & H). apply ok_inj in H.
    assert (s' = s /\ f' = f) as [-> ->] by (split; congruence). destruct uni.
    + apply rbind_ok in H1. destruct H1 as (data & H2 & H1). apply map_err_ok, parse_utf16le_0_ok in H1.
      destruct H1 as (fs & -> & Hf & Hn). rewrite <- Hsv in H2.
      exists sv, fs, r'. split; [exact Hs|]. split; [exact Hz|].
      destruct (N.eqb_spec (len sv mod 2) 1) as [E|E].
      * apply advance_inv in H2. destruct H2 as (pad & -> & Hp). exists pad. repeat split; auto; congruence.
      * apply ok_inj in H2. subst r. exists []. repeat split; auto. change (len (@nil byte)) with 0. lia.
    + apply map_err_ok, parse_str_0_ok in H1. destruct H1 as (fs & -> & Hn & Hf).
      exists sv, fs, r'. auto.
  - intros (sv & fs & more & Hs & Hz & H). pose proof (utf8_of_inv Hs) as [_ Hsv]. destruct uni.
    + destruct H as (pad & Hp & -> & Hf & Hn).
      assert (parse_str_0 (sv ++ [x00] ++ pad ++ fs ++ [x00; x00] ++ more) = Ok (s, pad ++ fs ++ [x00; x00] ++ more)) as ->
        by (apply parse_str_0_ok; exists sv; auto).
      cbn [map_err rbind]. rewrite <- Hsv.
      assert (parse_utf16le_0 (fs ++ [x00; x00] ++ more) = Ok (f, more)) as G by (apply parse_utf16le_0_ok; exists fs; auto).
      destruct (N.eqb_spec (len sv mod 2) 1) as [E|E].
      * rewrite advance_app by congruence. cbn [rbind]. now rewrite G.
      * assert (pad = []) as -> by (apply len_0; lia). cbn [rbind app] in *. now rewrite G.
    + destruct H as (-> & Hf & Hn).
      assert (parse_str_0 (sv ++ [x00] ++ fs ++ [x00] ++ more) = Ok (s, fs ++ [x00] ++ more)) as ->
        by (apply parse_str_0_ok; exists sv; auto).
      cbn [map_err rbind].
      assert (parse_str_0 (fs ++ [x00] ++ more) = Ok (f, more)) as -> by (apply parse_str_0_ok; exists fs; auto).
      reflexivity.
Qed.
Lemma strings_panic uni d : strings uni d = Panic <->
  uni = true /\ exists s sv, d = sv ++ [x00] /\ utf8_of s sv /\ ~ In x00 sv /\ len sv mod 2 = 1.
Proof.
  unfold strings. split.
  - intros H. apply rbind_panic in H. destruct H as [H|([s r] & H1 & H)].
    { apply map_err_panic in H. now apply parse_str_0_no_panic in H. }
    apply map_err_ok, parse_str_0_ok in H1. destruct H1 as (sv & -> & Hz & Hs).
    pose proof (utf8_of_inv Hs) as [_ Hsv]. rewrite <- Hsv in H.
    apply rbind_panic in H. destruct H as [H|([f r'] & H1 & H)]; [|easy]. destruct uni.
    + split; [reflexivity|]. apply rbind_panic in H. destruct H as [H|(r2 & _ & H)].
      * destruct (N.eqb_spec (len sv mod 2) 1) as [E|E]; [|easy]. unfold advance in H.
        destruct (N.ltb_spec (len r) 1) as [Hr|]; [|easy]. assert (r = []) as -> by (apply len_0; lia). eauto 8.
      * apply map_err_panic in H. now apply parse_utf16le_0_no_panic in H.
    + apply map_err_panic in H. now apply parse_str_0_no_panic in H.
  - intros (-> & s & sv & -> & Hs & Hz & Ho). pose proof (utf8_of_inv Hs) as [_ Hsv].
    assert (parse_str_0 (sv ++ [x00]) = Ok (s, [])) as -> by (apply parse_str_0_ok; exists sv; auto).
    cbn [map_err rbind]. rewrite <- Hsv, Ho. reflexivity.
Qed.
Lemma unicode_flag f : contains (N.land f Flags2_all) F2_UNICODE = N.testbit f 15.
Proof. change F2_UNICODE with (2 ^ 15). rewrite contains_pow2. now apply testbit_land_all. Qed.

Lemma share_ok i p v : head_of p i ->
  (reply_parse r_share i (drop 32 p) = Ok v <-> share_of p v).
Proof.
  intros (Hl & Ht & _ & f2 & Hf2 & Hi2). rewrite parse_ok by exact Hl. cbn [r_share r_andx r_create].
  assert (Hu2 : contains (i_flags2 i) F2_UNICODE = N.testbit f2 15) by (rewrite Hi2; apply unicode_flag).
  split.
  - intros (w & d & rest & Hp & Hu & H). rewrite share_create_eq, Hu2 in H.
    destruct (N.ltb_spec (len w) 6); [easy|]. apply rbind_ok in H. destruct H as ([s f] & H1 & H).
    apply strings_ok in H1. destruct H1 as (sv & fs & more & H1 & H2 & H3). apply ok_inj in H. subst v.
    exists w, d, rest, f2, sv, fs, more. cbn [sh_tid sh_access_rights sh_guest_rights sh_service sh_filesystem].
    rewrite !rights_of_fun. change (6 + 4) with 10. change (10 + 4) with 14. repeat (split; [auto|]). exact H3.
  - intros (w & d & rest & f2' & sv & fs & more & Hp & Hu & Ht' & H6 & Hr1 & Hr2 & Hf & H1 & H2 & H3).
    exists w, d, rest. split; [exact Hp|]. split; [exact Hu|]. rewrite share_create_eq, Hu2.
    destruct (N.ltb_spec (len w) 6); [lia|].
    rewrite Hf2 in Hf. apply some_inj in Hf. subst f2'. rewrite Ht in Ht'. apply some_inj in Ht'.
    assert (strings (N.testbit f2 15) d = Ok (sh_service v, sh_filesystem v)) as ->.
    { apply strings_ok. exists sv, fs, more. auto. }
    cbn [rbind]. apply rights_of_fun in Hr1, Hr2. change (6 + 4) with 10 in Hr1. change (10 + 4) with 14 in Hr2.
    rewrite <- Hr1, <- Hr2, Ht'. destruct v; reflexivity.
Qed.
Lemma share_panic i p : head_of p i ->
  (reply_parse r_share i (drop 32 p) = Panic <-> crash_share p).
Proof.
  intros (Hl & Ht & _ & f2 & Hf2 & Hi2). rewrite parse_panic by exact Hl. cbn [r_share r_andx r_create].
  assert (Hu2 : contains (i_flags2 i) F2_UNICODE = N.testbit f2 15) by (rewrite Hi2; apply unicode_flag).
  unfold crash_share. apply or_iff_compat_l. split; intros (w & d & rest & Hp & Hu & H); exists w, d, rest;
    (split; [exact Hp|]); (split; [exact Hu|]); rewrite share_create_eq, ?Hu2 in *;
    destruct (N.ltb_spec (len w) 6) as [H6|H6]; auto.
  - right. apply rbind_panic in H. destruct H as [H|([s f] & _ & H)]; [|easy].
    apply strings_panic in H. destruct H as (H1 & s & sv & H). exists f2, s, sv. auto.
  - destruct H as [?|(f2' & s & sv & Hf & Hb & H)]; [lia|]. rewrite Hf2 in Hf. apply some_inj in Hf. subst f2'.
    assert (strings (N.testbit f2 15) d = Panic) as ->; [|reflexivity].
    apply strings_panic. split; [exact Hb|]. exists s, sv. exact H.
Qed.
Lemma bytes_at_some b o n v : bytes_at b o n = Some v -> o + n <= len b /\ v = take n (drop o b).
Proof.
  unfold bytes_at. destruct (N.leb_spec (o + n) (len b)); [|easy]. intros H1. apply some_inj in H1. auto.
Qed.

(** ** NT transact *)
Definition blk (o n base : N) (d : bytes) : res smb_error bytes :=
  if 0 <? n then let* off := ok_or (try_sub o base) InvalidData in slice off (off + n) d else Ok [].
Definition blk0 (o n base : N) (d : bytes) : res smb_error bytes :=
  let* off := ok_or (try_sub o base) InvalidData in slice off (off + n) d.

Lemma blk0_eq o n base d : blk0 o n base d =
  if o <? base then Err InvalidData else if len d <? o - base + n then Panic else Ok (take n (drop (o - base) d)).
Proof.
  unfold blk0, try_sub, slice. destruct (N.leb_spec base o), (N.ltb_spec o base); try lia; cbn [ok_or rbind]; [|reflexivity].
  destruct (N.leb_spec (o - base) (o - base + n)); [|lia].
  destruct (N.leb_spec (o - base + n) (len d)), (N.ltb_spec (len d) (o - base + n)); try lia; cbn [andb]; [|reflexivity].
  do 2 f_equal. lia.
Qed.
Lemma blk0_ok p w d rest o n b : smb_parts p w d rest ->
  (blk0 o n (35 + len w) d = Ok b <-> block p w d o n b).
Proof.
  intros H. rewrite (smb_parts_block o n b H), blk0_eq.
  destruct (N.ltb_spec o (35 + len w)); [split; [easy|lia]|].
  destruct (N.ltb_spec (len d) (o - (35 + len w) + n)); [split; [easy|lia]|].
  split; [intros G; apply ok_inj in G; auto|intros (_ & _ & ->); reflexivity].
Qed.
Lemma blk0_panic w d o n : blk0 o n (35 + len w) d = Panic <-> overrun w d o n.
Proof.
  rewrite blk0_eq. unfold overrun.
  destruct (N.ltb_spec o (35 + len w)); [split; [easy|lia]|].
  destruct (N.ltb_spec (len d) (o - (35 + len w) + n)); split; try easy; lia.
Qed.
Lemma blk_ok p w d rest o n b : smb_parts p w d rest ->
  (blk o n (35 + len w) d = Ok b <-> if n =? 0 then b = [] else block p w d o n b).
Proof.
  intros H. unfold blk. destruct (N.ltb_spec 0 n), (N.eqb_spec n 0); try lia.
  - now apply (blk0_ok o n b H).
  - split; [intros G; apply ok_inj in G; auto|intros ->; reflexivity].
Qed.
Lemma blk_panic w d o n : blk o n (35 + len w) d = Panic <-> 0 < n /\ overrun w d o n.
Proof.
  unfold blk. destruct (N.ltb_spec 0 n).
  - fold (blk0 o n (35 + len w) d). rewrite blk0_panic. tauto.
  - split; [easy|lia].
Qed.

Lemma transact_create_eq T (sub : bytes -> bytes -> bytes -> res smb_error T) i w d base :
  transact_create sub (mk_ctx i w d base) =
  if len w <? 36 then Panic else if len w <? 36 + 2 * fld 1 w 35 then Panic else
  if (fld 4 w 11 <? fld 4 w 3) || (fld 4 w 23 <? fld 4 w 7) then Err (Unsupported SplitTransaction) else
  let* a := blk (fld 4 w 15) (fld 4 w 11) base d in
  let* b := blk (fld 4 w 27) (fld 4 w 23) base d in
  sub (take (2 * fld 1 w 35) (drop 36 w)) a b.
Proof.
  unfold transact_create. cbn [c_parameter c_data c_data_offset].
  replace (@advance smb_error 3 w) with (@advance smb_error 3 (drop 0 w)) by (now rewrite drop_0).
  destruct (N.ltb_spec (len w) 36) as [H|H]; [rd_short|]. rd. unfold copy_to_bytes. rewrite len_drop.
  destruct (N.ltb_spec (len w - 36) (2 * fld 1 w 35)), (N.ltb_spec (len w) (36 + 2 * fld 1 w 35)); try lia; reflexivity.
Qed.
Lemma transact_ok T (sub : bytes -> bytes -> bytes -> res smb_error T) i p v : 32 <= len p ->
  (reply_parse (r_transact sub) i (drop 32 p) = Ok v <->
   exists s a b, transact_of p s a b /\ sub s a b = Ok v).
Proof.
  intros Hl. rewrite parse_ok by exact Hl. cbn [r_transact r_andx r_create]. split.
  - intros (w & d & rest & Hp & H). rewrite transact_create_eq in H.
    destruct (N.ltb_spec (len w) 36); [easy|]. destruct (N.ltb_spec (len w) (36 + 2 * fld 1 w 35)); [easy|].
    destruct (N.ltb_spec (fld 4 w 11) (fld 4 w 3)), (N.ltb_spec (fld 4 w 23) (fld 4 w 7)); cbn [orb] in H; try easy.
    apply rbind_ok in H. destruct H as (a & Ha & H). apply rbind_ok in H. destruct H as (b & Hb & H).
    apply (blk_ok _ _ _ Hp) in Ha, Hb.
    exists (take (2 * fld 1 w 35) (drop 36 w)), a, b. split; [|exact H].
    exists w, d, rest, (fld 4 w 3), (fld 4 w 7), (fld 4 w 11), (fld 4 w 15), (fld 4 w 23), (fld 4 w 27), (fld 1 w 35).
    rewrite !u8_fld, !u32_fld, bytes_fld by lia. 
    repeat match goal with |- _ /\ _ => split; [first [exact Hp | reflexivity | assumption] |] end. exact Hb.
  - intros (s & a & b & (w & d & rest & tp & td & np & op & nd & od & ns & Hp & H1 & H2 & H3 & H4 & H5 & H6 & H7 & H8 & H9 & H10 & H11 & H12) & H).
    exists w, d, rest. split; [exact Hp|]. rewrite transact_create_eq.
    pose proof (u8_at_bound _ _ _ H7). pose proof (bytes_at_some H8) as [Hb Hs]. flds.
    rewrite <- H1, <- H2, <- H3, <- H4, <- H5, <- H6, <- H7.
    destruct (N.ltb_spec (len w) 36); [lia|]. destruct (N.ltb_spec (len w) (36 + 2 * ns)); [lia|].
    destruct (N.ltb_spec np tp); [lia|]. destruct (N.ltb_spec nd td); [lia|]. cbn [orb].
    apply (blk_ok _ _ _ Hp) in H11, H12. rewrite H11. cbn [rbind]. rewrite H12. cbn [rbind]. now rewrite <- Hs.
Qed.
Lemma transact_panic T (sub : bytes -> bytes -> bytes -> res smb_error T) i p : 32 <= len p ->
  (reply_parse (r_transact sub) i (drop 32 p) = Panic <->
   crash_transact p \/ exists s a b, transact_of p s a b /\ sub s a b = Panic).
Proof.
  intros Hl. rewrite parse_panic by exact Hl. cbn [r_transact r_andx r_create]. unfold crash_transact.
  split.
  - intros [H|(w & d & rest & Hp & H)]; [auto|]. rewrite transact_create_eq in H.
    destruct (N.ltb_spec (len w) 36). { left; right. exists w, d, rest. auto. }
    destruct (N.ltb_spec (len w) (36 + 2 * fld 1 w 35)).
    { left; right. exists w, d, rest. split; [auto|]. right; left. exists (fld 1 w 35). split; [apply u8_fld; lia|assumption]. }
    destruct (N.ltb_spec (fld 4 w 11) (fld 4 w 3)), (N.ltb_spec (fld 4 w 23) (fld 4 w 7)); cbn [orb] in H; try easy.
    assert (Hc : (0 < fld 4 w 11 /\ overrun w d (fld 4 w 15) (fld 4 w 11))
             \/ ((fld 4 w 11 = 0 \/ exists b, block p w d (fld 4 w 15) (fld 4 w 11) b) /\ 0 < fld 4 w 23 /\ overrun w d (fld 4 w 27) (fld 4 w 23))
             \/ exists a b, (if fld 4 w 11 =? 0 then a = [] else block p w d (fld 4 w 15) (fld 4 w 11) a)
                 /\ (if fld 4 w 23 =? 0 then b = [] else block p w d (fld 4 w 27) (fld 4 w 23) b)
                 /\ sub (take (2 * fld 1 w 35) (drop 36 w)) a b = Panic).
    { apply rbind_panic in H. destruct H as [H|(a & Ha & H)]; [left; now apply blk_panic|right].
      apply (blk_ok _ _ _ Hp) in Ha.
      apply rbind_panic in H. destruct H as [H|(b & Hb & H)]; [left|right].
      - split; [|now apply blk_panic]. destruct (N.eqb_spec (fld 4 w 11) 0); eauto.
      - apply (blk_ok _ _ _ Hp) in Hb. eauto. }
    clear H. destruct Hc as [Hc|[Hc|(a & b & Ha & Hb & H)]].
    1, 2: left; right; exists w, d, rest; split; [exact Hp|]; right; right;
      exists (fld 4 w 3), (fld 4 w 7), (fld 4 w 11), (fld 4 w 15), (fld 4 w 23), (fld 4 w 27), (fld 1 w 35);
      rewrite !u8_fld, !u32_fld by lia;
      repeat match goal with |- _ /\ _ => split; [first [reflexivity | assumption] |] end; tauto.
    right. exists (take (2 * fld 1 w 35) (drop 36 w)), a, b. split; [|exact H].
    exists w, d, rest, (fld 4 w 3), (fld 4 w 7), (fld 4 w 11), (fld 4 w 15), (fld 4 w 23), (fld 4 w 27), (fld 1 w 35).
    rewrite !u8_fld, !u32_fld, bytes_fld by lia. 
    repeat match goal with |- _ /\ _ => split; [first [exact Hp | reflexivity | assumption] |] end. exact Hb.
  - intros [[H|(w & d & rest & Hp & H)]|(s & a & b & (w & d & rest & tp & td & np & op & nd & od & ns & Hp & H1 & H2 & H3 & H4 & H5 & H6 & H7 & H8 & H9 & H10 & H11 & H12) & H)];
      [auto| |]; right; exists w, d, rest; (split; [exact Hp|]); rewrite transact_create_eq;
      destruct (N.ltb_spec (len w) 36) as [H36|H36]; try reflexivity.
    + destruct H as [H|[(ns & Hn & H)|(tp & td & np & op & nd & od & ns & Hn & Hw & H1 & H2 & H3 & H4 & H5 & H6 & Ht & Hd & H)]]; [lia| |]; flds.
      * rewrite <- Hn. destruct (N.ltb_spec (len w) (36 + 2 * ns)); [reflexivity|lia].
      * rewrite <- H1, <- H2, <- H3, <- H4, <- H5, <- H6, <- Hn.
        destruct (N.ltb_spec (len w) (36 + 2 * ns)); [lia|].
        destruct (N.ltb_spec np tp); [lia|]. destruct (N.ltb_spec nd td); [lia|]. cbn [orb].
        destruct H as [H|[Hb H]].
        -- apply blk_panic in H. now rewrite H.
        -- apply blk_panic in H. destruct Hb as [->|[b Hb]].
           ++ change (blk op 0 (35 + len w) d) with (@Ok smb_error bytes []). cbn [rbind]. now rewrite H.
           ++ apply (blk0_ok _ _ _ Hp) in Hb. unfold blk at 1. destruct (N.ltb_spec 0 np); [fold (blk0 op np (35 + len w) d); rewrite Hb|];
              cbn [rbind]; now rewrite H.
    + pose proof (bytes_at_some H8) as [Hb Hs]. flds.
      rewrite <- H1, <- H2, <- H3, <- H4, <- H5, <- H6, <- H7.
      destruct (N.ltb_spec (len w) (36 + 2 * ns)); [lia|].
      destruct (N.ltb_spec np tp); [lia|]. destruct (N.ltb_spec nd td); [lia|]. cbn [orb].
      apply (blk_ok _ _ _ Hp) in H11, H12. rewrite H11. cbn [rbind]. rewrite H12. cbn [rbind]. now rewrite <- Hs.
Qed.

(** ** change notifications *)
Lemma action_table a v : action_of_code v = Some a <-> v = action_number a.
Proof.
  split.
  - intros H. apply action_of_code_inv in H. subst v. destruct a; reflexivity.
  - intros ->. destruct a; reflexivity.
Qed.
Lemma parse_notify_info_eq b o : o + 4 <= len b -> parse_notify_info (drop (o + 4) b) =
  if len b <? o + 12 then Err InvalidData else
  let* action := ok_or (action_of_code (fld 4 b (o + 4))) InvalidData in
  if len b <? o + 12 + fld 4 b (o + 8) then Err InvalidData else
  let* filename := map_err of_utf16_error (decode_utf16le (take (fld 4 b (o + 8)) (drop (o + 12) b))) in
  Ok (filename, action).
Proof.
  intros H. unfold parse_notify_info. rewrite len_drop.
  destruct (N.ltb_spec (len b - (o + 4)) 8), (N.ltb_spec (len b) (o + 12)); try lia; [reflexivity|].
  rewrite (@g32 _ b (o + 4) (o + 8)) by lia. cbn [rbind]. destruct (action_of_code (fld 4 b (o + 4))); [|reflexivity].
  cbn [ok_or rbind]. rewrite (@g32 _ b (o + 8) (o + 12)) by lia. cbn [rbind]. unfold copy_to_bytes. rewrite len_drop.
  destruct (N.ltb_spec (len b - (o + 12)) (fld 4 b (o + 8))), (N.ltb_spec (len b) (o + 12 + fld 4 b (o + 8))); try lia; reflexivity.
Qed.
Lemma parse_notify_info_ok b o c : o + 4 <= len b ->
  (parse_notify_info (drop (o + 4) b) = Ok c <-> notify_entry b o c).
Proof.
  intros H. rewrite parse_notify_info_eq by exact H. destruct c as [s a]. unfold notify_entry. cbn [fst snd]. split.
  - destruct (N.ltb_spec (len b) (o + 12)); [easy|]. destruct (action_of_code (fld 4 b (o + 4))) as [a'|] eqn:Ha; [|easy].
    cbn [ok_or rbind]. destruct (N.ltb_spec (len b) (o + 12 + fld 4 b (o + 8))); [easy|]. intros G.
    apply rbind_ok in G. destruct G as (s' & G1 & G). apply map_err_ok, decode_utf16le_ok in G1.
    apply ok_inj in G. injection G as -> ->. apply action_table in Ha.
    exists (fld 4 b (o + 8)), (take (fld 4 b (o + 8)) (drop (o + 12) b)).
    rewrite !u32_fld, bytes_fld by lia. rewrite Ha. auto.
  - intros (n & raw & H1 & H2 & H3 & H4). pose proof (bytes_at_some H3) as [Hb Hs]. flds. 
    rewrite <- H1, <- H2. destruct (N.ltb_spec (len b) (o + 12)); [lia|]. rewrite (proj2 (action_table a _) eq_refl).
    cbn [ok_or rbind]. destruct (N.ltb_spec (len b) (o + 12 + n)); [lia|]. rewrite <- Hs.
    apply decode_utf16le_ok in H4. now rewrite H4.
Qed.
Lemma parse_notify_info_panic b o : o + 4 <= len b ->
  (parse_notify_info (drop (o + 4) b) = Panic <->
   exists a n raw, u32_at b (o + 4) = Some (action_number a) /\
    u32_at b (o + 8) = Some n /\ bytes_at b (o + 12) n = Some raw /\ cut_utf16 raw).
Proof.
  intros H. rewrite parse_notify_info_eq by exact H. split.
  - destruct (N.ltb_spec (len b) (o + 12)); [easy|]. destruct (action_of_code (fld 4 b (o + 4))) as [a'|] eqn:Ha; [|easy].
    cbn [ok_or rbind]. destruct (N.ltb_spec (len b) (o + 12 + fld 4 b (o + 8))); [easy|]. intros G.
    apply rbind_panic in G. destruct G as [G|(s & _ & G)]; [|easy]. apply map_err_panic, decode_utf16le_panic in G.
    apply action_table in Ha.
    exists a', (fld 4 b (o + 8)), (take (fld 4 b (o + 8)) (drop (o + 12) b)).
    rewrite !u32_fld, bytes_fld by lia. rewrite Ha. auto.
  - intros (a & n & raw & H1 & H2 & H3 & H4). pose proof (bytes_at_some H3) as [Hb Hs]. flds. 
    rewrite <- H1, <- H2. destruct (N.ltb_spec (len b) (o + 12)); [lia|]. rewrite (proj2 (action_table a _) eq_refl).
    cbn [ok_or rbind]. destruct (N.ltb_spec (len b) (o + 12 + n)); [lia|]. rewrite <- Hs.
    apply decode_utf16le_panic in H4. now rewrite H4.
Qed.

(** enough rounds always suffice *)
Lemma notification_loop_total fuel b o acc : o <= len b -> len b + 1 < o + N.of_nat fuel ->
  notification_loop fuel b o acc <> None.
Proof.
  revert o acc; induction fuel as [|fuel IH]; intros o acc Ho Hf; [lia|]. cbn [notification_loop].
  unfold slice_from. destruct (N.leb_spec o (len b)); [|easy].
  destruct (len (drop o b) =? 0); [easy|]. destruct (N.ltb_spec (len (drop o b)) 4) as [|HH4]; [easy|].
  rewrite len_drop in HH4. rewrite (@g32 _ b o (o + 4)) by lia. cbn [rbind].
  destruct (parse_notify_info _); [|easy|easy]. destruct (N.eqb_spec (fld 4 b o) 0); [easy|].
  destruct (N.leb_spec (o + fld 4 b o) (len b)).
  - apply IH; lia.
  - destruct fuel; [lia|]. cbn [notification_loop]. unfold slice_from.
    destruct (N.leb_spec (o + fld 4 b o) (len b)); [lia|easy].
Qed.
Lemma notification_loop_ok fuel b : forall o acc l, notification_loop fuel b o acc = Some (Ok l) ->
  exists l', l = acc ++ l' /\ notify_chain b o l'.
Proof.
  induction fuel as [|fuel IH]; intros o acc l H; [easy|]. cbn [notification_loop] in H.
  unfold slice_from in H. destruct (N.leb_spec o (len b)); [|easy]. rewrite len_drop in H.
  destruct (N.eqb_spec (len b - o) 0) as [Hz|Hz].
  { apply some_inj, ok_inj in H. subst l. exists []. rewrite app_nil_r. split; [auto|].
    replace o with (len b) by lia. constructor. }
  destruct (N.ltb_spec (len b - o) 4) as [|HH4]; [easy|].
  rewrite (@g32 _ b o (o + 4)) in H by lia. cbn [rbind] in H.
  destruct (parse_notify_info (drop (o + 4) b)) as [c|e|] eqn:Hc; [|easy|easy].
  apply parse_notify_info_ok in Hc; [|lia].
  destruct (N.eqb_spec (fld 4 b o) 0) as [E|E].
  - apply some_inj, ok_inj in H. subst l. exists [c]. split; [auto|]. apply chain_last; [|exact Hc].
    rewrite u32_fld by lia. now f_equal.
  - apply IH in H. destruct H as (l' & -> & H). exists (c :: l'). split; [now rewrite <- app_assoc|].
    apply chain_more with (fld 4 b o); auto. apply u32_fld. lia.
Qed.
Lemma notification_loop_complete b o l : notify_chain b o l -> forall fuel acc r,
  notification_loop fuel b o acc = Some r -> r = Ok (acc ++ l).
Proof.
  induction 1 as [|o c H He|o next c l H Hn He Hl IH]; intros [|fuel] acc r Hr; try easy; cbn [notification_loop] in Hr;
    unfold slice_from in Hr.
  - destruct (N.leb_spec (len b) (len b)); [|lia]. rewrite len_drop in Hr.
    destruct (N.eqb_spec (len b - len b) 0); [|lia]. apply some_inj in Hr. now rewrite app_nil_r.
  - pose proof (u32_at_bound _ _ _ H). flds. destruct (N.leb_spec o (len b)); [|lia]. rewrite len_drop in Hr.
    destruct (N.eqb_spec (len b - o) 0); [lia|]. destruct (N.ltb_spec (len b - o) 4) as [|HH4]; [lia|].
    rewrite (@g32 _ b o (o + 4)) in Hr by lia. cbn [rbind] in Hr.
    apply parse_notify_info_ok in He; [|lia]. rewrite He, <- H in Hr. now apply some_inj in Hr.
  - pose proof (u32_at_bound _ _ _ H). flds. destruct (N.leb_spec o (len b)); [|lia]. rewrite len_drop in Hr.
    destruct (N.eqb_spec (len b - o) 0); [lia|]. destruct (N.ltb_spec (len b - o) 4) as [|HH4]; [lia|].
    rewrite (@g32 _ b o (o + 4)) in Hr by lia. cbn [rbind] in Hr.
    apply parse_notify_info_ok in He; [|lia]. rewrite He, <- H in Hr. destruct (N.eqb_spec next 0); [easy|].
    apply IH in Hr. now rewrite <- app_assoc in Hr.
Qed.
Lemma notification_loop_panic fuel b : forall o acc, notification_loop fuel b o acc = Some Panic -> crash_chain b o.
Proof.
  induction fuel as [|fuel IH]; intros o acc H; [easy|]. cbn [notification_loop] in H.
  unfold slice_from in H. destruct (N.leb_spec o (len b)); [|now apply crash_behind]. rewrite len_drop in H.
  destruct (N.eqb_spec (len b - o) 0) as [Hz|Hz]; [easy|].
  destruct (N.ltb_spec (len b - o) 4) as [|HH4]; [easy|].
  rewrite (@g32 _ b o (o + 4)) in H by lia. cbn [rbind] in H.
  destruct (parse_notify_info (drop (o + 4) b)) as [c|e|] eqn:Hc; [|easy|].
  - apply parse_notify_info_ok in Hc; [|lia].
    destruct (N.eqb_spec (fld 4 b o) 0) as [E|E]; [easy|].
    apply IH in H. apply crash_next with (fld 4 b o) c; auto. apply u32_fld. lia.
  - apply parse_notify_info_panic in Hc; [|lia]. destruct Hc as (a & n & raw & H1 & H2 & H3 & H5).
    apply crash_name with (fld 4 b o) a n raw; auto. apply u32_fld. lia.
Qed.
Lemma notification_loop_crash b o : crash_chain b o -> forall fuel acc r,
  notification_loop fuel b o acc = Some r -> r = Panic.
Proof.
  induction 1 as [o H|o next a n raw H H1 H2 H3 H5|o next c H Hn He Hl IH]; intros [|fuel] acc r Hr; try easy; cbn [notification_loop] in Hr;
    unfold slice_from in Hr.
  - destruct (N.leb_spec o (len b)); [lia|]. now apply some_inj in Hr.
  - pose proof (u32_at_bound _ _ _ H). destruct (N.leb_spec o (len b)); [|lia]. rewrite len_drop in Hr.
    destruct (N.eqb_spec (len b - o) 0); [lia|]. destruct (N.ltb_spec (len b - o) 4) as [|HH4]; [lia|].
    rewrite (@g32 _ b o (o + 4)) in Hr by lia. cbn [rbind] in Hr.
    assert (parse_notify_info (drop (o + 4) b) = Panic) as G by (apply parse_notify_info_panic; [lia|eauto 8]).
    rewrite G in Hr. now apply some_inj in Hr.
  - pose proof (u32_at_bound _ _ _ H). flds. destruct (N.leb_spec o (len b)); [|lia]. rewrite len_drop in Hr.
    destruct (N.eqb_spec (len b - o) 0); [lia|]. destruct (N.ltb_spec (len b - o) 4) as [|HH4]; [lia|].
    rewrite (@g32 _ b o (o + 4)) in Hr by lia. cbn [rbind] in Hr.
    apply parse_notify_info_ok in He; [|lia]. rewrite He, <- H in Hr. destruct (N.eqb_spec next 0); [easy|].
    now apply IH in Hr.
Qed.
Lemma notification_parse_ok s a b l : notification_parse s a b = Ok l <-> notify_chain a 0 l.
Proof.
  unfold notification_parse. destruct (notification_loop (length a + 2) a 0 []) as [r|] eqn:H.
  - split.
    + intros ->. apply notification_loop_ok in H. destruct H as (l' & -> & H). exact H.
    + intros G. now rewrite (notification_loop_complete G H).
  - exfalso. revert H. apply notification_loop_total; unfold len; lia.
Qed.
Lemma notification_parse_panic s a b : notification_parse s a b = Panic <-> crash_chain a 0.
Proof.
  unfold notification_parse. destruct (notification_loop (length a + 2) a 0 []) as [r|] eqn:H.
  - split.
    + intros ->. now apply notification_loop_panic in H.
    + intros G. now rewrite (notification_loop_crash G H).
  - exfalso. revert H. apply notification_loop_total; unfold len; lia.
Qed.
Lemma notification_ok i p l : 32 <= len p ->
  (reply_parse r_notification i (drop 32 p) = Ok l <-> notification_of p l).
Proof.
  intros Hl. unfold r_notification. rewrite transact_ok by exact Hl. unfold notification_of.
  split; intros (s & a & b & H1 & H2); exists s, a, b; (split; [exact H1|]); now apply (@notification_parse_ok s a b).
Qed.
Lemma notification_panic i p : 32 <= len p ->
  (reply_parse r_notification i (drop 32 p) = Panic <-> crash_notification p).
Proof.
  intros Hl. unfold r_notification. rewrite transact_panic by exact Hl. unfold crash_notification.
  apply or_iff_compat_l.
  split; intros (s & a & b & H1 & H2); exists s, a, b; (split; [exact H1|]); now apply (@notification_parse_panic s a b).
Qed.

(** ** transaction 2 fragments *)
Lemma trans2_create_eq i w d : trans2_create (mk_ctx i w d (35 + len w)) =
  if len w <? 10 then Panic else if fld 2 w 8 <? 35 + len w then Err InvalidData else
  if len w <? 16 then Panic else if fld 2 w 14 <? 35 + len w then Err InvalidData else
  if len w <? 18 then Panic else
  let* a := blk0 (fld 2 w 8) (fld 2 w 6) (35 + len w) d in
  let* b := blk0 (fld 2 w 14) (fld 2 w 12) (35 + len w) d in
  Ok (mk_trans2 a (fld 2 w 0) (fld 2 w 10) b (fld 2 w 2) (fld 2 w 16)).
Proof.
  unfold trans2_create, blk0. cbn [c_parameter c_data c_data_offset]. cbv zeta.
  replace (@get_u16_le smb_error w) with (@get_u16_le smb_error (drop 0 w)) by (now rewrite drop_0).
  destruct (N.ltb_spec (len w) 10) as [H|H]; [rd_short|]. do 5 rd1.
  unfold try_sub at 1. destruct (N.ltb_spec (fld 2 w 8) (35 + len w)), (N.leb_spec (35 + len w) (fld 2 w 8)); try lia;
    cbn [ok_or rbind]; [reflexivity|].
  destruct (N.ltb_spec (len w) 16); [rd_short|]. do 3 rd1.
  unfold try_sub at 1. destruct (N.ltb_spec (fld 2 w 14) (35 + len w)), (N.leb_spec (35 + len w) (fld 2 w 14)); try lia;
    cbn [ok_or rbind]; [reflexivity|].
  destruct (N.ltb_spec (len w) 18); [rd_short|]. rd1.
  unfold try_sub. destruct (N.ltb_spec (fld 2 w 8) (35 + len w)); [lia|].
  destruct (N.ltb_spec (fld 2 w 14) (35 + len w)); [lia|]. reflexivity.
Qed.
Lemma fragment_ok i p f : 32 <= len p ->
  (reply_parse r_trans2 i (drop 32 p) = Ok f <-> fragment_of p f).
Proof.
  intros Hl. rewrite parse_ok by exact Hl. cbn [r_trans2 r_andx r_create]. split.
  - intros (w & d & rest & Hp & H). rewrite trans2_create_eq in H.
    destruct (N.ltb_spec (len w) 10); [easy|]. destruct (N.ltb_spec (fld 2 w 8) (35 + len w)); [easy|].
    destruct (N.ltb_spec (len w) 16); [easy|]. destruct (N.ltb_spec (fld 2 w 14) (35 + len w)); [easy|].
    destruct (N.ltb_spec (len w) 18); [easy|].
    apply rbind_ok in H. destruct H as (a & Ha & H). apply rbind_ok in H. destruct H as (b & Hb & H).
    apply (blk0_ok _ _ _ Hp) in Ha, Hb. apply ok_inj in H. subst f.
    exists w, d, rest, (fld 2 w 6), (fld 2 w 8), (fld 2 w 12), (fld 2 w 14).
    cbn [f_parameter f_parameter_total f_parameter_offset f_data f_data_total f_data_offset].
    rewrite !u16_fld by lia. repeat match goal with |- _ /\ _ => split; [first [exact Hp | reflexivity | assumption] |] end. exact Hb.
  - intros (w & d & rest & np & op & nd & od & Hp & H1 & H2 & H3 & H4 & H5 & H6 & H7 & H8 & H9 & H10).
    exists w, d, rest. split; [exact Hp|]. rewrite trans2_create_eq.
    pose proof (u16_at_bound _ _ _ H8). flds. destruct f as [f1 f2 f3 f4 f5 f6].
    cbn [f_parameter f_parameter_total f_parameter_offset f_data f_data_total f_data_offset] in *.
    rewrite <- H1, <- H2, <- H3, <- H4, <- H5, <- H6, <- H7, <- H8.
    destruct (N.ltb_spec (len w) 10); [lia|]. destruct (N.ltb_spec (len w) 16); [lia|]. destruct (N.ltb_spec (len w) 18); [lia|].
    assert (35 + len w <= op) by apply H9. assert (35 + len w <= od) by apply H10.
    apply (blk0_ok _ _ _ Hp) in H9, H10.
    destruct (N.ltb_spec op (35 + len w)); [lia|]. destruct (N.ltb_spec od (35 + len w)); [lia|].
    rewrite H9. cbn [rbind]. now rewrite H10.
Qed.
Lemma fragment_panic i p : 32 <= len p ->
  (reply_parse r_trans2 i (drop 32 p) = Panic <-> crash_fragment p).
Proof.
  intros Hl. rewrite parse_panic by exact Hl. cbn [r_trans2 r_andx r_create]. unfold crash_fragment.
  apply or_iff_compat_l. split; intros (w & d & rest & Hp & H); exists w, d, rest; (split; [exact Hp|]);
    rewrite trans2_create_eq in *.
  - destruct (N.ltb_spec (len w) 10); [auto|right]. destruct (N.ltb_spec (fld 2 w 8) (35 + len w)); [easy|].
    exists (fld 2 w 8). split; [apply u16_fld; lia|]. split; [assumption|].
    destruct (N.ltb_spec (len w) 16); [auto|right]. destruct (N.ltb_spec (fld 2 w 14) (35 + len w)); [easy|].
    exists (fld 2 w 6), (fld 2 w 12), (fld 2 w 14). rewrite !u16_fld by lia. do 3 (split; [reflexivity|]). split; [assumption|].
    destruct (N.ltb_spec (len w) 18); [auto|right].
    apply rbind_panic in H. destruct H as [H|(a & Ha & H)]; [left; now apply blk0_panic|right].
    apply rbind_panic in H. destruct H as [H|(b & Hb & H)]; [now apply blk0_panic|easy].
  - destruct (N.ltb_spec (len w) 10); [reflexivity|].
    destruct H as [H|(op & Ho & Hop & H)]; [lia|]. flds. rewrite <- Ho.
    destruct (N.ltb_spec op (35 + len w)); [lia|]. destruct (N.ltb_spec (len w) 16); [reflexivity|].
    destruct H as [H|(np & nd & od & G1 & G2 & G3 & Hod & H)]; [lia|]. flds. rewrite <- G1, <- G2, <- G3.
    destruct (N.ltb_spec od (35 + len w)); [lia|]. destruct (N.ltb_spec (len w) 18); [reflexivity|].
    destruct H as [H|[H|H]]; [lia| |].
    + apply blk0_panic in H. now rewrite H.
    + rewrite (blk0_eq op). destruct (N.ltb_spec op (35 + len w)); [lia|].
      destruct (len d <? op - (35 + len w) + np); [reflexivity|]. cbn [rbind].
      apply blk0_panic in H. now rewrite H.
Qed.

(** ** directory entries *)
Lemma dir_parse_eq e : dir_info_parse e =
  if len e <? 60 then Err InvalidData else if len e <? 60 + fld 4 e 56 then Err InvalidData else
  let* s := map_err of_utf16_error (decode_utf16le (take (fld 4 e 56) (drop 60 e))) in
  Ok (mk_dir (fld 8 e 4 / 10) (fld 8 e 12 / 10) (fld 8 e 20 / 10) (fld 8 e 28 / 10) s (fld 8 e 36)
    (N.land (fld 4 e 52) FILE_ATTR_BITS)).
Proof.
  unfold dir_info_parse. destruct (N.ltb_spec (len e) 60); [reflexivity|].
  replace (@advance smb_error 4 e) with (@advance smb_error 4 (drop 0 e)) by (now rewrite drop_0).
  repeat (rd; rewrite time_fld by lia; cbn [rbind]). rd. rewrite trunc_attr. unfold copy_to_bytes. rewrite len_drop.
  destruct (N.ltb_spec (len e - 60) (fld 4 e 56)), (N.ltb_spec (len e) (60 + fld 4 e 56)); try lia; reflexivity.
Qed.
Lemma dir_ok e v : dir_info_parse e = Ok v <-> dir_of e v.
Proof.
  rewrite dir_parse_eq. split.
  - destruct (N.ltb_spec (len e) 60); [easy|]. destruct (N.ltb_spec (len e) (60 + fld 4 e 56)); [easy|].
    intros H1. apply rbind_ok in H1. destruct H1 as (s & Hs & H1). apply map_err_ok, decode_utf16le_ok in Hs.
    apply ok_inj in H1. subst v.
    exists (fld 8 e 4), (fld 8 e 12), (fld 8 e 20), (fld 8 e 28), (fld 4 e 52), (fld 4 e 56), (take (fld 4 e 56) (drop 60 e)).
    rewrite !u64_fld, !u32_fld, bytes_fld, flags_of_iff by lia.
    cbn [d_creation d_access d_write d_change d_filename d_filesize d_attributes].
    repeat match goal with |- _ /\ _ => split; [first [reflexivity | assumption] |] end. exact Hs.
  - intros (tc & ta & tw & th & attr & n & raw & H1 & G1 & H2 & G2 & H3 & G3 & H4 & G4 & H5 & H6 & H7 & H8 & H9 & H10).
    pose proof (u32_at_bound _ _ _ H8). pose proof (bytes_at_some H9) as [Hb Hs]. flds. 
    destruct v as [v1 v2 v3 v4 v5 v6 v7].
    cbn [d_creation d_access d_write d_change d_filename d_filesize d_attributes] in *.
    rewrite <- H1, <- H2, <- H3, <- H4, <- H5, <- H6, <- H7, <- H8, <- Hs.
    destruct (N.ltb_spec (len e) 60); [lia|]. destruct (N.ltb_spec (len e) (60 + n)); [lia|].
    apply decode_utf16le_ok in H10. rewrite H10. cbn [map_err rbind]. now rewrite G1, G2, G3, G4.
Qed.
Lemma dir_panic e : dir_info_parse e = Panic <-> crash_dir e.
Proof.
  rewrite dir_parse_eq. split.
  - destruct (N.ltb_spec (len e) 60); [easy|]. destruct (N.ltb_spec (len e) (60 + fld 4 e 56)); [easy|].
    intros H1. apply rbind_panic in H1. destruct H1 as [H1|(s & Hs & H1)]; [|easy].
    apply map_err_panic, decode_utf16le_panic in H1. exists (fld 4 e 56), (take (fld 4 e 56) (drop 60 e)).
    rewrite u32_fld, bytes_fld by lia. auto.
  - intros (n & raw & H8 & H9 & H10). pose proof (u32_at_bound _ _ _ H8). pose proof (bytes_at_some H9) as [Hb Hs]. flds. 
    rewrite <- H8, <- Hs. destruct (N.ltb_spec (len e) 60); [lia|]. destruct (N.ltb_spec (len e) (60 + n)); [lia|].
    apply decode_utf16le_panic in H10. now rewrite H10.
Qed.

(** ** batches of directory entries *)
Definition entries_loop (z : bool) := if z then find_first_loop else find_next_loop.
Lemma entries_loop_S z fuel b acc : entries_loop z (S fuel) b acc =
  if len b =? 0 then Some (Ok acc) else if len b <? 4 then Some (Err InvalidData) else
  if (if z then negb (fld 4 b 0 =? 0) && (fld 4 b 0 <? 4) else fld 4 b 0 <? 4) then Some (Err InvalidData) else
  let size := if z then if fld 4 b 0 =? 0 then len b - 4 else fld 4 b 0 - 4 else fld 4 b 0 - 4 in
  if size =? 0 then Some (Ok acc) else if len b - 4 <? size then Some (Err InvalidData) else
  match dir_info_parse (take size (drop 4 b)) with
  | Ok d => entries_loop z fuel (drop (4 + size) b) (acc ++ [d])
  | Err e => Some (Err e)
  | Panic => Some Panic
  end.
Proof.
  destruct z; cbn [entries_loop find_first_loop find_next_loop];
    (destruct (N.eqb_spec (len b) 0); [reflexivity|]; destruct (N.ltb_spec (len b) 4); [reflexivity|]);
    unfold get_u32_le; rewrite get_fld0 by lia; change (N.of_nat 4) with 4; cbv zeta; rewrite len_drop;
    repeat (rewrite drop_drop); reflexivity.
Qed.
Lemma entries_total z : forall fuel b acc, len b < N.of_nat fuel -> entries_loop z fuel b acc <> None.
Proof.
  induction fuel as [|fuel IH]; intros b acc Hf; [lia|]. rewrite entries_loop_S.
  destruct (N.eqb_spec (len b) 0); [easy|]. destruct (N.ltb_spec (len b) 4); [easy|].
  destruct (if z then _ else _); [easy|]. cbv zeta. set (size := if z then _ else _).
  destruct (size =? 0); [easy|]. destruct (len b - 4 <? size); [easy|].
  destruct (dir_info_parse _); try easy. apply IH. rewrite len_drop. lia.
Qed.
Lemma entries_ok z : forall fuel b acc l, entries_loop z fuel b acc = Some (Ok l) ->
  exists l', l = acc ++ l' /\ entries z b l'.
Proof.
  induction fuel as [|fuel IH]; intros b acc l H; [now destruct z|]. rewrite entries_loop_S in H.
  destruct (N.eqb_spec (len b) 0) as [Hz|Hz].
  { apply some_inj, ok_inj in H. subst l. exists []. rewrite app_nil_r. split; [auto|].
    apply len_0 in Hz. subst b. constructor. }
  destruct (N.ltb_spec (len b) 4) as [|H4]; [easy|].
  assert (Hn : u32_at b 0 = Some (fld 4 b 0)) by (apply u32_fld; lia). revert Hn H. generalize (fld 4 b 0). intros n Hn H.
  cbv zeta in H.
  assert (Hc : (z = true /\ n = 0 /\ len b = 4 /\ l = acc)
    \/ (n = 4 /\ l = acc)
    \/ (z = true /\ n = 0 /\ 4 < len b /\ match dir_info_parse (drop 4 b) with
         | Ok d => entries_loop z fuel [] (acc ++ [d]) | Err e => Some (Err e) | Panic => Some Panic end = Some (Ok l))
    \/ (4 < n <= len b /\ match dir_info_parse (take (n - 4) (drop 4 b)) with
         | Ok d => entries_loop z fuel (drop n b) (acc ++ [d]) | Err e => Some (Err e) | Panic => Some Panic end = Some (Ok l))).
  { destruct z; destruct (N.eqb_spec n 0) as [E|E]; cbn [negb andb] in H; try (subst n; cbn [N.ltb N.compare] in H; easy).
    - destruct (N.eqb_spec (len b - 4) 0) as [E1|E1].
      + apply some_inj, ok_inj in H. left. repeat split; auto; lia.
      + destruct (N.ltb_spec (len b - 4) (len b - 4)); [lia|]. right; right; left. repeat split; auto; try lia.
        rewrite take_all in H by (rewrite len_drop; lia). rewrite (drop_all (4 + (len b - 4))) in H by lia. exact H.
    - destruct (N.ltb_spec n 4); [easy|]. destruct (N.eqb_spec (n - 4) 0) as [E1|E1].
      + apply some_inj, ok_inj in H. right; left. split; [lia|auto].
      + destruct (N.ltb_spec (len b - 4) (n - 4)); [easy|]. right; right; right. split; [lia|].
        replace (4 + (n - 4)) with n in H by lia. exact H.
    - destruct (N.ltb_spec n 4); [easy|]. destruct (N.eqb_spec (n - 4) 0) as [E1|E1].
      + apply some_inj, ok_inj in H. right; left. split; [lia|auto].
      + destruct (N.ltb_spec (len b - 4) (n - 4)); [easy|]. right; right; right. split; [lia|].
        replace (4 + (n - 4)) with n in H by lia. exact H. }
  clear H. destruct Hc as [(Ez & E0 & El & ->)|[(E4 & ->)|[(Ez & E0 & Hl & H)|(Hl & H)]]].
  - exists []. rewrite app_nil_r. split; [auto|]. apply entries_stop with n; auto.
  - exists []. rewrite app_nil_r. split; [auto|]. apply entries_stop with n; auto.
  - destruct (dir_info_parse (drop 4 b)) as [d| |] eqn:Hd; try easy. apply dir_ok in Hd.
    destruct fuel as [|fuel]; [now destruct z|]. rewrite entries_loop_S in H. cbn [len length N.of_nat N.eqb] in H.
    apply some_inj, ok_inj in H. exists [d]. split; [auto|]. apply entries_last; auto. now subst n.
  - destruct (dir_info_parse _) as [d| |] eqn:Hd; try easy. apply dir_ok in Hd.
    apply IH in H. destruct H as (l' & -> & H). exists (d :: l'). split; [now rewrite <- app_assoc|].
    apply entries_more with n (take (n - 4) (drop 4 b)); auto; try lia. apply bytes_fld. lia.
Qed.
Lemma entries_step z fuel b acc n e : u32_at b 0 = Some n -> 4 < n -> bytes_at b 4 (n - 4) = Some e ->
  entries_loop z (S fuel) b acc = match dir_info_parse e with
  | Ok d => entries_loop z fuel (drop n b) (acc ++ [d])
  | Err e => Some (Err e)
  | Panic => Some Panic
  end.
Proof.
  intros Hn H4 He. apply bytes_at_some in He. destruct He as [Hb ->]. apply f32 in Hn. rewrite entries_loop_S, <- Hn.
  destruct (N.eqb_spec (len b) 0); [lia|]. destruct (N.ltb_spec (len b) 4); [lia|].
  destruct (N.eqb_spec n 0); [lia|]. destruct (N.ltb_spec n 4); [lia|]. cbn [negb andb]. cbv zeta.
  assert ((if z then false else false) = false) as -> by now destruct z.
  assert ((if z then n - 4 else n - 4) = n - 4) as -> by now destruct z.
  destruct (N.eqb_spec (n - 4) 0); [lia|]. destruct (N.ltb_spec (len b - 4) (n - 4)); [lia|].
  replace (4 + (n - 4)) with n by lia. reflexivity.
Qed.
Lemma entries_step_last fuel b acc : u32_at b 0 = Some 0 -> 4 < len b ->
  entries_loop true (S fuel) b acc = match dir_info_parse (drop 4 b) with
  | Ok d => entries_loop true fuel [] (acc ++ [d])
  | Err e => Some (Err e)
  | Panic => Some Panic
  end.
Proof.
  intros Hn H4. apply f32 in Hn. rewrite entries_loop_S, <- Hn.
  destruct (N.eqb_spec (len b) 0); [lia|]. destruct (N.ltb_spec (len b) 4); [lia|]. cbn [N.eqb negb andb]. cbv zeta.
  destruct (N.eqb_spec (len b - 4) 0); [lia|]. destruct (N.ltb_spec (len b - 4) (len b - 4)); [lia|].
  rewrite take_all by (rewrite len_drop; lia). now rewrite (drop_all (4 + (len b - 4))) by lia.
Qed.
Lemma dir_of_len e d : dir_of e d -> 60 <= len e.
Proof. intros (? & ? & ? & ? & ? & n & ? & H). destruct H as (_ & _ & _ & _ & _ & _ & _ & _ & _ & _ & _ & H & _). apply u32_at_bound in H. lia. Qed.
Lemma crash_dir_len e : crash_dir e -> 60 <= len e.
Proof. intros (? & ? & H & _). apply u32_at_bound in H. lia. Qed.
Lemma entries_loop_complete z b l : entries z b l -> forall fuel acc r,
  entries_loop z fuel b acc = Some r -> r = Ok (acc ++ l).
Proof.
  induction 1 as [|b n Hn Hc|b d Hz Hn Hd|b n e d l Hn H4 He Hd Hl IH]; intros [|fuel] acc r Hr; try (destruct z; easy).
  - rewrite entries_loop_S in Hr. cbn [len length N.of_nat N.eqb] in Hr. apply some_inj in Hr. now rewrite app_nil_r.
  - pose proof (u32_at_bound _ _ _ Hn). apply f32 in Hn. rewrite entries_loop_S, <- Hn in Hr. rewrite app_nil_r.
    destruct (N.eqb_spec (len b) 0); [lia|]. destruct (N.ltb_spec (len b) 4); [lia|].
    destruct Hc as [->|(-> & -> & Hl)].
    + destruct z; cbn in Hr; now apply some_inj in Hr.
    + cbn [N.eqb negb andb] in Hr. cbv zeta in Hr. destruct (N.eqb_spec (len b - 4) 0); [|lia]. now apply some_inj in Hr.
  - subst z. pose proof (dir_of_len Hd) as Hle. rewrite len_drop in Hle. rewrite entries_step_last in Hr by (auto; lia).
    apply dir_ok in Hd. rewrite Hd in Hr. destruct fuel; [easy|]. rewrite entries_loop_S in Hr.
    cbn [len length N.of_nat N.eqb] in Hr. now apply some_inj in Hr.
  - rewrite (entries_step _ _ _ Hn H4 He) in Hr. apply dir_ok in Hd. rewrite Hd in Hr. apply IH in Hr.
    now rewrite <- app_assoc in Hr.
Qed.
Lemma entries_loop_panic z : forall fuel b acc, entries_loop z fuel b acc = Some Panic -> crash_entries z b.
Proof.
  induction fuel as [|fuel IH]; intros b acc H; [now destruct z|]. pose proof H as H0. rewrite entries_loop_S in H.
  destruct (N.eqb_spec (len b) 0) as [Hz|Hz]; [easy|].
  destruct (N.ltb_spec (len b) 4) as [|H4]; [easy|].
  assert (Hn : u32_at b 0 = Some (fld 4 b 0)) by (apply u32_fld; lia). revert Hn H. generalize (fld 4 b 0). intros n Hn H.
  cbv zeta in H.
  assert (Hc : (z = true /\ n = 0 /\ 4 < len b) \/ (4 < n <= len b)).
  { destruct z; destruct (N.eqb_spec n 0) as [E|E]; cbn [negb andb] in H; try (subst n; cbn [N.ltb N.compare] in H; easy).
    - destruct (N.eqb_spec (len b - 4) 0) as [E1|E1]; [easy|]. left. repeat split; auto; lia.
    - destruct (N.ltb_spec n 4); [easy|]. destruct (N.eqb_spec (n - 4) 0) as [E1|E1]; [easy|].
      destruct (N.ltb_spec (len b - 4) (n - 4)); [easy|]. right. lia.
    - destruct (N.ltb_spec n 4); [easy|]. destruct (N.eqb_spec (n - 4) 0) as [E1|E1]; [easy|].
      destruct (N.ltb_spec (len b - 4) (n - 4)); [easy|]. right. lia. }
  clear H. destruct Hc as [(-> & -> & Hl)|Hl].
  - rewrite entries_step_last in H0 by auto. destruct (dir_info_parse (drop 4 b)) as [d| |] eqn:Hd; try easy.
    + destruct fuel; [easy|]. rewrite entries_loop_S in H0. cbn [len length N.of_nat N.eqb] in H0. easy.
    + apply crash_last; auto. now apply dir_panic.
  - assert (He : bytes_at b 4 (n - 4) = Some (take (n - 4) (drop 4 b))) by (apply bytes_fld; lia).
    rewrite (entries_step _ _ _ Hn (proj1 Hl) He) in H0. destruct (dir_info_parse _) as [d| |] eqn:Hd; try easy.
    + apply dir_ok in Hd. apply IH in H0. eapply crash_later; eauto. lia.
    + apply dir_panic in Hd. eapply crash_here; eauto. lia.
Qed.
Lemma entries_loop_crash z b : crash_entries z b -> forall fuel acc r,
  entries_loop z fuel b acc = Some r -> r = Panic.
Proof.
  induction 1 as [b Hz Hn Hd|b n e Hn H4 He Hd|b n e d Hn H4 He Hd Hl IH]; intros [|fuel] acc r Hr; try (destruct z; easy).
  - subst z. pose proof (crash_dir_len Hd) as Hle. rewrite len_drop in Hle. rewrite entries_step_last in Hr by (auto; lia).
    apply dir_panic in Hd. rewrite Hd in Hr. now apply some_inj in Hr.
  - rewrite (entries_step _ _ _ Hn H4 He) in Hr. apply dir_panic in Hd. rewrite Hd in Hr. now apply some_inj in Hr.
  - rewrite (entries_step _ _ _ Hn H4 He) in Hr. apply dir_ok in Hd. rewrite Hd in Hr. now apply IH in Hr.
Qed.
Definition entries_parse (z : bool) (b : bytes) : res smb_error (list dir_info) :=
  match entries_loop z (length b + 1) b [] with Some r => r | None => Panic end.
Lemma entries_parse_ok z b l : entries_parse z b = Ok l <-> entries z b l.
Proof.
  unfold entries_parse. destruct (entries_loop z (length b + 1) b []) as [r|] eqn:H.
  - split.
    + intros ->. apply entries_ok in H. destruct H as (l' & -> & H). exact H.
    + intros G. now rewrite (entries_loop_complete G H).
  - exfalso. revert H. apply entries_total. unfold len. lia.
Qed.
Lemma entries_parse_panic z b : entries_parse z b = Panic <-> crash_entries z b.
Proof.
  unfold entries_parse. destruct (entries_loop z (length b + 1) b []) as [r|] eqn:H.
  - split.
    + intros ->. now apply entries_loop_panic in H.
    + intros G. now rewrite (entries_loop_crash G H).
  - exfalso. revert H. apply entries_total. unfold len. lia.
Qed.

Lemma find_first_eq a b : find_first_parse a b =
  if len a <? 10 then Err InvalidData else
  let* info := entries_parse true b in
  if negb (len info =? fld 2 a 2) then Err InvalidData else
  if (fld 2 a 4 =? 0) && (fld 2 a 2 =? 0) then Err InvalidData else
  Ok (mk_found (fld 2 a 0) (negb (fld 2 a 4 =? 0)) info).
Proof.
  unfold find_first_parse. destruct (N.ltb_spec (len a) 10); [reflexivity|].
  replace (@get_u16_le smb_error a) with (@get_u16_le smb_error (drop 0 a)) by (now rewrite drop_0).
  rd. cbv zeta. fold (entries_loop true). unfold entries_parse, entries_loop. now rewrite negb_involutive.
Qed.
Lemma find_next_eq a b : find_next_parse a b =
  if len a <? 4 then Err InvalidData else
  let* info := entries_parse false b in
  if negb (len info =? fld 2 a 0) then Err InvalidData else
  if (fld 2 a 2 =? 0) && (fld 2 a 0 =? 0) then Err InvalidData else
  Ok (mk_found_next (negb (fld 2 a 2 =? 0)) info).
Proof.
  unfold find_next_parse. destruct (N.ltb_spec (len a) 4); [reflexivity|].
  replace (@get_u16_le smb_error a) with (@get_u16_le smb_error (drop 0 a)) by (now rewrite drop_0).
  rd. cbv zeta. unfold entries_parse, entries_loop. now rewrite negb_involutive.
Qed.
Lemma over_iff e (o : bool) : (o = true <-> e <> 0) <-> o = negb (e =? 0).
Proof. destruct (N.eqb_spec e 0), o; cbn; intuition congruence. Qed.
Lemma len_nil_iff A (l : list A) : l = [] <-> len l = 0.
Proof. split; [intros ->; reflexivity|apply len_0]. Qed.
Lemma find_first_ok a b f : find_first_parse a b = Ok f <-> first_of a b (ff_sid f) (ff_end f) (ff_info f).
Proof.
  rewrite find_first_eq. unfold first_of. rewrite <- entries_parse_ok, len_nil_iff. split.
  - destruct (N.ltb_spec (len a) 10); [easy|]. destruct (entries_parse true b) as [info| |]; [|easy|easy]. cbn [rbind].
    destruct (N.eqb_spec (len info) (fld 2 a 2)) as [Hc|]; cbn [negb]; [|easy].
    destruct ((fld 2 a 4 =? 0) && (fld 2 a 2 =? 0)) eqn:He; [easy|]. intros G. apply ok_inj in G. subst f.
    cbn [ff_sid ff_end ff_info]. rewrite !u16_fld by lia. rewrite Hc. repeat (split; [reflexivity || assumption|]).
    split; [exists (fld 2 a 4); split; [reflexivity|now apply over_iff]|]. split; [reflexivity|].
    intros Hz. rewrite Hz in He. destruct (fld 2 a 4 =? 0); [discriminate|reflexivity].
  - intros (Hl & H1 & H2 & (e & H3 & H4) & H5 & H6). destruct f as [sid en info]. cbn [ff_sid ff_end ff_info] in *.
    destruct (N.ltb_spec (len a) 10); [lia|]. rewrite H5. cbn [rbind]. flds. rewrite <- H1, <- H2, <- H3.
    rewrite N.eqb_refl. cbn [negb]. apply over_iff in H4. destruct (N.eqb_spec e 0); cbn [negb andb] in *; subst en; [|reflexivity].
    destruct (N.eqb_spec (len info) 0) as [E|E]; [now apply H6 in E|reflexivity].
Qed.
Lemma find_next_ok a b f : find_next_parse a b = Ok f <-> next_of a b (fn_end f) (fn_info f).
Proof.
  rewrite find_next_eq. unfold next_of. rewrite <- entries_parse_ok, len_nil_iff. split.
  - destruct (N.ltb_spec (len a) 4); [easy|]. destruct (entries_parse false b) as [info| |]; [|easy|easy]. cbn [rbind].
    destruct (N.eqb_spec (len info) (fld 2 a 0)) as [Hc|]; cbn [negb]; [|easy].
    destruct ((fld 2 a 2 =? 0) && (fld 2 a 0 =? 0)) eqn:He; [easy|]. intros G. apply ok_inj in G. subst f.
    cbn [fn_end fn_info]. rewrite !u16_fld by lia. rewrite Hc. repeat (split; [reflexivity || assumption|]).
    split; [exists (fld 2 a 2); split; [reflexivity|now apply over_iff]|]. split; [reflexivity|].
    intros Hz. rewrite Hz in He. destruct (fld 2 a 2 =? 0); [discriminate|reflexivity].
  - intros (H2 & (e & H3 & H4) & H5 & H6). destruct f as [en info]. cbn [fn_end fn_info] in *.
    pose proof (u16_at_bound _ _ _ H3).
    destruct (N.ltb_spec (len a) 4); [lia|]. rewrite H5. cbn [rbind]. flds. rewrite <- H2, <- H3.
    rewrite N.eqb_refl. cbn [negb]. apply over_iff in H4. destruct (N.eqb_spec e 0); cbn [negb andb] in *; subst en; [|reflexivity].
    destruct (N.eqb_spec (len info) 0) as [E|E]; [now apply H6 in E|reflexivity].
Qed.
Lemma find_first_panic a b : find_first_parse a b = Panic <-> 10 <= len a /\ crash_entries true b.
Proof.
  rewrite find_first_eq, <- entries_parse_panic. destruct (N.ltb_spec (len a) 10); [split; [easy|lia]|].
  destruct (entries_parse true b) as [info| |]; cbn [rbind]; [|easy|tauto].
  destruct (negb _); [easy|]. destruct (_ && _); easy.
Qed.
Lemma find_next_panic a b : find_next_parse a b = Panic <-> 4 <= len a /\ crash_entries false b.
Proof.
  rewrite find_next_eq, <- entries_parse_panic. destruct (N.ltb_spec (len a) 4); [split; [easy|lia]|].
  destruct (entries_parse false b) as [info| |]; cbn [rbind]; [|easy|tauto].
  destruct (negb _); [easy|]. destruct (_ && _); easy.
Qed.

Lemma status_meanings code name : In (code, name) status_meaning -> status_of_code code = Known name.
Proof.
  unfold status_meaning. cbn [In]. intros H.
  repeat (destruct H as [H|H]; [injection H as <- <-; reflexivity|]). destruct H.
Qed.
