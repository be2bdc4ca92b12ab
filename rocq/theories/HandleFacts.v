(** * HandleFacts: what a handle leads to *)
From Verif Require Import Base BaseFacts Text TextFacts Win Errors Common Reply Ntlm Prog Client Spec SpecReply SpecMsg Api SpecCall
  MsgFacts SizeFacts Flow SpecRemote RemoteFacts RefServer FileService FileFacts PoolFileFacts SpecHandle.
Open Scope N_scope.
Set Implicit Arguments.

Lemma alike_same E fuel R (c c' : call R) : alike R c c' -> exec E fuel c = exec E fuel c'.
Proof.
  intros H. destruct H as [h h' [H1 H2]|h h' o [H1 H2]|h h' [H1 H2]|h h' m [H1 H2]]; cbn [exec];
    unfold close, read, notify, notify_about; now rewrite H1, H2.
Qed.

Section Handle.
Variable tree : text -> text -> option N.
Variable setup : server_setup.
Variable accepts : text -> text -> bytes -> option N.
Notation FS := (file_service tree setup accepts).

(** the file [fid] is open for [path] of [tid], which holds [d] *)
Definition leads (st : files) (fid tid : N) (path : text) (d : bytes) : Prop :=
  fid < fs_next st /\ opened (fs_open st) fid = Some (tid, path) /\ contents (fs_files st) tid path = Some d.

Lemma leads_op R (c : call R) who st fid tid path d : leads st fid tid path d -> ~ spoils tid path fid c ->
  leads (snd (FS _ who (op_of c) st)) fid tid path d.
Proof.
  intros (H1 & H2 & H3) Hs. destruct c; cbn [op_of file_service snd spoils] in *; try (now repeat split).
  - destruct (contents (fs_files st) (sh_tid s) (backslashes path0)); [|now repeat split].
    destruct (_ && _); [|now repeat split]. cbn [snd]. unfold leads. cbn [fs_next fs_open fs_files opened].
    split; [lia|]. split; [|exact H3]. destruct (N.eqb_spec (fs_next st) fid); [lia|exact H2].
  - destruct (opened (fs_open st) (h_fid h)); [|now repeat split]. cbn [snd]. unfold leads. cbn [fs_next fs_open fs_files].
    split; [exact H1|]. split; [|exact H3]. rewrite opened_closed; [exact H2|]. intros E. now apply Hs.
  - destruct (opened (fs_open st) (h_fid h)) as [[t p]|]; [|now repeat split].
    destruct (contents (fs_files st) t p); now repeat split.
  - destruct (contents (fs_files st) (sh_tid s) (backslashes path0)); [|now repeat split]. cbn [snd]. unfold leads.
    cbn [fs_next fs_open fs_files]. split; [exact H1|]. split; [exact H2|].
    rewrite contents_without. destruct (N.eqb_spec (sh_tid s) tid) as [E0|E0]; [|exact H3].
    destruct (text_eqb (backslashes path0) path) eqn:E; [|exact H3]. exfalso. apply Hs. split; [exact E0|]. now apply text_eqb_iff.
Qed.
Lemma leads_local A (f : flow A) c st n a c' st' : local FS f c st n a c' st' -> forall fid tid path d,
  leads st fid tid path d -> leaves tid path fid f -> leads st' fid tid path d.
Proof.
  induction 1 as [a c st|R q k c st r st1 n a c' st' Hq Hun Hfit HB _ IH|k c st n a c' st' _ IH|u k c st n a c' st' Hu _ IH|m u k c st n a c' st' _ IH];
    intros fid tid path d Hl Hf; cbn [leaves] in Hf; try (now apply IH); [exact Hl|].
  destruct Hf as [Hs Hk]. apply IH; [|apply Hk]. pose proof (@leads_op _ q (uid c) _ _ _ _ _ Hl Hs) as K. now rewrite HB in K.
Qed.
Lemma local_typed A (f : flow A) c st n a c' st' : local FS f c st n a c' st' -> typed_client c -> typed_client c'.
Proof.
  induction 1 as [a c st|R q k c st r st1 n a c' st' Hq Hun Hfit HB _ IH|k c st n a c' st' _ IH|u k c st n a c' st' Hu _ IH|m u k c st n a c' st' _ IH];
    intros H; [exact H| |now apply IH| |].
  - apply IH. destruct H as [H1 H2]. split; [exact H1|]. unfold next_client, u16 in *. cbn [mid]. apply N.mod_lt. discriminate.
  - apply IH. destruct H as [H1 H2]. now split.
  - apply IH. destruct H as [H1 H2]. now split.
Qed.
Lemma local_mid A (f : flow A) c st n a c' st' : local FS f c st n a c' st' -> mid c' <= mid c + N.of_nat n.
Proof.
  induction 1 as [a c st|R q k c st r st1 n a c' st' Hq Hun Hfit HB _ IH|k c st n a c' st' _ IH|u k c st n a c' st' Hu _ IH|m u k c st n a c' st' _ IH];
    [lia| |exact IH|exact IH|exact IH].
  unfold next_client in IH. cbn [mid] in IH. assert ((mid c + 1) mod 65536 <= mid c + 1) by (apply N.mod_le; discriminate). lia.
Qed.

Variable Sv : Type.
Variable react : Sv -> bytes -> reaction Sv.
Variable abs : Sv -> files.
Hypothesis conf : conforming react FS abs.
Variable E : env.
Notation world := (world cifs Sv).

Lemma handle_reads (w : world) s path d : typed_client (cl w) -> idle w -> sound_files (abs (srv w)) ->
  contents (fs_files (abs (srv w))) (sh_tid s) (backslashes path) = Some d -> fs_next (abs (srv w)) < 65536 ->
  u16 (sh_tid s) -> is_str path -> fits_request (use_unicode (cl w)) (OpenFile s path) -> len d < 2 ^ 64 -> room E (cl w) 1 ->
  exists k h w1, (forall fuel, (k <= fuel)%nat -> run react (exec E fuel (OpenFile s path)) w = Done (Good h) w1)
    /\ idle w1 /\ typed_client (cl w1)
    /\ forall A (f : flow A) n a c' st' o, leaves (sh_tid s) (backslashes path) (h_fid h) f -> local FS f (cl w1) (abs (srv w1)) n a c' st' ->
       room E (cl w) (2 + n) -> o < 2 ^ 64 ->
       exists k' w2 w3, forall fuel, (k' <= fuel)%nat -> run react (interp E fuel f) w1 = Done a w2
         /\ run react (exec E fuel (ReadAt h o)) w2 = Done (Good (take 65534 (drop o d))) w3.
Proof.
  intros Ht Hi Hs Hc Hn Hts Hp Hf Hd Hr.
  assert (Hmid : ~ mid_full E (cl w)) by (intros [Ho Hm]; specialize (Hr Ho); lia).
  destruct (@remote_call _ _ react _ abs conf E _ (OpenFile s path) w Ht Hi) as (k & w1 & g & Hrun & Hi1 & Hcl & Habs & _);
    [split; assumption|exact I|exact Hf|exact Hmid|].
  cbn [op_of file_service] in Hrun, Habs. unfold u16 in Hts. rewrite Hc in Hrun, Habs.
  assert (Eb : (fs_next (abs (srv w)) <? 65536) && (sh_tid s <? 65536) && (len d <? 2 ^ 64) = true).
  { apply N.ltb_lt in Hn, Hts, Hd. now rewrite Hn, Hts, Hd. }
  rewrite Eb in Hrun, Habs. cbn [fst snd returned] in Hrun, Habs.
  exists k. eexists. exists w1. split; [exact Hrun|]. split; [exact Hi1|].
  assert (Ht1 : typed_client (cl w1)).
  { rewrite Hcl. destruct Ht as [H1 H2]. split; [exact H1|]. unfold next_client, u16 in *. cbn [mid]. apply N.mod_lt. discriminate. }
  split; [exact Ht1|]. intros A f n a c' st' o Hl Hloc Hroom Ho. cbn [the_handle h_fid] in Hl.
  assert (Hle : leads (abs (srv w1)) (fs_next (abs (srv w))) (sh_tid s) (backslashes path) d).
  { rewrite Habs. unfold leads. cbn [fs_next fs_open fs_files opened]. rewrite N.eqb_refl. split; [lia|]. now split. }
  assert (Hmid1 : overflow_checks E = true -> mid (cl w1) = mid (cl w) + 1 /\ mid (cl w) + 2 + N.of_nat n <= 65535).
  { intros He. specialize (Hroom He). split; [|lia]. rewrite Hcl. unfold next_client. cbn [mid]. apply N.mod_small. lia. }
  destruct (@remote_local _ _ react _ abs conf E _ f _ _ _ _ _ _ Hloc w1 eq_refl eq_refl Ht1 Hi1) as (k2 & w2 & fs & Hrun2 & Hi2 & Hcl2 & Habs2 & _).
  { intros He. destruct (Hmid1 He) as [H1 H2]. lia. }
  pose proof (leads_local Hloc Hle Hl) as (Hx & Hop & Hct).
  destruct (@remote_call _ _ react _ abs conf E _ (ReadAt (the_handle (sh_tid s) (fs_next (abs (srv w))) (len d)) o) w2) as (k3 & w3 & g3 & Hrun3 & _).
  { rewrite Hcl2. exact (local_typed Hloc Ht1). }
  { exact Hi2. }
  { cbn [typed the_handle h_tid h_fid]. split; [exact Hts|]. split; [exact Hn|exact Ho]. }
  { exact I. }
  { exact I. }
  { intros [He Hm]. destruct (Hmid1 He) as [H1 H2]. rewrite Hcl2 in Hm. pose proof (local_mid Hloc). lia. }
  cbn [op_of the_handle h_tid h_fid file_service] in Hrun3. rewrite Habs2, Hop, Hct in Hrun3. cbn [fst returned] in Hrun3.
  exists (Nat.max k2 k3), w2, w3. intros fuel Hfu. split; [apply Hrun2; lia|apply Hrun3; lia].
Qed.
End Handle.
