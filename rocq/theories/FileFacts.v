(** * FileFacts: files end to end. *)
From Coq Require Import Lia.
From Verif Require Import Base BaseFacts Text TextFacts Win Errors Common Reply Ntlm Prog Client Spec SpecFacts SpecReply SpecMsg Api SpecCall
  RunFacts MsgFacts Flow FlowFacts SpecRemote RemoteFacts RefServer RefFacts FileService.
Set Implicit Arguments.
Unset Strict Implicit.
Open Scope N_scope.

(** ** more fuel does no harm *)
Inductive less {A} : flow A -> flow A -> Prop :=
| less_fuel g : less FFuel g
| less_ret a : less (FRet a) (FRet a)
| less_panic : less FPanic FPanic
| less_call R (c : call R) k k' : (forall r, less (k r) (k' r)) -> less (FCall c k) (FCall c k')
| less_state k k' : (forall c, less (k c) (k' c)) -> less (FState k) (FState k')
| less_uid u k k' : less k k' -> less (FUid u k) (FUid u k')
| less_options m u k k' : less k k' -> less (FOptions m u k) (FOptions m u k').
Lemma less_refl A (f : flow A) : less f f.
Proof. induction f; constructor; auto. Qed.
Lemma run_less Sv (react : Sv -> bytes -> reaction Sv) E fuel A (f g : flow A) : less f g ->
  forall w a w', run react (interp E fuel f) w = Done a w' -> run react (interp E fuel g) w = Done a w'.
Proof.
  induction 1 as [g|a| |R c k k' _ IH|k k' _ IH|u k k' _ IH|m u k k' _ IH]; intros w b w'; cbn [interp].
  - intros H. discriminate H.
  - trivial.
  - trivial.
  - rewrite !run_bind. destruct (run react (exec E fuel c) w) as [r w1|w1|w1|w1]; cbn [obind]; auto.
  - cbn [Prog.run]. apply IH.
  - cbn [Prog.run]. apply IH.
  - cbn [Prog.run]. apply IH.
Qed.
Lemma less_bind A B (f g : flow A) (k l : A -> flow B) : less f g -> (forall a, less (k a) (l a)) -> less (fbind f k) (fbind g l).
Proof.
  intros H Hk. induction H as [g|[a|e]| |R c f f' _ IH|f f' _ IH|u f f' _ IH|m u f f' _ IH]; cbn [fbind]; try (constructor; auto; fail). apply Hk.
Qed.
Lemma less_reads h n m : (n <= m)%nat -> forall data, less (download_reads n h data) (download_reads m h data).
Proof.
  revert m. induction n as [|n IH]; intros m Hm data; [constructor|]. destruct m as [|m]; [lia|]. cbn [download_reads].
  destruct (len data <? h_size h); [|constructor]. apply less_bind; [apply less_refl|]. intros chunk. apply IH. lia.
Qed.
Lemma less_download s path n m : (n <= m)%nat -> less (download_flow n s path) (download_flow m s path).
Proof.
  intros H. apply less_bind; [apply less_refl|]. intros h. apply less_bind; [now apply less_reads|]. intros d. apply less_refl.
Qed.
Lemma less_nexts s sid n m : (n <= m)%nat -> forall l, less (list_nexts n s sid l) (list_nexts m s sid l).
Proof.
  revert m. induction n as [|n IH]; intros m Hm l; [constructor|]. destruct m as [|m]; [lia|]. cbn [list_nexts].
  destruct (last (map Some l) None); [|constructor]. apply less_bind; [apply less_refl|]. intros r.
  destruct (fn_end r); [apply less_refl|]. apply IH. lia.
Qed.
Lemma less_list s pattern n m : (n <= m)%nat -> less (list_flow n s pattern) (list_flow m s pattern).
Proof.
  intros H. apply less_bind; [apply less_refl|]. intros r. destruct (ff_end r); [apply less_refl|]. now apply less_nexts.
Qed.

(** ** local runs *)
Section Local.
Variable St : Type.
Variable B : service St.
Lemma local_bind A X (p : flow A) (k : A -> flow X) c st n a c1 st1 : local B p c st n (Good a) c1 st1 ->
  forall m b c2 st2, local B (k a) c1 st1 m b c2 st2 -> local B (fbind p k) c st (n + m) b c2 st2.
Proof.
  intros H. remember (Good a) as x eqn:Ex. revert a Ex.
  induction H as [x c st|R q f c st r st1 n x c' st' Hq Hun Hfit HB _ IH|f c st n x c' st' _ IH|u f c st n x c' st' Hu _ IH|mm u f c st n x c' st' _ IH];
    intros a -> m b c2 st2 Hk; cbn [fbind].
  - exact Hk.
  - cbn [Nat.add]. apply l_call with (r := r) (st1 := st1); auto. eapply IH; [reflexivity|exact Hk].
  - apply l_state. eapply IH; [reflexivity|exact Hk].
  - apply l_uid; [exact Hu|]. eapply IH; [reflexivity|exact Hk].
  - apply l_options. eapply IH; [reflexivity|exact Hk].
Qed.
Lemma local_fails A X (p : flow A) (k : A -> flow X) c st n e c1 st1 : local B p c st n (Bad e) c1 st1 ->
  local B (fbind p k) c st n (Bad e) c1 st1.
Proof.
  intros H. remember (Bad e) as x eqn:Ex. revert e Ex.
  induction H as [x c st|R q f c st r st1 n x c' st' Hq Hun Hfit HB _ IH|f c st n x c' st' _ IH|u f c st n x c' st' Hu _ IH|mm u f c st n x c' st' _ IH];
    intros e ->; cbn [fbind].
  - constructor.
  - apply l_call with (r := r) (st1 := st1); auto.
  - apply l_state. auto.
  - apply l_uid; auto.
  - apply l_options. auto.
Qed.
Lemma local_call R (q : call R) c st r st1 : typed q -> unambiguous q -> fits_request (use_unicode c) q ->
  B (uid c) (op_of q) st = (r, st1) -> local B (fcall q) c st 1 (returned r) (next_client c) st1.
Proof. intros H1 H2 H3 H4. apply l_call with (r := r) (st1 := st1); auto. constructor. Qed.

(** ** downloads *)
Variable who : N.
Lemma pieces_none q : 1 <= q -> pieces 0 q = 0%nat.
Proof. intros H. unfold pieces. rewrite N.div_small by lia. reflexivity. Qed.
Lemma pieces_more n c q : 1 <= q -> q <= c -> c <= n -> (S (pieces (n - c) q) <= pieces n q)%nat.
Proof.
  intros Hq Hc Hn. unfold pieces. assert ((n - c + q - 1) / q + 1 <= (n + q - 1) / q); [|lia].
  rewrite <- N.div_add by lia. apply N.div_le_mono; lia.
Qed.
Lemma pieces_last n q : 1 <= q -> 0 < n -> (1 <= pieces n q)%nat.
Proof. intros Hq Hn. unfold pieces. assert (1 <= (n + q - 1) / q); [|lia]. apply N.div_le_lower_bound; lia. Qed.
Lemma local_reads (h : handle) d q inv : reads_file B who h d q inv -> 1 <= q -> h_size h = len d -> u16 (h_tid h) -> u16 (h_fid h) ->
  len d < 2 ^ 64 ->
  forall n done st c, inv st -> uid c = who -> len done <= len d -> take (len done) d = done -> (length d - length done < n)%nat ->
  exists m c' st', local B (download_reads n h done) c st m (Good d) c' st' /\ inv st' /\ uid c' = who
    /\ (m <= pieces (len d - len done) q)%nat /\ use_unicode c' = use_unicode c.
Proof.
  intros Hr Hq Hs Ht Hf Hd. induction n as [|n IH]; intros done st c Hi Hu Hl Hp Hn; [lia|]. cbn [download_reads]. rewrite Hs.
  destruct (N.ltb_spec (len done) (len d)) as [H|H].
  - destruct (Hr _ _ Hi H) as (chunk & rest & st1 & HB & Hi1 & Hdr & Hch).
    assert (Hd2 : d = done ++ chunk ++ rest) by (rewrite <- Hdr, <- Hp at 1; symmetry; apply take_drop).
    assert (Hld : len d = len done + len chunk + len rest) by (rewrite Hd2 at 1; rewrite !len_app; lia).
    assert (Hlc : 1 <= len chunk). { destruct Hch as [Hch| ->]; [lia|]. change (len (@nil byte)) with 0 in Hld. lia. }
    destruct (IH (done ++ chunk) st1 (next_client c) Hi1 Hu) as (m & c' & st' & HL & Hi' & Hu' & Hm & Huc).
    + rewrite len_app. lia.
    + rewrite Hd2, app_assoc. apply take_exact.
    + rewrite app_length. unfold len in Hld, Hlc. lia.
    + exists (S m), c', st'. rewrite len_app in Hm.
      split; [|split; [exact Hi'|split; [exact Hu'|split; [|exact Huc]]]].
      * change (S m) with (1 + m)%nat. eapply local_bind; [|exact HL].
        refine (local_call (r := inl chunk) _ _ _ _); [|exact I|exact I|rewrite Hu; exact HB].
        split; [exact Ht|]. split; [exact Hf|]. lia.
      * replace (len d - (len done + len chunk)) with (len d - len done - len chunk) in Hm by lia.
        destruct Hch as [Hch| ->]; [pose proof (@pieces_more (len d - len done) (len chunk) q Hq Hch); lia|].
        change (len (@nil byte)) with 0 in Hld. replace (len d - len done - len chunk) with 0 in Hm by lia. rewrite pieces_none in Hm by exact Hq.
        pose proof (@pieces_last (len d - len done) q Hq). lia.
  - exists 0%nat, c, st. assert (done = d) as ->; [|split; [constructor|split; [exact Hi|split; [exact Hu|split; [lia|reflexivity]]]]].
    rewrite <- Hp. apply take_all. lia.
Qed.

Lemma local_download s path d q st h over c n : file_at B who (sh_tid s) (backslashes path) d q st h over ->
  u16 (sh_tid s) -> is_str path -> fits_request (use_unicode c) (OpenFile s path) -> uid c = who -> len d < 2 ^ 64 -> (length d < n)%nat ->
  exists m c' st', local B (download_flow n s path) c st m (Good d) c' st' /\ over st' /\ uid c' = who
    /\ (m <= 2 + pieces (len d) q)%nat /\ use_unicode c' = use_unicode c.
Proof.
  intros (Hq & Hs & Ht & Hf & inv & (st1 & HB & Hi) & Hr & Hc) Hts Hpath Hfit Hu Hd Hn.
  destruct (local_reads Hr Hq Hs Ht Hf Hd (n := n) (done := []) (c := next_client c) Hi Hu)
    as (m & c' & st' & HL & Hi' & Hu' & Hm & Huc); [apply N.le_0_l|reflexivity|cbn [length]; lia|].
  change (len (@nil byte)) with 0 in Hm. rewrite N.sub_0_r in Hm.
  destruct (Hc st' Hi') as (st2 & HB2 & Hover).
  exists (1 + (m + (1 + 0)))%nat, (next_client c'), st2. 
  split; [|split; [exact Hover|split; [exact Hu'|split; [lia|exact Huc]]]].
  eapply local_bind; [refine (local_call (r := inl h) _ _ _ _)|].
  - split; [exact Hts|exact Hpath].
  - exact I.
  - exact Hfit.
  - rewrite Hu. exact HB.
  - eapply local_bind; [exact HL|]. eapply local_bind; [refine (local_call (r := inl tt) _ _ _ _)|constructor].
    + split; [exact Ht|exact Hf].
    + exact I.
    + exact I.
    + rewrite Hu'. exact HB2.
Qed.
Lemma local_missing s path st c n code st1 : B (uid c) (OOpenFile (sh_tid s) (backslashes path)) st = (inr code, st1) ->
  u16 (sh_tid s) -> is_str path -> fits_request (use_unicode c) (OpenFile s path) ->
  local B (download_flow n s path) c st 1 (Bad (ServerError (status_of_code code))) (next_client c) st1.
Proof.
  intros HB Hts Hpath Hfit. apply local_fails. refine (local_call (r := inr code) _ _ _ _); [now split|exact I|exact Hfit|exact HB].
Qed.
Lemma local_list s pattern st c n l sid st1 :
  B (uid c) (OFindFirst (sh_tid s) (backslashes pattern)) st = (inl (mk_found sid true l), st1) ->
  u16 (sh_tid s) -> is_str pattern -> fits_request (use_unicode c) (FindFirst s pattern) ->
  local B (list_flow n s pattern) c st 1 (Good l) (next_client c) st1.
Proof.
  intros HB Hts Hpath Hfit. change 1%nat with (1 + 0)%nat. eapply local_bind.
  - refine (local_call (q := FindFirst s pattern) (r := inl _) _ _ _ HB); [now split|exact I|exact Hfit].
  - cbn [ff_end ff_info]. constructor.
Qed.
End Local.

(** ** on a server *)
Section Server.
Variables Sv St : Type.
Variable react : Sv -> bytes -> reaction Sv.
Variable B : service St.
Variable abs : Sv -> St.
Hypothesis conf : conforming react B abs.
Variable E : env.

Lemma remote_download w s path d q h over : typed_client (cl w) -> idle w ->
  file_at B (uid (cl w)) (sh_tid s) (backslashes path) d q (abs (srv w)) h over ->
  u16 (sh_tid s) -> is_str path -> fits_request (use_unicode (cl w)) (OpenFile s path) -> len d < 2 ^ 64 ->
  room E (cl w) (2 + pieces (len d) q) ->
  exists k w' fs, (forall fuel, (k <= fuel)%nat -> run react (download E fuel s path) w = Done (Good d) w')
    /\ idle w' /\ over (abs (srv w')) /\ tx w' = tx w ++ fs /\ (length fs <= 2 + pieces (len d) q)%nat
    /\ uid (cl w') = uid (cl w) /\ use_unicode (cl w') = use_unicode (cl w).
Proof.
  intros Ht Hi Hfa Hts Hpath Hfit Hd Hroom.
  destruct (local_download (n := S (length d)) Hfa Hts Hpath Hfit eq_refl Hd ltac:(lia)) as (m & c' & st' & HL & Hov & Hu & Hm & Huc).
  destruct (remote_local conf (E := E) HL eq_refl eq_refl Ht Hi) as (k & w' & fs & Hrun & Hi' & Hcl & Habs & Htx & Hlen).
  { intros Ho. specialize (Hroom Ho). lia. }
  exists (Nat.max k (S (length d))), w', fs. split.
  - intros fuel Hf. rewrite (download_same E fuel s path). eapply run_less; [|apply Hrun; lia]. apply less_download. lia.
  - split; [exact Hi'|]. rewrite Habs. split; [exact Hov|]. split; [exact Htx|]. split; [lia|]. rewrite Hcl. now split.
Qed.
Lemma remote_missing w s path code st1 : typed_client (cl w) -> idle w ->
  B (uid (cl w)) (OOpenFile (sh_tid s) (backslashes path)) (abs (srv w)) = (inr code, st1) ->
  u16 (sh_tid s) -> is_str path -> fits_request (use_unicode (cl w)) (OpenFile s path) -> room E (cl w) 1 ->
  exists k w' f, (forall fuel, (k <= fuel)%nat -> run react (download E fuel s path) w = Done (Bad (ServerError (status_of_code code))) w')
    /\ idle w' /\ abs (srv w') = st1 /\ tx w' = tx w ++ [f].
Proof.
  intros Ht Hi HB Hts Hpath Hfit Hroom.
  destruct (remote_local conf (E := E) (local_missing 1 HB Hts Hpath Hfit) eq_refl eq_refl Ht Hi Hroom)
    as (k & w' & fs & Hrun & Hi' & Hcl & Habs & Htx & Hlen).
  destruct fs as [|f [|? ?]]; try discriminate Hlen. exists (Nat.max k 1), w', f. split.
  - intros fuel Hf. rewrite (download_same E fuel s path). eapply run_less; [|apply Hrun; lia]. apply less_download. lia.
  - split; [exact Hi'|]. split; [exact Habs|exact Htx].
Qed.
Lemma remote_list w s pattern l sid st1 : typed_client (cl w) -> idle w ->
  B (uid (cl w)) (OFindFirst (sh_tid s) (backslashes pattern)) (abs (srv w)) = (inl (mk_found sid true l), st1) ->
  u16 (sh_tid s) -> is_str pattern -> fits_request (use_unicode (cl w)) (FindFirst s pattern) -> room E (cl w) 1 ->
  exists k w' f, (forall fuel, (k <= fuel)%nat -> run react (list_dir E fuel s pattern) w = Done (Good l) w')
    /\ idle w' /\ abs (srv w') = st1 /\ tx w' = tx w ++ [f].
Proof.
  intros Ht Hi HB Hts Hpath Hfit Hroom.
  destruct (remote_local conf (E := E) (local_list 1 HB Hts Hpath Hfit) eq_refl eq_refl Ht Hi Hroom)
    as (k & w' & fs & Hrun & Hi' & Hcl & Habs & Htx & Hlen).
  destruct fs as [|f [|? ?]]; try discriminate Hlen. exists (Nat.max k 1), w', f. split.
  - intros fuel Hf. rewrite (list_same E fuel s pattern). eapply run_less; [|apply Hrun; lia]. apply less_list. lia.
  - split; [exact Hi'|]. split; [exact Habs|exact Htx].
Qed.
End Server.

(** ** the file service *)
Lemma text_eqb_iff a b : text_eqb a b = true <-> a = b.
Proof. unfold text_eqb. destruct (list_eq_dec N.eq_dec a b); split; congruence. Qed.
Lemma closed_same l fid : Forall (fun e : N * (N * text) => fst e < fid) l -> closed l fid = l.
Proof.
  induction 1 as [|[f e] l H _ IH]; [reflexivity|]. cbn [closed filter fst] in *. destruct (N.eqb_spec f fid); [lia|].
  cbn [negb]. f_equal. exact IH.
Qed.
Lemma contents_without l tid path tid' path' :
  contents (without l tid path) tid' path' = if (tid =? tid') && text_eqb path path' then None else contents l tid' path'.
Proof.
  induction l as [|[[t p] d] l IH]; [cbn; now destruct (_ && _)|].
  cbn [without filter fst snd contents]. fold (without l tid path).
  destruct ((t =? tid) && text_eqb p path) eqn:E1; cbn [negb contents]; rewrite IH.
  - apply andb_prop in E1 as [E1 E2]. apply N.eqb_eq in E1. apply text_eqb_iff in E2. subst t p.
    destruct ((tid =? tid') && text_eqb path path'); reflexivity.
  - destruct ((t =? tid') && text_eqb p path') eqn:E2; [|reflexivity].
    apply andb_prop in E2 as [E2 E3]. apply N.eqb_eq in E2. apply text_eqb_iff in E3. subst t p.
    destruct ((tid =? tid') && text_eqb path path') eqn:E4; [|reflexivity].
    apply andb_prop in E4 as [E4 E5]. apply N.eqb_eq in E4. apply text_eqb_iff in E5. subst tid path.
    rewrite N.eqb_refl in E1. cbn [andb] in E1. assert (text_eqb path' path' = true) by now apply text_eqb_iff. congruence.
Qed.

Section Files.
Variable tree : text -> text -> option N.
Variable setup : server_setup.
Variable accepts : text -> text -> bytes -> option N.
Notation FS := (file_service tree setup accepts).

Lemma files_proper : (forall p w tid, tree p w = Some tid -> u16 tid) -> (forall u d x id, accepts u d x = Some id -> u16 id) ->
  proper_server setup -> proper FS.
Proof.
  intros H1 H2 H3 R who o s. destruct o; cbn [file_service fst proper_value].
  - destruct (tree path password) as [tid|] eqn:E; [|repeat split; discriminate]. apply H1 in E.
    unfold proper_share. cbn [sh_tid sh_access_rights sh_guest_rights sh_service sh_filesystem rights].
    split; [exact E|]. split; [exact I|]. split; [exact I|]. split; [reflexivity|].
    split; [split; [repeat constructor; left; reflexivity|cbn; lia]|].
    split; [split; [repeat constructor; left; reflexivity|cbn; lia]|]. vm_compute. reflexivity.
  - exact I.
  - destruct (contents (fs_files s) tid path) as [d|]; [|repeat split; discriminate].
    destruct ((fs_next s <? 65536) && (tid <? 65536) && (len d <? 2 ^ 64)) eqn:E; [|repeat split; discriminate].
    apply andb_prop in E as [E E3]. apply andb_prop in E as [E1 E2]. apply N.ltb_lt in E1, E2, E3.
    unfold proper_handle, the_handle, u64, within.
    cbn [fst h_tid h_fid h_oplock h_disposition h_create_time h_access_time h_write_time h_change_time h_attributes h_allocation_size h_size h_file_type].
    change (2 ^ 64) with 18446744073709551616 in E3.
    split; [exact E2|]. split; [exact E1|]. split; [reflexivity|]. split; [reflexivity|]. split; [reflexivity|]. split; [reflexivity|].
    split; [reflexivity|]. split; [reflexivity|]. split; [reflexivity|]. split; [exact E3|]. split; [exact E3|reflexivity].
  - repeat split; discriminate.
  - destruct (opened (fs_open s) fid); [exact I|repeat split; discriminate].
  - destruct (opened (fs_open s) fid) as [[t path]|]; [|repeat split; discriminate].
    destruct (contents (fs_files s) t path) as [d|]; [|repeat split; discriminate]. cbn [fst]. rewrite len_take. lia.
  - destruct (contents (fs_files s) tid path); [exact I|repeat split; discriminate].
  - repeat split; discriminate.
  - repeat split; discriminate.
  - cbv zeta. destruct (N.ltb_spec (len (write_entries (listing s tid pattern))) 65400) as [E|E]; [|repeat split; discriminate].
    cbn [fst proper_value]. unfold proper_found. cbn [ff_sid ff_info ff_end]. split; [reflexivity|]. split; [|split; [reflexivity|exact E]].
    unfold listing. apply Forall_map, Forall_forall. intros [[t p] d] Hin. apply filter_In in Hin as [_ Hin].
    apply andb_prop in Hin as [_ Hin]. cbn [fst snd] in Hin. unfold expressible in Hin. apply andb_prop in Hin as [Hs Hl].
    apply is_text_str in Hs. apply N.ltb_lt in Hl. change (2 ^ 64) with 18446744073709551616 in Hl.
    unfold proper_entry, entry_of, u64, within. cbn [d_creation d_access d_write d_change d_filesize d_attributes d_filename fst snd].
    split; [reflexivity|]. split; [reflexivity|]. split; [reflexivity|]. split; [reflexivity|]. split; [exact Hl|]. split; [reflexivity|exact Hs].
  - split; reflexivity.
  - exact H3.
  - destruct (accepts user domain secret) as [id|] eqn:E; [|repeat split; discriminate]. apply H2 in E. split; [exact E|reflexivity].
  - repeat split; discriminate.
Qed.

Lemma file_there s who tid path d : sound_files s -> contents (fs_files s) tid path = Some d -> fs_next s < 65536 -> u16 tid -> len d < 2 ^ 64 ->
  file_at FS who tid path d 65534 s (the_handle tid (fs_next s) (len d))
    (fun s' => s' = mk_files (fs_files s) (fs_open s) (fs_next s + 1)).
Proof.
  intros Hs Hc Hn Ht Hd. split; [discriminate|]. split; [reflexivity|]. split; [exact Ht|]. split; [exact Hn|].
  exists (fun s' => s' = mk_files (fs_files s) ((fs_next s, (tid, path)) :: fs_open s) (fs_next s + 1)).
  unfold u16 in Ht. split; [|split].
  - eexists. split; [|reflexivity]. cbn [file_service]. rewrite Hc.
    destruct (N.ltb_spec (fs_next s) 65536); [|lia]. destruct (N.ltb_spec tid 65536); [|lia]. destruct (N.ltb_spec (len d) (2 ^ 64)); [|lia]. reflexivity.
  - intros st o -> Ho. cbn [file_service the_handle h_tid h_fid fs_open opened fs_files]. rewrite N.eqb_refl, Hc.
    exists (take 65534 (drop o d)), (drop 65534 (drop o d)). eexists. split; [reflexivity|]. split; [reflexivity|].
    split; [symmetry; apply take_drop|]. destruct (N.leb_spec 65534 (len (drop o d))) as [X|X].
    + left. rewrite len_take. lia.
    + right. apply drop_all. lia.
  - intros st' ->. cbn [file_service the_handle h_tid h_fid fs_open opened fs_files fs_next]. rewrite N.eqb_refl.
    eexists. split; [reflexivity|]. f_equal. cbn [closed filter fst]. rewrite N.eqb_refl. cbn [negb]. now apply closed_same.
Qed.
End Files.

(** ** the file service behind a server *)
Section Behind.
Variable tree : text -> text -> option N.
Variable setup : server_setup.
Variable accepts : text -> text -> bytes -> option N.
Variable Sv : Type.
Variable react : Sv -> bytes -> reaction Sv.
Variable abs : Sv -> files.
Hypothesis conf : conforming react (file_service tree setup accepts) abs.
Variable E : env.
Notation world := (world cifs Sv).

Lemma files_download (w : world) s path d : typed_client (cl w) -> idle w -> sound_files (abs (srv w)) ->
  contents (fs_files (abs (srv w))) (sh_tid s) (backslashes path) = Some d -> fs_next (abs (srv w)) < 65536 ->
  u16 (sh_tid s) -> is_str path -> fits_request (use_unicode (cl w)) (OpenFile s path) -> len d < 2 ^ 64 ->
  room E (cl w) (2 + pieces (len d) 65534) ->
  exists k w', (forall fuel, (k <= fuel)%nat -> run react (download E fuel s path) w = Done (Good d) w') /\ idle w'
    /\ abs (srv w') = mk_files (fs_files (abs (srv w))) (fs_open (abs (srv w))) (fs_next (abs (srv w)) + 1).
Proof.
  intros Ht Hi Hs Hc Hn Hts Hp Hf Hd Hr.
  destruct (remote_download conf (E := E) Ht Hi (file_there tree setup accepts (uid (cl w)) Hs Hc Hn Hts Hd) Hts Hp Hf Hd Hr)
    as (k & w' & fs & Hrun & Hi' & Ho & _). exists k, w'. auto.
Qed.
Lemma files_absent (w : world) s path : typed_client (cl w) -> idle w ->
  contents (fs_files (abs (srv w))) (sh_tid s) (backslashes path) = None ->
  u16 (sh_tid s) -> is_str path -> fits_request (use_unicode (cl w)) (OpenFile s path) -> room E (cl w) 1 ->
  exists k w', (forall fuel, (k <= fuel)%nat -> run react (download E fuel s path) w = Done (Bad (ServerError (Known NAME_NOT_FOUND))) w')
    /\ idle w' /\ abs (srv w') = abs (srv w).
Proof.
  intros Ht Hi Hc Hts Hp Hf Hr.
  destruct (remote_missing conf (E := E) (w := w) (s := s) (path := path) (code := ST_NOT_FOUND) (st1 := abs (srv w)) Ht Hi)
    as (k & w' & f & Hrun & Hi' & Ho & _); try assumption.
  - cbn [file_service]. rewrite Hc. reflexivity.
  - exists k, w'. auto.
Qed.
Lemma files_delete (w : world) s path d : typed_client (cl w) -> idle w ->
  contents (fs_files (abs (srv w))) (sh_tid s) (backslashes path) = Some d ->
  u16 (sh_tid s) -> is_str path -> fits_request (use_unicode (cl w)) (Delete s path) -> room E (cl w) 1 ->
  exists k w', (forall fuel, (k <= fuel)%nat -> run react (delete E fuel s path) w = Done (Good tt) w')
    /\ idle w' /\ forall tid q, contents (fs_files (abs (srv w'))) tid q
       = if (sh_tid s =? tid) && text_eqb (backslashes path) q then None else contents (fs_files (abs (srv w))) tid q.
Proof.
  intros Ht Hi Hc Hts Hp Hf Hr.
  destruct (@remote_call _ _ _ _ _ conf E _ (Delete s path) w Ht Hi) as (k & w' & f & Hrun & Hi' & _ & Habs & _).
  - now split.
  - exact I.
  - exact Hf.
  - intros [Ho Hm]. specialize (Hr Ho). lia.
  - cbn [op_of file_service] in Hrun, Habs. rewrite Hc in Hrun, Habs. cbn [fst snd returned] in Hrun, Habs.
    exists k, w'. split; [exact Hrun|]. split; [exact Hi'|]. intros tid q. rewrite Habs. apply contents_without.
Qed.
Lemma files_list (w : world) s pattern : typed_client (cl w) -> idle w ->
  len (write_entries (listing (abs (srv w)) (sh_tid s) (backslashes pattern))) < 65400 ->
  u16 (sh_tid s) -> is_str pattern -> fits_request (use_unicode (cl w)) (FindFirst s pattern) -> room E (cl w) 1 ->
  exists k w', (forall fuel, (k <= fuel)%nat -> run react (list_dir E fuel s pattern) w
      = Done (Good (listing (abs (srv w)) (sh_tid s) (backslashes pattern))) w')
    /\ idle w' /\ abs (srv w') = abs (srv w).
Proof.
  intros Ht Hi Hl Hts Hp Hf Hr.
  destruct (remote_list conf (E := E) (w := w) (s := s) (pattern := pattern) (sid := 1) (st1 := abs (srv w))
      (l := listing (abs (srv w)) (sh_tid s) (backslashes pattern)) Ht Hi) as (k & w' & f & Hrun & Hi' & Ho & _); try assumption.
  - cbn [file_service]. cbv zeta. destruct (N.ltb_spec (len (write_entries (listing (abs (srv w)) (sh_tid s) (backslashes pattern)))) 65400); [|lia].
    reflexivity.
  - exists k, w'. auto.
Qed.
End Behind.
